(** Model of connection set-up: OWPControlOpen (capi.c 386-672) and OWPControlAccept
    (sapi.c 247-518) from the moment the TCP connection exists.
    All line numbers refer to /repo/owamp/owamp/owamp/. *)
From Coq Require Import ZArith List Bool.
From Verif Require Import Base Time_Model Sched_Model Wire_Model Control_Model.
Import ListNotations.
Open Scope Z_scope.

(** What a pass-phrase look-up (_OWPCallGetPF, context.c 793-817) answers: the pass phrase if the
    user is known, and the severity it stores. *)
Definition pf_answer := (option (list Z) * Z)%type.

Section Setup.
Variable E D H : list Z -> list Z -> list Z.
(** I2pbkdf2: key derivation from pass phrase, salt and count; None: it reports an error *)
Variable kdf : list Z -> list Z -> Z -> option (list Z).

(** io.c 176-208: OWPEncryptToken *)
Definition encrypt_token (pf salt : list Z) (count : Z) (tok : list Z) : option (list Z) :=
  match kdf pf salt count with
  | None => None
  | Some k => Some (fst (cbc_enc E k (zeros 16) 4 tok))
  end.

(** io.c 210-242: OWPDecryptToken *)
Definition decrypt_token (pf salt : list Z) (count : Z) (tok : list Z) : option (list Z) :=
  match kdf pf salt count with
  | None => None
  | Some k => Some (fst (cbc_dec D k (zeros 16) 4 tok))
  end.

(** ** Client *)

Inductive selected := SelMode (m : Z) | SelDenied | SelError.

(** capi.c 465-533: choice of the mode.  [offered]: from the greeting; [haspf]: a pass phrase was
    found; [policy m]: answer and severity of the control policy hook for mode m. *)
Definition select_mode (offered req : Z) (haspf twoway : bool) (policy : Z -> bool * Z) : selected :=
  let avail := Z.land offered req in
  let avail := if haspf then avail else Z.ldiff avail DOCIPHER_CNTRL in
  let has m := negb (Z.land avail m =? 0) in
  let try (err m : Z) (cond : bool) :=      (* 495-524: only while err_ret is OK *)
    if (err =? ErrOK) && cond && has m then policy m else (false, err) in
  let (a4, e4) := try ErrOK MODE_ENCR true in
  if a4 then SelMode MODE_ENCR else
  let (a2, e2) := try e4 MODE_AUTH true in
  if a2 then SelMode MODE_AUTH else
  let (a8, e8) := try e2 MODE_MIXED twoway in
  if a8 then SelMode MODE_MIXED else
  let (a1, e1) := try e8 MODE_OPEN true in
  if a1 then SelMode MODE_OPEN else
  if e1 =? ErrOK then SelDenied else SelError.

(** What the client application and the world provide: requested modes, user id (as the 80 octets that
    strncpy leaves in userid_buffer) if given, pass-phrase look-up, policy hook, random octets. *)
Record cworld := mkCW {
  cw_req : Z; cw_user : option (list Z); cw_getpf : list Z -> pf_answer;
  cw_policy : Z -> bool * Z;
  cw_key : option (list Z); cw_hkey : option (list Z); cw_iv : option (list Z) }.

Inductive opened := OpenOK (c : ctl) | OpenDenied (c : ctl) | OpenError (c : ctl).

(** capi.c 467-487: the pass phrase, None: error *)
Definition client_pf (w : cworld) (offered : Z) : option (option (list Z)) :=
  match cw_user w with
  | Some u =>
      if negb (Z.land (Z.land offered (cw_req w)) DOCIPHER_CNTRL =? 0) then
        let (pf, err) := cw_getpf w u in
        match pf with
        | Some p => Some (Some p)
        | None => if err =? ErrOK then Some None else None
        end
      else Some None
  | None => Some None
  end.

(** capi.c 454-607: greeting, mode selection, key material, set-up response.  The clock readings
    (rtt_bound) are not modelled. *)
Definition open_respond (c : ctl) (w : cworld) : opened :=
  let '(rc, (offered, challenge, salt, count), c) := read_greeting c in
  if negb (rc =? ErrOK) then OpenError c else
  match client_pf w offered with
  | None => OpenError c
  | Some pf =>
      match select_mode offered (cw_req w) (match pf with Some _ => true | None => false end) (twoway c) (cw_policy w) with
      | SelDenied => OpenDenied c
      | SelError => OpenError c
      | SelMode m =>
          let c := set_mode c m in
          let '(c, token) :=
            if ciphers c then
              match cw_key w, cw_hkey w, cw_iv w with
              | Some k, Some hk, Some iv =>
                  (set_wiv (set_hkey (set_key c k) hk) iv,
                   encrypt_token (match pf with Some p => p | None => [] end) salt count (challenge ++ k ++ hk))
              | _, _, _ => (c, None)
              end
            else (c, Some (zeros 64)) in
          match token with
          | None => OpenError c
          | Some t =>
              let (rc, c) := write_setup c (match cw_user w with Some u => u | None => zeros 80 end) t in
              if rc =? ErrOK then OpenOK c else OpenError c
          end
      end
  end.

(** capi.c 604-651: the server's answer; uptime on success *)
Definition open_finish (c : ctl) : opened * Z :=
  let '(rc, (a, up), c) := read_server_start D c in
  if negb (rc =? ErrOK) then (OpenError c, 0) else
  if negb (a =? CNTRL_ACCEPT) then (OpenDenied c, 0) else (OpenOK c, up).

(** ** Server *)

(** What the server application and the world provide: pass-phrase look-up, policy hook (given mode
    and authenticated user), random octets for the IV. *)
Record sworld := mkSWorld {
  sw_getpf : list Z -> pf_answer; sw_policy : Z -> option (list Z) -> bool * Z; sw_iv : option (list Z) }.

(** result: the connection handed to the application with the user it was authenticated as, or the
    connection as it is closed *)
Inductive accepted := AcceptOK (c : ctl) (user : option (list Z)) | AcceptNo (c : ctl).

(** sapi.c 349-368: greeting; a server that offers no mode closes right after it *)
Definition accept_greet (c : ctl) (offered : Z) (challenge salt : list Z) (count : Z) : bool * ctl :=
  let (rc, c) := write_greeting c offered challenge salt count in
  ((rc =? ErrOK) && negb (offered =? 0), c).

(** sapi.c 474-510: control policy and acceptance, once the client has proved what it has to *)
Definition accept_finish (c : ctl) (m uptime : Z) (w : sworld) (user : option (list Z)) : accepted :=
  let (ok, err) := sw_policy w m user in
  if negb ok then AcceptNo (snd (write_server_start E c (if ErrWARNING <? err then CNTRL_REJECT else CNTRL_FAILURE) 0)) else
  let (rc, c) := write_server_start E c CNTRL_ACCEPT uptime in
  if rc =? ErrOK then AcceptOK c user else AcceptNo c.

(** sapi.c 370-510: everything after the greeting *)
Definition accept_decide (c : ctl) (offered : Z) (challenge salt : list Z) (count uptime : Z) (w : sworld) : accepted :=
  let '(rc, (m, user, raw, iv), c) := read_setup c in
  if negb (rc =? ErrOK) then AcceptNo c else
  let c := set_riv (set_mode c m) iv in
  if negb (m =? MODE_OPEN) && (negb (twoway c) || negb (m =? MODE_MIXED)) && negb (m =? MODE_AUTH) && negb (m =? MODE_ENCR)
  then AcceptNo c else                                                         (* 388-394 *)
  let reject c code := AcceptNo (snd (write_server_start E c code 0)) in
  if Z.lor m offered =? 0 then reject c CNTRL_REJECT else                     (* 396-405 *)
  let finish c user := accept_finish c m uptime w user in
  if ciphers c then
    let (pf, err) := sw_getpf w user in
    match pf, err =? ErrOK with
    | None, false => reject c CNTRL_FAILURE                                    (* 416-421 *)
    | _, _ =>
        match decrypt_token (match pf with Some p => p | None => [] end) salt count raw with
        | None => reject c CNTRL_FAILURE
        | Some tok =>
            if negb (eqb_octets challenge (firstn 16 tok)) || match pf with None => true | _ => false end
            then reject c CNTRL_REJECT else
            match sw_iv w with
            | None => reject c CNTRL_FAILURE
            | Some wi => finish (set_hkey (set_key (set_wiv c wi) (sub 16 16 tok)) (sub 32 32 tok)) (Some user)
            end
        end
    end
  else finish c None.

End Setup.
