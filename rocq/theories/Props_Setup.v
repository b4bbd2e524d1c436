(** Property theorems C20-C23, C60 and C61: connection set-up and the acceptance of requests.
    [usable], [strength], [single_mode], [feed], [fresh] are in Setup_Spec.v. *)
From Coq Require Import ZArith List Bool Lia.
From Verif Require Import Base BaseLemmas Time_Model Sched_Model Wire_Model Wire_Spec Control_Model Control_Spec Stop_Model Setup_Model Setup_Spec
  Setup_Select Setup_Proofs Server_Model Server_Spec Server_Proofs Toy Boundary_Proofs.
Import ListNotations.
Open Scope Z_scope.

(** ** C20 *)

(** OWPControlOpen got past the choice of the mode: offered modes are octets 12-15 of the
    greeting that has arrived, the mode in use is what the first four octets of the reply say. *)
Theorem C20_client_mode : forall E kdf c w c', wf c -> open_respond E kdf c w = OpenOK c' ->
  let offered := field (inp c) 12 4 in let m := mode c' in
  exists haskey, usable offered (cw_req w) haskey (twoway c) m /\
    (haskey = true -> exists u p, cw_user w = Some u /\ fst (cw_getpf w u) = Some p) /\
    fst (cw_policy w m) = true /\
    (forall m', usable offered (cw_req w) haskey (twoway c) m' -> (strength m < strength m')%nat -> fst (cw_policy w m') = false) /\
    exists reply, outp c' = outp c ++ reply /\ field reply 0 4 = m.
Proof. exact (fun E kdf => open_respond_sound E E kdf). Qed.
Print Assumptions C20_client_mode.

(** ... and a usable mode that the local policy permits is never missed. *)
Theorem C20_usable_mode_found : forall offered req haskey tw policy m,
  usable offered req haskey tw m -> fst (policy m) = true -> (forall m', snd (policy m') = ErrOK) ->
  exists m', select_mode offered req haskey tw policy = SelMode m'.
Proof. exact select_complete. Qed.
Print Assumptions C20_usable_mode_found.

(** ... nor does an error of the policy hook lead to a weaker mode: every stronger usable mode was
    refused by a plain "no". *)
Theorem C20_no_weaker_mode_after_error : forall offered req haskey tw policy m m',
  select_mode offered req haskey tw policy = SelMode m ->
  usable offered req haskey tw m' -> (strength m < strength m')%nat -> policy m' = (false, ErrOK).
Proof. intros offered req haskey tw policy m m' S. exact (select_clean offered req haskey tw policy m S m'). Qed.
Print Assumptions C20_no_weaker_mode_after_error.
Example C20_no_weaker_mode_witness :
  select_mode 7 7 true false (fun m => (m <? 4, ErrOK)) = SelMode 2 /\ usable 7 7 true false 4 /\ (strength 2 < strength 4)%nat /\
  select_mode 7 7 true false (fun m => (m <? 4, if m =? 4 then ErrFATAL else ErrOK)) = SelError.
Proof. split; [reflexivity|split; [|split; [cbn; lia|reflexivity]]]. unfold usable, contains, single_mode; cbn; intuition lia. Qed.

Definition toy_kdf (pf salt : list Z) (count : Z) : option (list Z) := Some (firstn 16 (pf ++ zeros 16)).
Definition toy_cw (req : Z) : cworld :=
  mkCW req (Some (repeat 65 80)) (fun _ => (Some [1;2;3], ErrOK)) (fun _ => (true, ErrOK))
    (Some (repeat 11 16)) (Some (repeat 12 32)) (Some (repeat 13 16)).
Definition toy_new (tw : bool) : ctl := set_mode (toy 0 0 tw []) 0.
(** a greeting offering all of open, authenticated and encrypted; the client wants one of the first two *)
Definition toy_greeting : list Z := zeros 15 ++ [7] ++ repeat 21 16 ++ repeat 22 16 ++ [0;0;4;0] ++ zeros 12.
Example C20_example :
  exists c', open_respond toyE toy_kdf (feed (toy_new false) toy_greeting) (toy_cw 3) = OpenOK c' /\ mode c' = 2.
Proof.
  assert (R: match open_respond toyE toy_kdf (feed (toy_new false) toy_greeting) (toy_cw 3) with OpenOK c => mode c | _ => 0 end = 2)
    by (vm_compute; reflexivity).
  destruct (open_respond toyE toy_kdf (feed (toy_new false) toy_greeting) (toy_cw 3)) as [c'|c'|c']; [|discriminate|discriminate].
  exists c'. split; [reflexivity|exact R].
Qed.

(** ** C21 *)

(** The server checks the mode against what it offered with "or" instead of "and": a server that
    offers authenticated mode only accepts a client that asks for open mode. *)
Theorem C21_server_accepts_offered_modes_only_refuted : exists s offered chal salt count w,
  wf s /\ quiet s /\ offered = MODE_AUTH /\
  forall E D kdf, exists s', accept_decide E D kdf s offered chal salt count 0 w = AcceptOK s' None /\
    single_mode (mode s') /\ ~ contains offered (mode s').
Proof.
  exists (feed (toy StSetup 0 false []) ([0;0;0;1] ++ zeros 160)), MODE_AUTH, (repeat 1 16), (repeat 2 16), 1024,
    (mkSWorld (fun _ => (None, ErrOK)) (fun _ _ => (true, ErrOK)) (Some (repeat 3 16))).
  split; [repeat split|]. split; [constructor|]. split; [reflexivity|]. intros E D kdf.
  eexists. split; [vm_compute; reflexivity|]. split; [left; reflexivity|]. vm_compute. discriminate.
Qed.
Print Assumptions C21_server_accepts_offered_modes_only_refuted.

(** What does hold: exactly one mode, and a server that offers none accepts nobody.  Missing: that
    the mode is one of those offered. *)
Theorem C21_server_mode_partial : forall E D kdf s offered chal salt count uptime w s' u, wf s ->
  accept_decide E D kdf s offered chal salt count uptime w = AcceptOK s' u ->
  single_mode (mode s') /\ mode s' = field (inp s) 0 4 /\ (mode s' = 8 -> twoway s = true) /\ fst (sw_policy w (mode s') u) = true.
Proof.
  intros E D kdf s offered chal salt count uptime w s' u W A.
  destruct (accept_sound E D kdf s offered chal salt count uptime w s' u W A) as ((S & T) & M & P & _).
  rewrite M. split; [exact S|]. split; [unfold field, octs_at; cbn [skipn]; now rewrite firstn_firstn|]. split; [exact T|exact P].
Qed.
Print Assumptions C21_server_mode_partial.

Theorem C21_no_mode_no_service : forall c chal salt count, fst (accept_greet c 0 chal salt count) = false.
Proof. intros. unfold accept_greet. destruct (write_greeting c 0 chal salt count) as [rc c']. cbn. apply andb_false_r. Qed.
Print Assumptions C21_no_mode_no_service.

(** ** C22 *)

(** [r]: the set-up response; octets 4-83 the user, 84-147 the token, 148-163 the client's IV. *)
Theorem C22_accepted_client_knows_the_key : forall E D kdf s offered chal salt count uptime w s' u, wf s ->
  accept_decide E D kdf s offered chal salt count uptime w = AcceptOK s' u ->
  let r := firstn 164 (inp s) in let m := field r 0 4 in
  (single_mode m /\ (m = 8 -> twoway s = true)) /\ mode s' = m /\ fst (sw_policy w m u) = true /\
  (m = 1 -> u = None) /\
  (m <> 1 -> u = Some (octs_at r 4 80) /\
     exists pf k, fst (sw_getpf w (octs_at r 4 80)) = Some pf /\ kdf pf salt count = Some k /\
       let tok := fst (cbc_dec D k (zeros 16) 4 (octs_at r 84 64)) in
       octs_at tok 0 16 = chal /\ key s' = octs_at tok 16 16 /\ hkey s' = octs_at tok 32 32 /\ riv s' = octs_at r 148 16).
Proof. exact accept_sound. Qed.
Print Assumptions C22_accepted_client_knows_the_key.

(** A client that knows the pass phrase is accepted, and both sides are then ready to talk in
    both directions with the keys the client chose. *)
Theorem C22_honest_client_is_accepted : forall E D, block_cipher E D -> forall kdf c0 s0 offered chal salt count uptime cw sw user pf k hk civ siv kk m,
  fresh c0 -> fresh s0 -> twoway c0 = twoway s0 ->
  0 <= offered < 2^32 -> length chal = 16%nat -> length salt = 16%nat -> 0 <= count < 2^32 -> 0 <= uptime < 2^64 ->
  cw_user cw = Some user -> length user = 80%nat ->
  fst (cw_getpf cw user) = Some pf -> fst (sw_getpf sw user) = Some pf -> kdf pf salt count = Some kk ->
  cw_key cw = Some k -> length k = 16%nat -> cw_hkey cw = Some hk -> length hk = 32%nat ->
  cw_iv cw = Some civ -> length civ = 16%nat -> sw_iv sw = Some siv -> length siv = 16%nat ->
  select_mode offered (cw_req cw) true (twoway c0) (cw_policy cw) = SelMode m -> m <> 1 ->
  fst (sw_policy sw m (Some user)) = true ->
  exists s1 c1 s2 c2,
    accept_greet s0 offered chal salt count = (true, s1) /\
    open_respond E kdf (feed c0 (outp s1)) cw = OpenOK c1 /\
    accept_decide E D kdf (feed s1 (outp c1)) offered chal salt count uptime sw = AcceptOK s2 (Some user) /\
    open_finish D (feed c1 (skipn (length (outp s1)) (outp s2))) = (OpenOK c2, uptime) /\
    linked c2 s2 /\ linked s2 c2 /\ mode c2 = m /\ key c2 = k /\ hkey c2 = hk /\
    st c2 = StRequest /\ st s2 = StRequest /\ inp c2 = [] /\ inp s2 = [].
Proof. exact handshake. Qed.
Print Assumptions C22_honest_client_is_accepted.

Definition toy_sw (pf : list Z) : sworld := mkSWorld (fun _ => (Some pf, ErrOK)) (fun _ _ => (true, ErrOK)) (Some (repeat 14 16)).
(** the hypotheses hold for a concrete pair; with another pass phrase the same client is turned away *)
Example C22_example :
  let s1 := snd (accept_greet (toy_new false) 7 (repeat 21 16) (repeat 22 16) 1024) in
  let c1 := match open_respond toyE toy_kdf (feed (toy_new false) (outp s1)) (toy_cw 6) with OpenOK c => c | _ => toy_new false end in
  select_mode 7 6 true false (cw_policy (toy_cw 6)) = SelMode 4 /\
  (exists s2, accept_decide toyE toyE toy_kdf (feed s1 (outp c1)) 7 (repeat 21 16) (repeat 22 16) 1024 99 (toy_sw [1;2;3]) = AcceptOK s2 (Some (repeat 65 80)) /\ key s2 = repeat 11 16) /\
  fresh (toy_new false).
Proof.
  intros s1 c1. split; [reflexivity|]. split; [|repeat split; constructor].
  assert (R: match accept_decide toyE toyE toy_kdf (feed s1 (outp c1)) 7 (repeat 21 16) (repeat 22 16) 1024 99 (toy_sw [1;2;3]) with
             AcceptOK s u => (u, key s) | AcceptNo _ => (None, []) end = (Some (repeat 65 80), repeat 11 16)) by (vm_compute; reflexivity).
  destruct (accept_decide toyE toyE toy_kdf (feed s1 (outp c1)) 7 (repeat 21 16) (repeat 22 16) 1024 99 (toy_sw [1;2;3])) as [s2 u|s2]; [|discriminate].
  exists s2. split; congruence.
Qed.

(** ** C23 *)

(** Whatever history of calls on a one-way connection: each session in which the server is the
    sender has exactly one endpoint on the server, and in open mode its receiver is the host at the
    other end of the control connection. *)
Theorem C23_no_third_parties : forall E D H ks c, twoway c = false ->
  Forall (fun e => se_send e = true ->
     q_conf_sender (se_req e) = true /\ q_conf_receiver (se_req e) = false /\
     (mode c = MODE_OPEN ->
      sa_family (q_receiver (se_req e)) = sa_family (remote c) /\ sa_addr (q_receiver (se_req e)) = sa_addr (remote c)))
    (s_sessions (snd (serve E D H ks (mkSrv c [] [])))).
Proof.
  intros E D H ks c TW. destruct (serve_sessions E D H ks (mkSrv c [] []) TW) as (new & N1 & N2).
  rewrite N1. cbn [s_sessions s_c] in *. rewrite app_nil_r. eapply Forall_impl; [|exact N2].
  intros e X S. destruct X as [(R1 & R2 & R3)|X]; [|congruence].
  assert (CS: q_conf_sender (se_req e) = true) by congruence.
  split; [exact CS|]. split; [destruct (q_conf_receiver (se_req e)); [rewrite CS in R1; discriminate|reflexivity]|].
  intros M. apply R3; [|exact CS]. unfold ciphers. rewrite M. reflexivity.
Qed.
Print Assumptions C23_no_third_parties.

(** a request is only ever accepted with exactly one endpoint on the server *)
Theorem C23_one_endpoint : forall E D H s w rc s', twoway (s_c s) = false -> process_test_request E D H s w = (rc, s') ->
  (s_sessions s' = s_sessions s /\ s_tests s' = s_tests s) \/
  exists e, rc = ErrOK /\ s_sessions s' = e :: s_sessions s /\ q_conf_sender (se_req e) = negb (q_conf_receiver (se_req e)).
Proof.
  intros E D H s w rc s' TW P. destruct (process_test_sessions E D H s w rc s' TW P) as [_ [A|(A & e & t & B & _ & _ & C & _)]]; [auto|].
  right. exists e. auto.
Qed.
Print Assumptions C23_one_endpoint.

(** a request with the server as sender, the receiver being 192.0.2.1 - where the control
    connection comes from - or 192.0.2.9 *)
Definition toy_request (cs cr : Z) (rcv : list Z) : list Z :=
  [1; 4; cs; cr] ++ [0;0;0;1] ++ [0;0;0;5] ++ [0;0] ++ [35;40] ++ [192;0;2;2] ++ zeros 12 ++ rcv ++ zeros 12 ++ repeat 17 16 ++
  zeros 4 ++ zeros 8 ++ [0;0;0;2;0;0;0;0] ++ zeros 4 ++ zeros 8 ++ zeros 16 ++ ([1] ++ zeros 7 ++ [0;0;0;1;0;0;0;0]) ++ zeros 16.
Definition toy_world : trworld :=
  mkTR true true true (Some (repeat 18 16)) true true (true, ErrOK) None None 9000 (mkEP true [] 0 true 0 ErrOK).
Definition toy_sessions (cs cr : Z) (rcv : list Z) : list (Z * list Z) :=
  let r := serve toyE toyE toyH [CRead; CTest toy_world] (mkSrv (toy StRequest MODE_OPEN false (toy_request cs cr rcv)) [] []) in
  map (fun e => (snd e, [])) (fst r) ++ map (fun e => (se_port e, sa_addr (q_receiver (se_req e)))) (s_sessions (snd r)).
Example C23_example :
  toy_sessions 1 0 [192;0;2;1] = [(1, []); (ErrOK, []); (9000, [192;0;2;1])] /\
  toy_sessions 1 0 [192;0;2;9] = [(1, []); (ErrWARNING, [])] /\
  toy_sessions 1 1 [192;0;2;1] = [(1, []); (ErrWARNING, [])] /\
  toy_sessions 0 0 [192;0;2;1] = [(1, []); (ErrWARNING, [])].
Proof. repeat split; vm_compute; reflexivity. Qed.

(** ** C60: every refused request is answered by a negative Accept-Session *)

(** A request that asks for no endpoint at all is refused without any answer, while the connection
    stays open: the client waits for ever. *)
Theorem C60_refusal_is_answered_refuted : exists c ks, forall E D H,
  let r := serve E D H ks (mkSrv c [] []) in
  quiet c /\ map snd (fst r) = [1; ErrWARNING] /\ outp (s_c (snd r)) = outp c /\ is_st StRequest (s_c (snd r)) = true.
Proof.
  exists (toy StRequest MODE_OPEN false (toy_request 0 0 [192;0;2;1])), [CRead; CTest toy_world]. intros E D H.
  cbv zeta. split; [constructor|]. split; [vm_compute; reflexivity|]. split; vm_compute; reflexivity.
Qed.
Print Assumptions C60_refusal_is_answered_refuted.

(** When the application's policy function refuses a test with a severity between WARNING and OK,
    the client is told that the test was accepted (code 0, port 0), although no session exists. *)
Theorem C60_refusal_is_negative_refuted : exists c w, forall E D H,
  let r := serve E D H [CRead; CTest w] (mkSrv c [] []) in
  w_policy w = (false, ErrWARNING) /\ map snd (fst r) = [1; ErrWARNING] /\ s_sessions (snd r) = [] /\
  exists o, outp (s_c (snd r)) = outp c ++ o /\ length o = 48%nat /\ field o 0 1 = CNTRL_ACCEPT /\ field o 2 2 = 0.
Proof.
  exists (toy StRequest MODE_OPEN false (toy_request 1 0 [192;0;2;1])),
    (mkTR true true true (Some (repeat 18 16)) true true (false, ErrWARNING) None None 9000 (mkEP true [] 0 true 0 ErrOK)).
  intros E D H. cbv zeta. split; [reflexivity|]. split; [vm_compute; reflexivity|]. split; [vm_compute; reflexivity|].
  eexists. split; [vm_compute; reflexivity|]. repeat split.
Qed.
Print Assumptions C60_refusal_is_negative_refuted.

(** ** C61: refusing a request does not lose the message boundaries *)

(** OWPUnexpectedRequestType answers after having read only the first block of the request: the
    input is one complete one-way test request (with one slot, 144 octets), its sender address being
    2.0.0.1; the server, on a two-way connection, turns it down - and then takes the second block of
    the same request for a Start-Sessions request, with nothing else having arrived. *)
Definition toy_request_from (a : Z) : list Z := put 16 [a;0;0;1] (toy_request 1 0 [192;0;2;1]).
Theorem C61_next_request_is_next_message_refuted : exists c, forall E D H,
  let r := serve E D H [CRead; CUnexpected; CRead] (mkSrv c [] []) in
  twoway c = true /\ quiet c /\ inp c = toy_request_from 2 /\ length (inp c) = 144%nat /\
  field (inp c) 0 1 = 1 /\ field (inp c) 4 4 = 1 /\
  map snd (fst r) = [1; ErrOK; 2] /\ length (inp (s_c (snd r))) = 112%nat.
Proof.
  exists (toy StRequest MODE_OPEN true (toy_request_from 2)). intros E D H. cbv zeta.
  split; [reflexivity|]. split; [constructor|]. split; [reflexivity|].
  repeat match goal with |- _ /\ _ => split end; vm_compute; reflexivity.
Qed.
Print Assumptions C61_next_request_is_next_message_refuted.

(** The same happens on a one-way connection when memory for the session runs out while a test
    request is being read: the slots of the request are left in the stream and read as the next
    request. *)
Theorem C61_out_of_memory_refuted : exists c w, forall E D H,
  let r := serve E D H [CRead; CTest w; CRead] (mkSrv c [] []) in
  twoway c = false /\ quiet c /\ inp c = toy_request 1 0 [192;0;2;1] /\ w_alloc w = false /\
  map snd (fst r) = [1; ErrWARNING; 1].
Proof.
  exists (toy StRequest MODE_OPEN false (toy_request 1 0 [192;0;2;1])),
    (mkTR false true true (Some (repeat 18 16)) true true (true, ErrOK) None None 9000 (mkEP true [] 0 true 0 ErrOK)).
  intros E D H. cbv zeta. split; [reflexivity|]. split; [constructor|]. split; [reflexivity|]. split; [reflexivity|].
  vm_compute; reflexivity.
Qed.
Print Assumptions C61_out_of_memory_refuted.

(** What holds of C61: when the server answers a request - whether it accepts or refuses it - exactly
    the octets of this request have been taken from the input, as many as its number of slots says,
    so that the next request is the next message.  Missing: requests that are not answered (they ask
    for no endpoint, for an unknown version of IP or for a foreign link-local address, or memory for
    them is lacking) and requests of a type that is not expected (refuted above). *)
Theorem C61_answered_partial : forall E D H, blocks16 D -> forall c tests sess c1 w rc s',
  wf c -> twoway c = false -> read_request_type D c = (1, c1) ->
  process_test_request E D H (mkSrv c1 tests sess) w = (rc, s') -> outp (s_c s') <> outp c ->
  inp (s_c s') = skipn (112 + 16 * Z.to_nat (field (plain D c 1) 4 4) + 16) (inp c).
Proof.
  intros E D H BD c tests sess c1 w rc s' W TW RT P O.
  rewrite (answered_ate E D H BD c tests sess c1 w rc s' W TW RT P O). f_equal. clear. lia.
Qed.
Print Assumptions C61_answered_partial.
(** Two-way requests have no slots: 112 octets.  Missing: as above. *)
Theorem C61_answered_two_way_partial : forall E D H, blocks16 D -> forall c tests sess c1 w rc s',
  wf c -> twoway c = true -> is_st StAcceptSession c = false -> read_request_type D c = (5, c1) ->
  process_test_request_tw E D H (mkSrv c1 tests sess) w = (rc, s') -> outp (s_c s') <> outp c ->
  inp (s_c s') = skipn 112 (inp c).
Proof. exact answered_ate_tw. Qed.
Print Assumptions C61_answered_two_way_partial.
(** a refused request, with another message behind it *)
Example C61_case :
  let c := toy StRequest MODE_OPEN false (toy_request 1 0 [192;0;2;9] ++ repeat 77 32) in
  let r := serve toyE toyE toyH [CRead; CTest toy_world] (mkSrv c [] []) in
  wf c /\ map snd (fst r) = [1; ErrWARNING] /\ outp (s_c (snd r)) <> outp c /\ inp (s_c (snd r)) = repeat 77 32.
Proof.
  intros c r. split; [repeat split|]. split; [vm_compute; reflexivity|]. split; [|vm_compute; reflexivity].
  intros X. apply (f_equal (@length _)) in X. vm_compute in X. discriminate.
Qed.

(** What holds of C60: a refused request that could be read is answered by a negative
    Accept-Session, as its client - whoever is at the other end of the connection - reads it, in
    every mode and for both kinds of connections.  Missing: requests that are not understood, and
    the policy's severities between WARNING and OK (both refuted above); severities below WARNING
    end the connection, which is not an answer either. *)
Theorem C60_negative_partial : forall E D H, block_cipher E D -> blocks16 D -> digest20 H ->
  forall c cl tests sess c1 w rc s' rc1 q a c2,
  wf c -> quiet c -> wf cl -> quiet cl -> inp cl = [] -> linked c cl -> is_st StAcceptSession cl = true -> negative_codes w ->
  read_request_type D c = (if twoway c then 5 else 1, c1) ->
  read_test_request D H c1 true (w_alloc w) (w_slots w) = (rc1, Some q, a, c2) ->
  (if twoway c then process_test_request_tw else process_test_request) E D H (mkSrv c1 tests sess) w = (rc, s') ->
  ErrWARNING <= rc -> s_sessions s' = sess ->
  exists o code cl', outp (s_c s') = outp c ++ o /\
    read_accept D H (feed cl o) = (ErrOK, (code, 0, zeros 16), cl') /\ 1 <= code <= 5.
Proof.
  intros E D H BC BD HL c cl tests sess c1 w rc s' rc1 q a c2 W Q Wl Ql IL LK Sl N RT R P L S.
  destruct (negative_answer E D H BD c cl tests sess c1 w rc s' rc1 q a c2 BC HL W Q Wl Ql IL LK Sl N RT R P L S) as (o & n & Nn & O & cl' & RD).
  exists o, n, cl'. auto.
Qed.
Print Assumptions C60_negative_partial.
(** a request, the policy refusing: the client reads "rejected" *)
Definition toy_refusing : trworld :=
  mkTR true true true (Some (repeat 18 16)) true true (false, ErrOK) None None 9000 (mkEP true [] 0 true 0 ErrOK).
Example C60_case :
  let c := toy StRequest MODE_OPEN false (toy_request 1 0 [192;0;2;1]) in
  let cl := toy (StRequest + StAcceptSession) MODE_OPEN false [] in
  let r := serve toyE toyE toyH [CRead; CTest toy_refusing] (mkSrv c [] []) in
  quiet c /\ linked c cl /\ negative_codes toy_refusing /\ map snd (fst r) = [1; ErrWARNING] /\ s_sessions (snd r) = [] /\
  fst (read_accept toyE toyH (feed cl (skipn (length (outp c)) (outp (s_c (snd r)))))) = (ErrOK, (CNTRL_REJECT, 0, zeros 16)).
Proof.
  intros c cl r. split; [constructor|]. split; [repeat split|]. split; [split; [intros _; right; apply Z.le_refl|split; intros ? ? X; discriminate X]|].
  split; [vm_compute; reflexivity|]. split; [vm_compute; reflexivity|]. vm_compute; reflexivity.
Qed.

(** A test the application's policy refuses is never set up, whatever the severity it gives and
    whatever the client is told. *)
Theorem C60_policy_refusal_obeyed : forall E D H s w,
  fst (w_policy w) = false ->
  (twoway (s_c s) = false -> s_sessions (snd (process_test_request E D H s w)) = s_sessions s /\ s_tests (snd (process_test_request E D H s w)) = s_tests s) /\
  s_sessions (snd (process_test_request_tw E D H s w)) = s_sessions s /\ s_tests (snd (process_test_request_tw E D H s w)) = s_tests s.
Proof.
  intros E D H s w PO. assert (PS: forall a, policy_step w a <> None).
  { intros a. unfold policy_step. destruct (w_policy w) as [ok err]. cbn [fst] in PO. subst ok. destruct (_ <? _); discriminate. }
  split.
  - intros TW. destruct (process_test_request E D H s w) as [rc s'] eqn:P. destruct (process_test_sessions E D H s w rc s' TW P) as [_ [(A & B)|(A & e & t & B & _ & _ & C & _)]]; [auto|].
    exfalso. revert P. unfold process_test_request. destruct (read_test_request D H (s_c s) true (w_alloc w) (w_slots w)) as [[[rc1 q] a] c1].
    destruct q as [q|]; [|intros P; apply (f_equal snd) in P; cbn [snd] in P; rewrite <- P in B; cbn [s_sessions] in B; apply (f_equal (@length _)) in B; cbn [length] in B; lia].
    assert (NO: forall x y s0, (let r := refuse E H c1 x y in (fst r, mkSrv (snd r) (s_tests s) (s_sessions s))) = (rc, s0) -> s0 <> s').
    { intros x y s0 P ->. apply (f_equal snd) in P. cbn [snd] in P. rewrite <- P in B. cbn [s_sessions] in B. apply (f_equal (@length _)) in B. cbn [length] in B. lia. }
    destruct (negb (w_addrs w)); [intros P; exact (NO _ _ _ P eq_refl)|].
    destruct (if q_conf_receiver q then w_sid w else Some (q_sid q)); [|intros P; exact (NO _ _ _ P eq_refl)].
    destruct (negb (w_sched w)); [intros P; exact (NO _ _ _ P eq_refl)|].
    match goal with |- match ?x with Some _ => _ | None => _ end = _ -> _ => destruct x as [[a1 e1]|] eqn:P1 end; [intros P; exact (NO _ _ _ P eq_refl)|].
    match goal with |- match ?x with Some _ => _ | None => _ end = _ -> _ => destruct x as [[a2 e2]|] eqn:P2 end; [intros P; exact (NO _ _ _ P eq_refl)|].
    specialize (PS a). destruct (q_conf_receiver q) eqn:CR.
    + destruct (q_conf_sender q); [discriminate|]. destruct (policy_step w a); [discriminate|congruence].
    + destruct (q_conf_sender q) eqn:CS.
      * destruct (negb (ciphers c1) && negb (w_names w)); [discriminate|]. destruct (negb (ciphers c1) && negb (same_addr _ _)); [discriminate|].
        destruct (policy_step w a); [discriminate|congruence].
      * destruct (write_accept E H c1 CNTRL_ACCEPT (w_port w) (Some l)) as [rc2 c2]. destruct (rc2 <? ErrOK); intros P; injection P as _ P; rewrite <- P in B; cbn [s_sessions] in B.
        -- apply (f_equal (@length _)) in B; cbn [length] in B; lia.
        -- injection B as B. rewrite <- B in C. cbn [se_req] in C. rewrite CS, CR in C. discriminate.
  - unfold process_test_request_tw. destruct (read_test_request D H (s_c s) true (w_alloc w) (w_slots w)) as [[[rc1 q] a] c1].
    destruct q as [q|]; [|split; reflexivity]. destruct (negb (w_addrs w)); [split; reflexivity|]. destruct (w_sid w); [|split; reflexivity].
    specialize (PS a). destruct (policy_step w a) as [[? ?]|]; [split; reflexivity|congruence].
Qed.
Print Assumptions C60_policy_refusal_obeyed.
