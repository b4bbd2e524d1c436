(** C41 and the part of C39 that concerns reflectors *)
From Coq Require Import ZArith List Bool Lia ZifyBool ZifyNat.
From Verif Require Import Base BaseLemmas Time_Model Wire_Model Wire_Spec Control_Model Control_Spec Packet_Model Sender_Model Sender_Spec Receiver_Model
  Reflector_Model Reflector_Spec Reflector_Proofs Toy.
Import ListNotations.
Open Scope Z_scope.

(** C41: whatever the network, the clock and the signals do, what the reflector of a two-way session sends in a passage
    through its loop answers the datagram read in that passage, which came from the address of the sender.  Unless errno
    was EINTR already, that datagram had at least the size of the packets of the session.  If it had, then its code is
    right, and the reply, decrypted with the reply key, has the reflector's number, the sender's number, time stamp, error
    estimate and the TTL received, the padding of the request as far as there is room (its size is that of the request, or of the fields of a reply if that is larger), the right code, and the times of
    reception and of sending of the clock, and a valid error estimate.  [len]: size of the packets of the session. *)
Theorem C41_mirrors : forall E D H mode p ak rk hk len es e st,
  block_cipher E D -> blocks16 D -> digest20 H -> protection_of mode = Some p -> (req_pad p <= len)%nat ->
  run_reflector E D H mode ak rk hk len es = FMore st ->
  exists new, flog (run_reflector E D H mode ak rk hk len (es ++ [e])) = f_log st ++ new /\
  Forall (fun r => exists known data ttl rc rerr rsy,
    fe_rx e = FxData true known data ttl /\ fe_clock e = Some (rc, rerr, rsy) /\
    (fe_eintr e = false -> known = true /\ (len <= length data)%nat) /\
    rp_seq r = f_i st /\
    ((len <= length data)%nat ->
      let req := request_clear D p ak (firstn len data) in let rep := reply_clear D p rk (rp_pkt r) in
      request_authentic H p hk req /\ mirrors p req rep (f_i st) ttl /\ length (rp_pkt r) = Nat.max len (at_pad (reply_pos p)) /\ reply_authentic H p hk rep /\
      (clock_ok rc -> field rep (at_rcv (reply_pos p)) 8 = time_of rc) /\
      exists a c cerr csy, In a (fe_sends e) /\ fa_clock a = Some (c, cerr, csy) /\ rp_res r = fa_send a /\
        (clock_ok c -> field rep (at_time (reply_pos p)) 8 = time_of c) /\ field rep (at_err (reply_pos p) + 1) 1 <> 0)) new.
Proof.
  intros E D H mode p ak rk hk len es e st BC DL DG PM LN R.
  destruct (run_inv E D H mode ak rk hk len p BC DG DL PM LN es) as (_ & I). destruct (I st R) as (_ & L).
  rewrite (run_step E D H mode ak rk hk len es e st R).
  destruct (f_pass_spec E D H mode ak rk hk len p BC DG DL PM LN st e L) as (new & N1 & _ & N3 & _).
  exists new. split; [exact N1|]. exact N3.
Qed.
Print Assumptions C41_mirrors.

(** the numbers of the replies: 0, 1, 2, …; only after a lack of buffers the same number is tried again *)
Theorem C41_consecutive : forall E D H mode p ak rk hk len es,
  block_cipher E D -> blocks16 D -> digest20 H -> protection_of mode = Some p -> (req_pad p <= len)%nat ->
  consecutive 0 (map (fun r => (rp_seq r, match rp_res r with SendNoBufs => true | _ => false end)) (flog (run_reflector E D H mode ak rk hk len es))).
Proof.
  intros E D H mode p ak rk hk len es BC DL DG PM LN.
  exact (proj1 (run_inv E D H mode ak rk hk len p BC DG DL PM LN es)).
Qed.
Print Assumptions C41_consecutive.

(** a request of the sender with the right size and code is answered, if the reflector is not told to stop and the
    clock works, and the reflector goes on after it *)
Theorem C41_answered : forall E D H mode p ak rk hk len es e st data ttl rc rerr rsy a c more,
  block_cipher E D -> blocks16 D -> digest20 H -> protection_of mode = Some p -> (req_pad p <= len)%nat ->
  run_reflector E D H mode ak rk hk len es = FMore st ->
  fe_chk1 e = CNone -> fe_chk2 e = CNone -> fe_chk3 e = CNone ->
  fe_rx e = FxData true true data ttl -> (len <= length data)%nat -> fe_clock e = Some (rc, rerr, rsy) ->
  request_authentic H p hk (request_clear D p ak (firstn len data)) ->
  fe_sends e = a :: more -> fa_clock a = Some c -> fa_stop a = false -> fa_send a = SendOK ->
  exists pkt st', run_reflector E D H mode ak rk hk len (es ++ [e]) = FMore st' /\ f_log st' = f_log st ++ [mkReply (f_i st) pkt SendOK].
Proof.
  intros E D H mode p ak rk hk len es e st data ttl rc rerr rsy a c more BC DL DG PM LN R K1 K2 K3 RX LD CK AU SE CA SA OKs.
  destruct (run_inv E D H mode ak rk hk len p BC DG DL PM LN es) as (_ & I). destruct (I st R) as (_ & L).
  rewrite (run_step E D H mode ak rk hk len es e st R). unfold f_pass. rewrite K1, RX. cbn [fchecked andb negb].
  rewrite (proj2 (Nat.leb_le len (length data)) LD). cbn [andb negb]. rewrite K2. cbn [fchecked]. rewrite CK, K3. cbn [fchecked].
  assert (LB: length (put 0 (firstn len data) (f_buf st)) = cap len p).
  { rewrite put_length; [exact L|]. rewrite firstn_length, L. unfold cap. lia. }
  destruct (open_request_spec D H mode ak hk len p DL PM LN _ LB) as (_ & _ & OA).
  rewrite firstn_put0 in OA by (rewrite firstn_length; lia).
  destruct (open_request D H mode ak hk (put 0 (firstn len data) (f_buf st))) as [q ok]. cbn [snd] in OA. rewrite (proj2 OA AU).
  rewrite SE. cbn [f_send]. rewrite CA, SA, OKs. destruct c as [[cur err] sy]. cbn [f_log f_i]. do 2 eexists. split; reflexivity.
Qed.
Print Assumptions C41_answered.

(** a datagram of another host, or one whose code is wrong, is not answered; the reflector goes on *)
Theorem C41_ignored : forall E D H mode p ak rk hk len es e st peer data ttl rc rerr rsy,
  block_cipher E D -> blocks16 D -> digest20 H -> protection_of mode = Some p -> (req_pad p <= len)%nat ->
  run_reflector E D H mode ak rk hk len es = FMore st ->
  fe_chk1 e = CNone -> fe_chk2 e = CNone -> fe_chk3 e = CNone ->
  fe_rx e = FxData peer true data ttl -> (len <= length data)%nat -> fe_clock e = Some (rc, rerr, rsy) ->
  peer = false \/ ~ request_authentic H p hk (request_clear D p ak (firstn len data)) ->
  exists st', run_reflector E D H mode ak rk hk len (es ++ [e]) = FMore st' /\ f_log st' = f_log st /\ f_i st' = f_i st.
Proof.
  intros E D H mode p ak rk hk len es e st peer data ttl rc rerr rsy BC DL DG PM LN R K1 K2 K3 RX LD CK AU.
  destruct (run_inv E D H mode ak rk hk len p BC DG DL PM LN es) as (_ & I). destruct (I st R) as (_ & L).
  rewrite (run_step E D H mode ak rk hk len es e st R). unfold f_pass. rewrite K1, RX. cbn [fchecked andb negb].
  rewrite (proj2 (Nat.leb_le len (length data)) LD). cbn [andb negb]. rewrite K2. cbn [fchecked]. rewrite CK, K3. cbn [fchecked].
  destruct peer; [|eexists; repeat split; reflexivity].
  assert (LB: length (put 0 (firstn len data) (f_buf st)) = cap len p).
  { rewrite put_length; [exact L|]. rewrite firstn_length, L. unfold cap. lia. }
  destruct (open_request_spec D H mode ak hk len p DL PM LN _ LB) as (_ & _ & OA).
  rewrite firstn_put0 in OA by (rewrite firstn_length; lia).
  destruct (open_request D H mode ak hk (put 0 (firstn len data) (f_buf st))) as [q ok]. cbn [snd] in OA.
  destruct ok; [|eexists; repeat split; reflexivity]. destruct AU as [A|A]; [discriminate|]. exfalso. apply A, OA. reflexivity.
Qed.
Print Assumptions C41_ignored.

(** the cases are not empty: an encrypted session; a request of packet 5 is answered by number 0 *)
Definition ex_hk : list Z := repeat 9 32.
Definition ex_clear : list Z := be_enc 4 5 ++ zeros 12 ++ be_enc 8 1234567890123 ++ [128; 1] ++ zeros 6.
Definition ex_req : list Z := fst (cbc_enc toyE (repeat 3 16) (zeros 16) 2 ex_clear) ++ firstn 16 (toyH ex_hk ex_clear) ++ [70; 71; 72].
Definition ex_e : fenv := mkFE CNone (FxData true true ex_req 254) false CNone (Some ((1700000000, 5), 10, 1)) CNone
  [mkFA (Some ((1700000000, 1000), 10, 1)) false SendNoBufs; mkFA (Some ((1700000000, 2000), 10, 1)) false SendOK].
Example C41_example : request_authentic toyH AllBlocks ex_hk (request_clear toyE AllBlocks (repeat 3 16) ex_req) /\
  map rp_seq (flog (run_reflector toyE toyE toyH 4 (repeat 3 16) (repeat 4 16) ex_hk 51 [ex_e; ex_e])) = [0; 0; 1; 1] /\
  map (fun r => field (reply_clear toyE AllBlocks (repeat 4 16) (rp_pkt r)) 48 4) (flog (run_reflector toyE toyE toyH 4 (repeat 3 16) (repeat 4 16) ex_hk 51 [ex_e; ex_e])) = [5; 5; 5; 5] /\
  map (fun r => length (rp_pkt r)) (flog (run_reflector toyE toyE toyH 4 (repeat 3 16) (repeat 4 16) ex_hk 51 [ex_e; ex_e])) = [112; 112; 112; 112]%nat.
Proof. vm_compute. auto 10. Qed.
(** and one that is ignored *)
Example C41_ignored_example : ~ request_authentic toyH AllBlocks ex_hk (request_clear toyE AllBlocks (repeat 3 16) (upd 0 77 ex_req)).
Proof. vm_compute. discriminate. Qed.

(** Refuted in part: "never for packets failing the size check".  errno is EINTR when the loop is entered (sigsuspend has
    returned) and no successful call resets it: in an open session an empty datagram from the sender's port is answered,
    with the number, time stamp and error estimate of the packet before. *)
Theorem C41_size_check_refuted : exists es e,
  fe_rx e = FxData true true [] 64 /\
  map rp_seq (flog (run_reflector toyE toyE toyH 1 [] [] [] 14 es)) = [0] /\
  exists r, flog (run_reflector toyE toyE toyH 1 [] [] [] 14 (es ++ [e])) = flog (run_reflector toyE toyE toyH 1 [] [] [] 14 es) ++ [r] /\
  rp_seq r = 1 /\ rp_res r = SendOK /\ length (rp_pkt r) = 41%nat.
Proof.
  pose (e0 d := mkFE CNone (FxData true true d 64) true CNone (Some ((1700000000, 5), 10, 1)) CNone [mkFA (Some ((1700000000, 1000), 10, 1)) false SendOK]).
  exists [e0 (be_enc 4 5 ++ be_enc 8 1234567890123 ++ [128; 1])], (e0 []).
  split; [reflexivity|]. split; [vm_compute; reflexivity|]. eexists. split; [vm_compute; reflexivity|]. split; [reflexivity|]. split; reflexivity.
Qed.
Print Assumptions C41_size_check_refuted.

(** C39 for reflectors, refuted: once errno has another value, a datagram that is too short, from any host, ends the
    session with an error; nothing about the source is looked at before. *)
Theorem C39_reflector_refuted : forall E D H mode ak rk hk len es e st peer known data ttl,
  run_reflector E D H mode ak rk hk len es = FMore st ->
  fe_chk1 e = CNone -> fe_rx e = FxData peer known data ttl -> (length data < len)%nat -> fe_eintr e = false ->
  run_reflector E D H mode ak rk hk len (es ++ [e]) = FFail (f_log st).
Proof.
  intros E D H mode ak rk hk len es e st peer known data ttl R K1 RX LD EI.
  rewrite (run_step E D H mode ak rk hk len es e st R). unfold f_pass. rewrite K1, RX. cbn [fchecked].
  rewrite (proj2 (Nat.leb_gt len (length data)) LD), andb_false_r, EI. reflexivity.
Qed.
Print Assumptions C39_reflector_refuted.
