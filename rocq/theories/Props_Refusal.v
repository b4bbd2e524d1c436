(** Property theorems about refusals during the set-up of a connection: C176.  Vocabulary: Setup_Spec.v, Control_Spec.v. *)
From Coq Require Import ZArith List Bool Lia.
From Verif Require Import Base BaseLemmas Time_Model Sched_Model Wire_Model Wire_Spec Control_Model Control_Spec Control_Proofs Stop_Model Setup_Model Setup_Spec
  Setup_Select Setup_Proofs Toy.
Import ListNotations.
Open Scope Z_scope.

Lemma nth_first : forall n i (l : list Z), (i < n)%nat -> nth i (firstn n l) 0 = nth i l 0.
Proof.
  induction n as [|n IH]; intros i l L; [lia|]. destruct l as [|x l]; [reflexivity|]. destruct i as [|i]; [reflexivity|]. cbn [firstn nth]. apply IH. lia.
Qed.

Section R.
Variable E D : list Z -> list Z -> list Z.
Variable kdf : list Z -> list Z -> Z -> option (list Z).

Lemma refuse_sends : forall c code, length (msg c) = 400%nat -> length (wiv c) = 16%nat -> quiet c -> st c = StSetup -> code = 1 \/ code = 2 ->
  exists o, sent c (snd (write_server_start E c code 0)) o /\ length o = 48%nat /\ nth 15 o 0 = code.
Proof.
  intros c code LM LW Q S C. unfold write_server_start. rewrite S, Z.eqb_refl. cbn [negb].
  assert (NA : (code =? CNTRL_ACCEPT) = false) by (destruct C as [-> | ->]; reflexivity). rewrite NA. cbv iota.
  set (m := put 16 (wiv c) (put 15 [Z.land code 255] (put 0 (zeros 15) (msg c)))).
  assert (L1 : length (put 0 (zeros 15) (msg c)) = 400%nat) by (rewrite put_length; change (length (zeros 15)) with 15%nat; lia).
  assert (L2 : length (put 15 [Z.land code 255] (put 0 (zeros 15) (msg c))) = 400%nat) by (rewrite put_length; cbn [length]; lia).
  assert (L3 : length m = 400%nat) by (unfold m; rewrite put_length; lia).
  assert (L4 : length (put 32 (zeros 16) m) = 400%nat) by (rewrite put_length; change (length (zeros 16)) with 16%nat; lia).
  assert (B : nth 15 (put 32 (zeros 16) m) 0 = code).
  { change (byte 15 (put 32 (zeros 16) m) = code). rewrite byte_put_out by (change (length (zeros 16)) with 16%nat; lia).
    unfold m. rewrite byte_put_out by lia. rewrite byte_put_in by (cbn [length]; lia). destruct C as [-> | ->]; reflexivity. }
  set (q := put 32 (zeros 16) m) in *. clearbody q.
  set (c1 := set_st _ StInvalid). assert (C1 : ciphers c1 = false) by reflexivity. unfold shm_add. rewrite C1. cbv zeta. rewrite C1.
  destruct (write_raw_quiet c1 (sub 0 48 (msg c1)) Q) as (c2 & WR & O & _). rewrite WR. cbn [snd]. exists (sub 0 48 (msg c1)).
  change (msg c1) with q in *. change (outp c1) with (outp c) in O. split; [exact O|].
  unfold sub. change (skipn 0 q) with q. split; [rewrite firstn_length; lia|]. rewrite nth_first by lia. exact B.
Qed.

Lemma told_client : forall c o rest, wf c -> quiet c -> st c = StSetup -> inp c = o ++ rest -> length o = 48%nat -> nth 15 o 0 = 1 \/ nth 15 o 0 = 2 ->
  exists c', open_finish D c = (OpenDenied c', 0).
Proof.
  intros c o rest (W1 & W2 & W3) Q S I L N. unfold open_finish, read_server_start. rewrite S, Z.eqb_refl. cbn [negb].
  assert (O : o = firstn 32 o ++ skipn 32 o) by (symmetry; apply firstn_skipn).
  assert (F : length (firstn 32 o) = 32%nat) by (rewrite firstn_length; lia). assert (K : length (skipn 32 o) = 16%nat) by (rewrite skipn_length; lia).
  assert (I2 : inp c = firstn 32 o ++ (skipn 32 o ++ rest)) by (rewrite I, app_assoc, <- O; reflexivity).
  rewrite (read_raw_ok c 32 (firstn 32 o) (skipn 32 o ++ rest) Q I2 F).
  set (c1 := set_msg _ _). assert (B : byte 15 (msg c1) = nth 15 o 0).
  { change (msg c1) with (put 0 (firstn 32 o) (msg c)). rewrite byte_put_in by lia. unfold byte. apply nth_first. lia. }
  assert (Q1 : quiet c1). { unfold quiet in *. change (io c1) with (tl (io c)). destruct (io c); [exact Q|inversion Q; assumption]. }
  assert (J : inp c1 = skipn 32 o ++ rest) by reflexivity. clearbody c1. rewrite B.
  assert (G : get_accept (nth 15 o 0) = nth 15 o 0 /\ (nth 15 o 0 =? CNTRL_INVALID) = false /\ (nth 15 o 0 =? CNTRL_ACCEPT) = false) by (destruct N as [-> | ->]; auto).
  destruct G as (G1 & G2 & G3). cbv zeta. rewrite G1, G2, G3. unfold recv_blocks. set (c2 := set_mode _ MODE_OPEN).
  change (16 * 1)%nat with 16%nat. rewrite (read_raw_ok c2 16 (skipn 32 o) rest Q1 J K). set (c3 := set_msg _ _). assert (C3 : ciphers c3 = false) by reflexivity. rewrite C3.
  change (ErrOK =? ErrOK) with true. cbn [negb]. rewrite G3. cbn [negb]. eexists. reflexivity.
Qed.

Lemma decide_refuses : forall s offered chal salt count uptime w s', wf s -> quiet s -> st s = StSetup -> (164 <= length (inp s))%nat ->
  single_mode (field (inp s) 0 4) -> (field (inp s) 0 4 = 8 -> twoway s = true) -> (forall wi, sw_iv w = Some wi -> length wi = 16%nat) ->
  accept_decide E D kdf s offered chal salt count uptime w = AcceptNo s' ->
  exists o, sent s s' o /\ length o = 48%nat /\ (nth 15 o 0 = 1 \/ nth 15 o 0 = 2).
Proof.
  intros s offered chal salt count uptime w s' W Q S L SM TW IV A. unfold accept_decide in A.
  assert (OKR : fst (fst (read_setup s)) = ErrOK).
  { unfold read_setup. rewrite S, Z.eqb_refl. cbn [negb]. rewrite (read_raw_ok s 164 (firstn 164 (inp s)) (skipn 164 (inp s)) Q); [reflexivity|symmetry; apply firstn_skipn|rewrite firstn_length; lia]. }
  destruct (read_setup s) as [[rc x] c1] eqn:RS. destruct x as [[[m user] raw] iv]. cbn [fst] in OKR. subst rc.
  change (negb (ErrOK =? ErrOK)) with false in A. cbv iota in A.
  destruct (read_setup_fields _ _ _ _ _ _ _ W RS eq_refl) as (_ & Fm & _ & _ & Fi & SK & W1 & _ & O1 & S1 & Q1). specialize (Q1 Q).
  rewrite <- Fm in SM, TW. assert (TW2 : twoway c1 = twoway s) by (symmetry; apply SK).
  set (c2 := set_riv (set_mode c1 m) iv) in A.
  assert (P2 : length (msg c2) = 400%nat /\ length (wiv c2) = 16%nat /\ quiet c2 /\ st c2 = StSetup /\ outp c2 = outp s /\ twoway c2 = twoway s).
  { destruct W1 as (V1 & V2 & V3). unfold c2. cproj. repeat split; auto; congruence. }
  clearbody c2. destruct P2 as (M2 & I2 & Q2 & S2 & O2 & T2).
  assert (BM : negb (m =? MODE_OPEN) && (negb (twoway c2) || negb (m =? MODE_MIXED)) && negb (m =? MODE_AUTH) && negb (m =? MODE_ENCR) = false).
  { rewrite T2. clear - SM TW. destruct SM as [->|[->|[->| ->]]]; destruct (twoway s); try reflexivity. discriminate (TW eq_refl). }
  rewrite BM in A. cbv iota zeta in A.
  assert (REF : forall code, code = 1 \/ code = 2 -> AcceptNo (snd (write_server_start E c2 code 0)) = AcceptNo s' ->
    exists o, sent s s' o /\ length o = 48%nat /\ (nth 15 o 0 = 1 \/ nth 15 o 0 = 2)).
  { intros code C X. injection X as <-. destruct (refuse_sends c2 code M2 I2 Q2 S2 C) as (o & X1 & X2 & X3). exists o. unfold sent in *. rewrite <- O2, X3. auto. }
  assert (FIN : forall c u, length (msg c) = 400%nat -> length (wiv c) = 16%nat -> quiet c -> st c = StSetup -> outp c = outp s -> accept_finish E c m uptime w u = AcceptNo s' ->
    exists o, sent s s' o /\ length o = 48%nat /\ (nth 15 o 0 = 1 \/ nth 15 o 0 = 2)).
  { intros c u H1 H2 H3 H4 H5 F. unfold accept_finish in F. destruct (sw_policy w m u) as [ok err]. destruct ok; cbn [negb] in F.
    - destruct (start_quiet E c uptime H3 H4) as (c' & o & WS & _). rewrite WS in F. discriminate.
    - injection F as <-. destruct (refuse_sends c (if ErrWARNING <? err then CNTRL_REJECT else CNTRL_FAILURE) H1 H2 H3 H4 ltac:(destruct (ErrWARNING <? err); [left|right]; reflexivity)) as (o & X1 & X2 & X3).
      exists o. unfold sent in *. rewrite <- H5, X3. split; [exact X1|]. split; [exact X2|]. destruct (ErrWARNING <? err); [left|right]; reflexivity. }
  destruct (Z.lor m offered =? 0); [apply (REF CNTRL_REJECT); [left; reflexivity|exact A]|].
  destruct (ciphers c2); [|apply (FIN c2 None); assumption].
  destruct (sw_getpf w user) as [pf err].
  assert (RF : forall x, x = AcceptNo s' -> x = AcceptNo (snd (write_server_start E c2 CNTRL_FAILURE 0)) -> exists o, sent s s' o /\ length o = 48%nat /\ (nth 15 o 0 = 1 \/ nth 15 o 0 = 2)).
  { intros x X Y. apply (REF CNTRL_FAILURE); [right; reflexivity|]. rewrite <- Y. exact X. }
  assert (A2 : forall dt, match dt with
        | None => AcceptNo (snd (write_server_start E c2 CNTRL_FAILURE 0))
        | Some tok =>
            if negb (eqb_octets chal (firstn 16 tok)) || match pf with None => true | _ => false end
            then AcceptNo (snd (write_server_start E c2 CNTRL_REJECT 0)) else
            match sw_iv w with
            | None => AcceptNo (snd (write_server_start E c2 CNTRL_FAILURE 0))
            | Some wi => accept_finish E (set_hkey (set_key (set_wiv c2 wi) (sub 16 16 tok)) (sub 32 32 tok)) m uptime w (Some user)
            end
        end = AcceptNo s' -> exists o, sent s s' o /\ length o = 48%nat /\ (nth 15 o 0 = 1 \/ nth 15 o 0 = 2)).
  { intros [tok|] X; [|apply (RF _ X eq_refl)]. match type of X with (if ?b then _ else _) = _ => destruct b end; [apply (REF CNTRL_REJECT); [left; reflexivity|exact X]|].
    destruct (sw_iv w) as [wi|] eqn:WI; [|apply (RF _ X eq_refl)]. eapply FIN; [| | | | |exact X]; cproj; auto. }
  destruct pf as [p|]; destruct (err =? ErrOK); try (apply (A2 _ A)). apply (RF _ A eq_refl).
Qed.
End R.

(** A client whose set-up response has arrived and names one of the modes that exist for its protocol is either accepted or gets an answer of 48 octets with
    code 1 (rejected) or 2 (failure), and a client that gets it reports that it was denied - whatever its token, its user, the policy.
    Missing: responses which name no such mode, refuted below *)
Theorem C176_told_partial : forall E D kdf s offered chal salt count uptime w s',
  wf s -> quiet s -> st s = StSetup -> (164 <= length (inp s))%nat ->
  single_mode (field (inp s) 0 4) -> (field (inp s) 0 4 = 8 -> twoway s = true) -> (forall wi, sw_iv w = Some wi -> length wi = 16%nat) ->
  accept_decide E D kdf s offered chal salt count uptime w = AcceptNo s' ->
  exists o, sent s s' o /\ length o = 48%nat /\ (nth 15 o 0 = 1 \/ nth 15 o 0 = 2) /\
    forall c rest, wf c -> quiet c -> st c = StSetup -> inp c = o ++ rest -> exists c', open_finish D c = (OpenDenied c', 0).
Proof.
  intros E D kdf s offered chal salt count uptime w s' W Q S L SM TW IV A.
  destruct (decide_refuses E D kdf s offered chal salt count uptime w s' W Q S L SM TW IV A) as (o & X1 & X2 & X3). exists o. split; [exact X1|]. split; [exact X2|]. split; [exact X3|].
  intros c rest WC QC SC I. exact (told_client E D kdf c o rest WC QC SC I X2 X3).
Qed.

(** Such an answer is never sent to a client that is accepted: what it gets says 0 *)
Theorem C176_code_means_refused : forall D c c' up, open_finish D c = (OpenOK c', up) -> wf c -> (32 <= length (inp c))%nat /\ nth 15 (inp c) 0 = 0.
Proof.
  intros D c c' up F (W1 & W2 & W3). unfold open_finish, read_server_start in F. destruct (negb (st c =? StSetup)); [discriminate|].
  destruct (read_raw c 0 32) as [r c1] eqn:RR.
  destruct r; [|change (ErrFATAL =? ErrOK) with false in F; discriminate|change (ErrFATAL =? ErrOK) with false in F; discriminate].
  assert (X : (32 <= length (inp c))%nat /\ msg c1 = put 0 (firstn 32 (inp c)) (msg c)).
  { unfold read_raw in RR. set (q := put 0 (firstn 32 (inp c)) (msg c)) in *. clearbody q. set (q2 := skipn 32 (inp c)) in *. clearbody q2.
    destruct (io c) as [|[|i k] t0]; try discriminate; destruct (length (inp c) <? 32)%nat eqn:Y; inversion RR; subst; cproj; (split; [apply Nat.ltb_ge in Y; exact Y|reflexivity]). }
  destruct X as (L & M). split; [exact L|].
  assert (B : byte 15 (msg c1) = nth 15 (inp c) 0) by (rewrite M, byte_put_in by (rewrite ?firstn_length; lia); unfold byte; apply nth_first; lia).
  rewrite B in F. cbv zeta in F. set (a := get_accept (nth 15 (inp c) 0)) in *.
  assert (GA : a = 0 -> nth 15 (inp c) 0 = 0) by (unfold a, get_accept, CNTRL_INVALID; destruct (_ && _); lia).
  destruct (a =? CNTRL_INVALID); [discriminate|]. match type of F with context [recv_blocks D ?x 0 1] => destruct (recv_blocks D x 0 1) as [r3 c3] end.
  destruct r3; [|discriminate|discriminate]. change (negb (ErrOK =? ErrOK)) with false in F. cbv iota in F.
  destruct (a =? CNTRL_ACCEPT) eqn:Z0; [|discriminate]. apply GA. unfold CNTRL_ACCEPT in Z0. lia.
Qed.

(** A client which names the mixed mode to a one-way server (likewise: two modes) is disconnected without an answer *)
Theorem C176_silent_refuted : exists s m w, wf s /\ quiet s /\ st s = StSetup /\ (164 <= length (inp s))%nat /\ field (inp s) 0 4 = m /\ m <> 0 /\
  forall E D kdf, exists s', accept_decide E D kdf s 7 (repeat 1 16) (repeat 2 16) 1024 0 w = AcceptNo s' /\ outp s' = outp s.
Proof.
  exists (feed (toy StSetup 0 false []) ([0;0;0;8] ++ zeros 160)), 8, (mkSWorld (fun _ => (None, ErrOK)) (fun _ _ => (true, ErrOK)) (Some (repeat 3 16))).
  split; [repeat split|]. split; [constructor|]. split; [reflexivity|]. split; [apply Nat.leb_le; vm_compute; reflexivity|]. split; [vm_compute; reflexivity|]. split; [discriminate|].
  intros E D kdf. eexists. split; vm_compute; reflexivity.
Qed.

(** a client without the right pass phrase, and one the policy does not want *)
Definition refused_demo (m : Z) (pol : bool * Z) : option Z :=
  match accept_decide toyE toyE (fun _ _ _ => Some (repeat 5 16)) (feed (toy StSetup 0 false []) ([0;0;0;m] ++ zeros 160)) 7 (repeat 1 16) (repeat 2 16) 1024 0
    (mkSWorld (fun _ => (Some [1;2], ErrOK)) (fun _ _ => pol) (Some (repeat 3 16))) with
  | AcceptNo s => Some (nth 15 (outp s) 9)
  | AcceptOK _ _ => None
  end.
Example C176_case : refused_demo 2 (true, ErrOK) = Some 1 /\ refused_demo 1 (false, ErrFATAL) = Some 2 /\ refused_demo 1 (false, ErrOK) = Some 1 /\ refused_demo 1 (true, ErrOK) = None.
Proof. vm_compute. auto. Qed.

Print Assumptions C176_told_partial.
Print Assumptions C176_code_means_refused.
Print Assumptions C176_silent_refuted.
