(** The whole stop exchange between two sides. *)
From Coq Require Import ZArith List Bool Lia ZifyBool ZifyNat Arith Permutation.
From Verif Require Import Base BaseLemmas Puts Time_Model Time_Proofs Sched_Model Wire_Model Wire_Spec Wire_Proofs Control_Model Control_Spec
  Control_Proofs Control_Integrity Stop_Model Stop_Spec Stop_Proofs.
Import ListNotations.
Open Scope Z_scope.
Ltac Zify.zify_post_hook ::= Z.div_mod_to_equations.

(** ** stopping the senders *)
Definition sized (t : tsess) : tsess :=
  match t_end t with
  | Some e => if e_send e then mkTS (t_sid t) (Some (mkEP (e_send e) (e_skips e) (Z.of_nat (length (e_skips e))) (e_file_ok e) (e_exit e) (e_sev e))) else t
  | None => t
  end.

Lemma stop_send_ok : forall ts n, Forall ends_well ts -> 0 <= n -> n + Z.of_nat (length (senders ts)) < 2^32 ->
  stop_send false ts ErrOK CNTRL_ACCEPT n = (ErrOK, CNTRL_ACCEPT, n + Z.of_nat (length (senders ts)), map sized ts).
Proof.
  induction ts as [|t ts IH]; intros n F N0 N1; cbn [stop_send map].
  - cbn. now rewrite Z.add_0_r.
  - inversion F as [|? ? [F1 F2] F3]; subst. unfold senders in *. cbn [filter] in *. unfold is_sender at 1 in N1. unfold is_sender at 1.
    unfold sized at 1. destruct (t_end t) as [e|] eqn:Et; [|contradiction]. cbn [negb andb].
    destruct (e_send e) eqn:Es; cbn [negb].
    + destruct (F2 eq_refl) as (A1 & A2 & A3 & A4 & A5). cbn [length] in *.
      unfold endpoint_stop. rewrite A1, A2, A3. change (CNTRL_ACCEPT =? CNTRL_ACCEPT) with true. cbv iota. cbn [andb].
      change (Z.min ErrOK ErrOK) with ErrOK. rewrite (Z.mod_small (n + 1)) by (change M32 with (2^32); lia).
      destruct (report_mult8 _ A4) as (M1 & M2 & M3).
      assert (NS: be_dec (sub 4 4 (e_skips e)) = report_count (e_skips e)) by (unfold report_count, field; rewrite number_be; reflexivity).
      rewrite NS, M3.
      replace ((Z.of_nat (length (e_skips e) / 8) - 1 + 1) mod M32 * 8 mod M32) with (Z.of_nat (length (e_skips e))).
      2:{ set (q := (length (e_skips e) / 8)%nat) in *. replace (Z.of_nat q - 1 + 1) with (Z.of_nat q) by lia.
          change M32 with (2^32). rewrite (Z.mod_small (Z.of_nat q)) by lia. rewrite Z.mod_small by lia. lia. }
      rewrite Z.eqb_refl. replace (8 <=? Z.of_nat (length (e_skips e))) with true by lia. cbn [andb].
      rewrite (IH (n + 1)) by (auto; lia). rewrite Nat2Z.inj_succ.
      replace (n + Z.succ (Z.of_nat (length (filter is_sender ts)))) with (n + 1 + Z.of_nat (length (filter is_sender ts))) by lia. rewrite ?A1, ?A2, ?A3. reflexivity.
    + rewrite IH by (auto; lia). reflexivity.
Qed.

Lemma sized_same : forall t, t_sid (sized t) = t_sid t /\ is_sender (sized t) = is_sender t /\ is_receiver (sized t) = is_receiver t /\ arrived (sized t) = arrived t.
Proof. intros [sid [e|]]; unfold sized, is_sender, is_receiver, arrived; cbn; auto. destruct (e_send e) eqn:Q; cbn; rewrite ?Q; auto. Qed.
Lemma sized_reported : forall t, ends_well t -> reported (sized t).
Proof.
  intros [sid [e|]] [A B]; unfold reported, sized; cbn in *; [|contradiction].
  destruct (e_send e) eqn:Q; cbn; rewrite ?Q; split; auto; try discriminate. intros _. split; auto. now destruct (B eq_refl) as (_ & _ & _ & X & _).
Qed.
Lemma map_sized : forall ts, map t_sid (senders (map sized ts)) = map t_sid (senders ts) /\
  map t_sid (receivers (map sized ts)) = map t_sid (receivers ts) /\
  map arrived (senders (map sized ts)) = map arrived (senders ts) /\ length (senders (map sized ts)) = length (senders ts).
Proof.
  induction ts as [|t ts (I1 & I2 & I3 & I4)]; [cbn; auto|]. destruct (sized_same t) as (S1 & S2 & S3 & S4).
  unfold senders, receivers in *. cbn [map filter]. rewrite S2, S3. destruct (is_sender t), (is_receiver t); cbn [map length]; rewrite ?I1, ?I2, ?I3, ?I4, ?S1, ?S4; auto.
Qed.

Section Ex.
Variable E : list Z -> list Z -> list Z.

(** ** writing touches nothing of the reading side *)
Definition wpres (c c' : ctl) : Prop := riv c' = riv c /\ rhm c' = rhm c /\ inp c' = inp c /\ (quiet c -> quiet c').
Lemma wpres_refl : forall c, wpres c c. Proof using. unfold wpres. auto. Qed.
Lemma wpres_trans : forall a b c, wpres a b -> wpres b c -> wpres a c.
Proof using. unfold wpres. intros a b c (A1 & A2 & A3 & A4) (B1 & B2 & B3 & B4). repeat split; try congruence. auto. Qed.

Lemma write_quiet : forall c bs, quiet c -> exists c', write_raw c bs = (IODone, c') /\ wpres c c'.
Proof using.
  intros c bs Q. unfold write_raw. unfold quiet in Q. destruct (io c) as [|[|b n] r] eqn:I.
  - eexists. split; [reflexivity|]. unfold wpres, quiet. cproj. auto.
  - eexists. split; [reflexivity|]. unfold wpres, quiet. cproj. repeat split; auto. intros _. inversion Q; auto.
  - inversion Q. discriminate.
Qed.
Lemma send_quiet : forall c off nb, quiet c -> exists c', send_blocks E c off nb = (IODone, c') /\ wpres c c'.
Proof using.
  intros c off nb Q. unfold send_blocks. destruct (ciphers c).
  - destruct (cbc_enc E (key c) (wiv c) nb (sub off (16 * nb) (msg c))) as [ct iv].
    destruct (write_quiet (set_wiv (set_msg c (put off ct (msg c))) iv) ct Q) as (c' & A & B). exists c'. split; auto.
  - apply write_quiet; auto.
Qed.
Lemma shm_add_pres : forall c off nb, wpres c (shm_add c off nb).
Proof using. intros. unfold shm_add, wpres, quiet. destruct (ciphers c); auto. Qed.
Lemma msg_pres : forall c m, wpres c (set_msg c m).
Proof using. intros. unfold wpres, quiet. auto. Qed.
Lemma quiet_wpres : forall c c', wpres c c' -> quiet c -> quiet c'. Proof using. unfold wpres. tauto. Qed.

Lemma write_blocks_quiet : forall n c f, quiet c -> (16 * n <= length f)%nat ->
  exists c', write_skip_blocks E c n f = (Some (skipn (16 * n) f), c') /\ wpres c c'.
Proof using.
  induction n; intros c f Q L; cbn [write_skip_blocks].
  - exists c. split; [reflexivity|apply wpres_refl].
  - destruct (Nat.ltb_spec (length f) 16); [lia|].
    set (c0 := shm_add (set_msg c (put 0 (firstn 16 f) (msg c))) 0 1).
    assert (P0: wpres c c0) by (eapply wpres_trans; [apply msg_pres|apply shm_add_pres]).
    destruct (send_quiet c0 0 1 (quiet_wpres _ _ P0 Q)) as (c1 & S1 & P1). rewrite S1.
    pose proof (wpres_trans _ _ _ P0 P1) as P2.
    destruct (IHn c1 (skipn 16 f) (quiet_wpres _ _ P2 Q)) as (c2 & S2 & P3). { rewrite skipn_length. lia. }
    exists c2. rewrite S2. split; [|eapply wpres_trans; eauto]. f_equal. f_equal. rewrite skipn_skipn. f_equal. lia.
Qed.

Lemma write_skips_quiet : forall c f n, quiet c -> length f = (8 * n)%nat ->
  exists c', write_skips E c (Z.of_nat (length f)) f = (true, c') /\ wpres c c'.
Proof using.
  intros c f n Q L. unfold write_skips. destruct (Z.ltb_spec (Z.of_nat (length f)) 0); [lia|].
  set (k := Z.to_nat (Z.of_nat (length f) / 16)). assert (K: (16 * k <= length f)%nat) by (unfold k; lia).
  destruct (write_blocks_quiet k c f Q K) as (c1 & S1 & P1). rewrite S1.
  destruct (Z.eqb_spec (Z.of_nat (length f) mod 16) 8) as [M|M].
  - assert (length (skipn (16 * k) f) = 8%nat) by (rewrite skipn_length; unfold k; lia).
    destruct (Nat.ltb_spec (length (skipn (16 * k) f)) 8); [lia|].
    set (c2 := shm_add _ 0 1).
    assert (P2: wpres c1 c2) by (eapply wpres_trans; [apply msg_pres|apply shm_add_pres]).
    pose proof (wpres_trans _ _ _ P1 P2) as P3.
    destruct (send_quiet c2 0 1 (quiet_wpres _ _ P3 Q)) as (c3 & S3 & P4). rewrite S3.
    exists c3. split; auto. eapply wpres_trans; eauto.
  - assert (M0: Z.of_nat (length f) mod 16 = 0) by lia. rewrite M0. cbn. eauto.
Qed.

Lemma write_sessions_quiet : forall ts c, quiet c -> Forall reported ts ->
  exists ts' c', write_stop_sessions E c ts = (true, ts', c') /\ wpres c c'.
Proof using.
  induction ts as [|t ts IH]; intros c Q F; cbn [write_stop_sessions].
  - exists [], c. split; [reflexivity|apply wpres_refl].
  - inversion F as [|? ? [F1 F2] F3]; subst. destruct (t_end t) as [e|] eqn:Et; [|contradiction].
    destruct (e_send e) eqn:Es; cbn [negb].
    + destruct (F2 eq_refl) as (Sz & R). set (c0 := if ciphers c then _ else c).
      assert (P0: wpres c c0) by (unfold c0, wpres, quiet; destruct (ciphers c); auto).
      assert (S1: exists sid' c1, send_sid E c0 (t_sid t) = (IODone, sid', c1) /\ wpres c0 c1).
      { unfold send_sid. destruct (ciphers c0).
        - destruct (cbc_enc E (key c0) (wiv c0) 1 (t_sid t)) as [ct iv].
          destruct (write_quiet (set_wiv c0 iv) ct (quiet_wpres _ _ P0 Q)) as (c1 & A & B). rewrite A. exists ct, c1. split; auto.
        - destruct (write_quiet c0 (t_sid t) (quiet_wpres _ _ P0 Q)) as (c1 & A & B). rewrite A. exists (t_sid t), c1. split; auto. }
      destruct S1 as (sid' & c1 & S1 & P1). rewrite S1. pose proof (wpres_trans _ _ _ P0 P1) as P2.
      destruct (report_mult8 _ R) as (M1 & _ & _).
      destruct (write_skips_quiet c1 (e_skips e) _ (quiet_wpres _ _ P2 Q) M1) as (c2 & S2 & P3). rewrite Sz, S2.
      pose proof (wpres_trans _ _ _ P2 P3) as P4.
      destruct (IH c2 (quiet_wpres _ _ P4 Q) F3) as (ts' & c3 & S3 & P5). rewrite S3. eexists _, c3. split; [reflexivity|eapply wpres_trans; eauto].
    + destruct (IH c Q F3) as (ts' & c3 & S3 & P5). rewrite S3. eexists _, c3. split; [reflexivity|auto].
Qed.

Variable H : list Z -> list Z -> list Z.
Lemma digest_pres : forall c off, wpres c (shm_digest H c off).
Proof using. intros. unfold shm_digest, wpres, quiet. destruct (ciphers c); auto. Qed.

Lemma write_stop_quiet : forall c a n ts, quiet c -> st c = StRequest + StTest -> twoway c = false -> Forall reported ts ->
  exists ts' c', write_stop E H c a n ts = (ErrOK, ts', c') /\ wpres c c'.
Proof using.
  intros c a n ts Q S Tw F. unfold write_stop.
  assert (I1: is_st StRequest c && is_st StTest c = true) by (unfold is_st; rewrite S; reflexivity). rewrite I1. cbn [negb].
  set (m := put 4 _ _). set (c0 := shm_add (set_msg c m) 0 1).
  assert (P0: wpres c c0) by (eapply wpres_trans; [apply msg_pres|apply shm_add_pres]).
  assert (Tw0: twoway c0 = false) by (unfold c0, shm_add; destruct (ciphers (set_msg c m)); exact Tw). rewrite Tw0.
  destruct (send_quiet c0 0 1 (quiet_wpres _ _ P0 Q)) as (c1 & S1 & P1). rewrite S1. pose proof (wpres_trans _ _ _ P0 P1) as P2.
  destruct (write_sessions_quiet ts c1 (quiet_wpres _ _ P2 Q) F) as (ts' & c2 & S2 & P3). rewrite S2. pose proof (wpres_trans _ _ _ P2 P3) as P4.
  pose proof (wpres_trans _ _ _ P4 (digest_pres c2 0)) as P5.
  destruct (send_quiet (shm_digest H c2 0) 0 1 (quiet_wpres _ _ P5 Q)) as (c3 & S3 & P6). rewrite S3.
  exists ts', c3. split; auto. eapply wpres_trans; eauto.
Qed.

(** ** reading touches nothing of the writing side *)
Variable D : list Z -> list Z -> list Z.
Definition rpres (c c' : ctl) : Prop := wiv c' = wiv c /\ shm c' = shm c /\ outp c' = outp c /\ (mode c' = mode c /\ twoway c' = twoway c /\ key c' = key c /\ hkey c' = hkey c).
Lemma rpres_refl : forall c, rpres c c. Proof using. unfold rpres. tauto. Qed.
Lemma rpres_trans : forall a b c, rpres a b -> rpres b c -> rpres a c.
Proof using. unfold rpres. intros a b c (A1 & A2 & A3 & A4 & A5 & A6 & A7) (B1 & B2 & B3 & B4 & B5 & B6 & B7). repeat split; congruence. Qed.
Lemma recv_rpres : forall s off nb r s1, recv_blocks D s off nb = (r, s1) -> rpres s s1.
Proof using.
  intros s off nb r s1 R. unfold recv_blocks in R. destruct (read_raw s off (16 * nb)) as [r1 c1] eqn:RR.
  assert (P: rpres s c1).
  { unfold read_raw in RR. apply (f_equal snd) in RR. cbn [snd] in RR. destruct (io s) as [|[|]]; cbn [snd] in RR; rewrite <- RR; unfold rpres; cproj; tauto. }
  destruct r1; try (apply (f_equal snd) in R; cbn [snd] in R; rewrite <- R; exact P).
  destruct (ciphers c1).
  - destruct (cbc_dec D _ _ nb _) as [p iv]. apply (f_equal snd) in R. cbn [snd] in R. rewrite <- R. exact P.
  - apply (f_equal snd) in R. cbn [snd] in R. rewrite <- R. exact P.
Qed.
Lemma rhm_rpres : forall s off nb, rpres s (rhm_add s off nb).
Proof using. intros. unfold rhm_add. destruct (ciphers s); unfold rpres; cproj; tauto. Qed.
Lemma check_rpres : forall s off b s1, rhm_check H s off = (b, s1) -> rpres s s1.
Proof using. intros s off b s1 R. unfold rhm_check in R. destruct (ciphers s); inversion R; subst; unfold rpres; cproj; tauto. Qed.
Lemma st_rpres : forall s x, rpres s (set_st s x). Proof using. intros. unfold rpres. cproj. tauto. Qed.

Lemma type_rpres : forall s t s1, read_request_type D s = (t, s1) -> rpres s s1.
Proof using.
  intros s t s1 R. unfold read_request_type in R. destruct (negb _ || _); [inversion R; apply rpres_refl|].
  destruct (recv_blocks D s 0 1) as [r c] eqn:RB. apply recv_rpres in RB.
  assert (G: forall x, rpres s (set_st c x)) by (intros; eapply rpres_trans; [exact RB|apply st_rpres]).
  destruct r; [| |destruct intr]; try (inversion R; subst; apply G).
  destruct (_ || _); [inversion R; subst; apply G|].
  repeat match type of R with context [if ?b then _ else _] => destruct b; [inversion R; subst; apply G|] end. inversion R; subst; apply G.
Qed.

Lemma skips_rpres : forall n s odd p b w s1, read_skips D s n odd p = (b, w, s1) -> rpres s s1.
Proof using.
  induction n; intros s odd p b w s1 R; cbn [read_skips] in R; [inversion R; apply rpres_refl|].
  assert (G: forall c rec, rpres s c -> (let b := be_dec (sub 0 4 rec) in let e := be_dec (sub 4 4 rec) in
          if e <? b then (false, [], c) else
          if negb (p =? 0) && (b <? p) then (false, [], c) else
          let '(ok, w, c) := read_skips D c n (negb odd) p in (ok, rec ++ w, c)) = (b, w, s1) -> rpres s s1).
  { intros c rec P X. cbv zeta in X. destruct (_ <? _) in X; [inversion X; subst; auto|]. destruct (_ && _) in X; [inversion X; subst; auto|].
    destruct (read_skips D c n (negb odd) p) as [[ok w1] c1] eqn:R1. inversion X; subst. eapply rpres_trans; eauto. }
  destruct odd; [apply (G _ _ (rpres_refl s) R)|].
  destruct (recv_blocks D s 0 1) as [r c] eqn:RB. apply recv_rpres in RB.
  destruct r; try (inversion R; subst; exact RB).
  eapply G; [|exact R]. eapply rpres_trans; [exact RB|apply rhm_rpres].
Qed.

Variable clean : list Z -> Z -> bool.
Variable save : list Z -> bool.

Lemma sessions_rpres : forall n s ts rv bh b ts' rv' bh' fs s1,
  read_stop_sessions D clean save s n ts rv bh = (b, ts', rv', bh', fs, s1) -> rpres s s1.
Proof using.
  induction n; intros s ts rv bh b ts' rv' bh' fs s1 R; cbn [read_stop_sessions] in R; [inversion R; apply rpres_refl|].
  destruct (recv_blocks D s 0 1) as [r c] eqn:RB. apply recv_rpres in RB.
  destruct r; try (inversion R; subst; exact RB).
  pose proof (rpres_trans _ _ _ RB (rhm_rpres c 0 1)) as P1. set (c1 := rhm_add c 0 1) in *.
  destruct (find_receiver _ rv) as [[[t rv1] bh1]|]; [|inversion R; subst; exact P1].
  destruct (recv_blocks D c1 0 1) as [r2 c2] eqn:RB2. apply recv_rpres in RB2. pose proof (rpres_trans _ _ _ P1 RB2) as P2.
  destruct r2; try (inversion R; subst; exact P2).
  pose proof (rpres_trans _ _ _ P2 (rhm_rpres c2 0 1)) as P3. set (c3 := rhm_add c2 0 1) in *.
  destruct (negb (clean _ _)); [inversion R; subst; exact P3|].
  destruct (read_skips D c3 _ true 0) as [[ok w] c4] eqn:RS. apply skips_rpres in RS. pose proof (rpres_trans _ _ _ P3 RS) as P4.
  destruct (negb ok); [inversion R; subst; exact P4|].
  destruct (_ && _) in R; [inversion R; subst; exact P4|].
  destruct (negb (save _)); [inversion R; subst; exact P4|].
  destruct (read_stop_sessions D clean save c4 n (t :: ts) rv1 bh1) as [[[[[b6 ts6] rv6] bh6] fs6] c6] eqn:R6. inversion R; subst.
  eapply rpres_trans; [exact P4|eapply IHn; exact R6].
Qed.

Lemma read_stop_rpres : forall s ts rc a ts' fs s1, read_stop D H clean save s ts = (rc, a, ts', fs, s1) -> rpres s s1.
Proof using.
  intros s ts rc a ts' fs s1 R. unfold read_stop in R.
  destruct (negb _); [inversion R; apply rpres_refl|].
  destruct (_ =? CNTRL_INVALID) in R; [inversion R; subst; apply st_rpres|].
  pose proof (rhm_rpres s 0 1) as P1. set (c1 := rhm_add s 0 1) in *.
  assert (G: forall A (f : Z -> Z -> ctl -> A) c (out : A -> ctl), rpres s c -> (forall x y z, out (f x y z) = z) -> forall aval,
     rpres s (out (match recv_blocks D c 0 1 with
    | (IODone, c) => let (ok, c) := rhm_check H c 0 in
        if ok then f ErrOK aval (or_st (clr_st c StStopSessions) StRequest) else f ErrFATAL CNTRL_FAILURE (invalid c)
    | (_, c) => f ErrFATAL CNTRL_FAILURE (invalid c) end))).
  { intros A f c out Pc Ho aval. destruct (recv_blocks D c 0 1) as [r c2] eqn:RB. apply recv_rpres in RB. pose proof (rpres_trans _ _ _ Pc RB) as P2.
    destruct r.
    - destruct (rhm_check H c2 0) as [ok c3] eqn:CH. apply check_rpres in CH. pose proof (rpres_trans _ _ _ P2 CH) as P3.
      destruct ok; rewrite Ho; exact P3.
    - rewrite Ho; exact P2.
    - rewrite Ho; exact P2. }
  destruct (twoway c1).
  - destruct (negb _) in R; [inversion R; subst; exact P1|].
    specialize (G _ (fun x y z => (x, y, ts, @nil stored, z)) c1 snd P1 (fun _ _ _ => eq_refl) (get_accept (byte 1 (msg s)))).
    cbv beta in G. rewrite R in G. exact G.
  - destruct (pull_receivers ts []) as [[sn|] rv]; [|inversion R; subst; exact P1].
    destruct (read_stop_sessions D clean save c1 _ sn rv []) as [[[[[ok ts1] rv1] bh1] fs1] c2] eqn:RS.
    apply sessions_rpres in RS. pose proof (rpres_trans _ _ _ P1 RS) as P2.
    destruct (negb ok); [inversion R; subst; exact P2|]. destruct bh1; [|inversion R; subst; exact P2].
    clear G. destruct (recv_blocks D c2 0 1) as [r c3] eqn:RB. apply recv_rpres in RB. pose proof (rpres_trans _ _ _ P2 RB) as P3.
    destruct r; try (inversion R; subst; exact P3).
    destruct (rhm_check H c3 0) as [ok2 c4] eqn:CH. apply check_rpres in CH. pose proof (rpres_trans _ _ _ P3 CH) as P4.
    destruct ok2; inversion R; subst; exact P4.
Qed.

End Ex.

Section Two.
Variable E D H : list Z -> list Z -> list Z.
Hypothesis BC : block_cipher E D.
Hypothesis HL : digest20 H.

Lemma finish_rpres : forall w err aval rs files c rc a f c',
  stop_finish w err aval rs files c = (rc, a, f, c') -> outp c' = outp c.
Proof using.
  intros w err aval rs files c rc a f c' R. unfold stop_finish in R. destruct (_ <? _) in R; [inversion R; reflexivity|].
  destruct (negb rs); inversion R; reflexivity.
Qed.

Lemma perm_senders : forall a b, Permutation a b -> Permutation (senders a) (senders b) /\ Permutation (receivers a) (receivers b).
Proof using.
  intros a b P. unfold senders, receivers. induction P; cbn [filter].
  - auto.
  - destruct IHP. destruct (is_sender x), (is_receiver x); auto.
  - destruct (is_sender x), (is_sender y), (is_receiver x), (is_receiver y); split; auto; apply perm_swap.
  - destruct IHP1, IHP2. split; etransitivity; eauto.
Qed.

Lemma write_sessions_list : forall ts c b ts' c', write_stop_sessions E c ts = (b, ts', c') ->
  receivers ts' = receivers ts /\ (all_open ts -> all_open ts').
Proof using.
  induction ts as [|t ts IH]; intros c b ts' c' W; cbn [write_stop_sessions] in W.
  - inversion W; subst. auto.
  - unfold receivers in *. cbn [filter]. unfold is_receiver at 2. destruct (t_end t) as [e|] eqn:Et.
    + destruct (e_send e) eqn:Es; cbn [negb] in *.
      * assert (G: forall sid r, receivers (mkTS sid (Some e) :: r) = receivers r).
        { intros. unfold receivers. cbn [filter is_receiver t_end]. unfold is_receiver at 1. cbn [t_end]. rewrite Es. reflexivity. }
        unfold receivers in G.
        assert (O: forall sid r, (all_open ts -> all_open r) -> all_open (t :: ts) -> all_open (mkTS sid (Some e) :: r)).
        { intros sid r X Y. inversion Y; subst. constructor; [cbn; congruence|apply X; assumption]. }
        destruct (send_sid E _ (t_sid t)) as [[r1 sid'] c1].
        destruct r1; [|inversion W; subst; rewrite Et || idtac; rewrite G; auto|inversion W; subst; rewrite G; auto].
        destruct (write_skips E c1 (e_size e) (e_skips e)) as [[|] c2]; [|inversion W; subst; rewrite G; auto].
        destruct (write_stop_sessions E c2 ts) as [[b1 r2] c3] eqn:W3. apply IH in W3. destruct W3. inversion W; subst. rewrite G. auto.
      * destruct (write_stop_sessions E c ts) as [[b1 r2] c3] eqn:W3. apply IH in W3. destruct W3 as [W3 W4]. inversion W; subst.
        cbn [filter]. unfold is_receiver at 1. rewrite Et, Es. cbn [negb]. rewrite W3. split; auto. intros Y. inversion Y; subst. constructor; auto. apply W4. auto.
    + destruct (write_stop_sessions E c ts) as [[b1 r2] c3] eqn:W3. apply IH in W3. destruct W3 as [W3 W4]. inversion W; subst.
      cbn [filter]. unfold is_receiver at 1. rewrite Et. rewrite W3. split; auto. intros Y. inversion Y; subst. congruence.
Qed.

Lemma write_stop_list : forall c a n ts ts' c', write_stop E H c a n ts = (ErrOK, ts', c') ->
  receivers ts' = receivers ts /\ (all_open ts -> all_open ts').
Proof using.
  intros c a n ts ts' c' W. unfold write_stop in W. destruct (negb _); [discriminate|].
  match type of W with (if twoway ?x then _ else _) = _ => destruct (twoway x) end.
  - destruct (send_blocks E _ 0 2) as [[| |] c1]; try discriminate. inversion W; subst; auto.
  - destruct (send_blocks E _ 0 1) as [[| |] c1]; try discriminate.
    destruct (write_stop_sessions E c1 ts) as [[[|] ts1] c2] eqn:WS; [|discriminate]. apply write_sessions_list in WS.
    destruct (send_blocks E _ 0 1) as [[| |] c3]; try discriminate. inversion W; subst; auto.
Qed.

Lemma stop_exchange : forall cleanc savec cleans saves c s tc ts wc ws oc os rcc ac fc c' r sa err fs s',
  wf c -> wf s -> quiet c -> quiet s -> linked c s -> linked s c -> twoway c = false ->
  st c = StRequest + StTest -> st s = StRequest + StTest ->
  Forall ends_well tc -> Forall ends_well ts -> Z.of_nat (length tc) < 2^32 -> Z.of_nat (length ts) < 2^32 ->
  Permutation (map t_sid (receivers ts)) (map t_sid (senders tc)) ->
  Permutation (map t_sid (receivers tc)) (map t_sid (senders ts)) ->
  (forall x n, cleanc x n = true) -> (forall x, savec x = true) -> (forall x n, cleans x n = true) -> (forall x, saves x = true) ->
  world_well wc -> world_well ws ->
  stop_sessions E D H cleanc savec c false CNTRL_ACCEPT tc wc = (rcc, ac, fc, c') ->
  stop_wait E D H cleans saves s true ts ws = (r, sa, err, fs, s') ->
  sent c c' oc -> sent s s' os -> inp s = oc -> inp c = os ->
  rcc = ErrOK /\ ac = CNTRL_ACCEPT /\ r = 0 /\ sa = CNTRL_ACCEPT /\ err = ErrOK /\
  fs = map arrived (senders tc) /\ Permutation fc (map arrived (senders ts)) /\
  st c' = StRequest /\ st s' = StRequest /\ linked c' s' /\ linked s' c' /\ wf c' /\ wf s'.
Proof using BC HL.
  intros cleanc savec cleans saves c s tc ts wc ws oc os rcc ac fc c' r sa err fs s' Wc Ws Qc Qs Lcs Lsc Tw Stc Sts Fc Fs Nc Ns Ps Pc
    Cc Vc Cs Vs (Wc1 & Wc2 & Wc3 & Wc4) (Ws1 & Ws2 & Ws3 & Ws4) RC RS SoC SoS Is Ic.
  assert (LS: forall l, (length (senders l) <= length l)%nat) by (intros l; unfold senders; clear; induction l as [|y l IH]; cbn; [lia|]; destruct (is_sender y); cbn; lia).
  pose proof (LS tc) as LSc. pose proof (LS ts) as LSs.
  assert (RP: forall l, Forall ends_well l -> Forall reported (map sized l)).
  { intros l F. apply Forall_map. eapply Forall_impl; [|exact F]. apply sized_reported. }
  assert (OP: forall l, Forall ends_well l -> all_open (map sized l)).
  { intros l F. apply Forall_map. eapply Forall_impl; [|exact F]. intros t [_ X]. unfold sized. destruct (t_end t) as [e|] eqn:Et; [|contradiction].
    destruct (e_send e); cbn; congruence. }
  (* the client writes *)
  unfold stop_sessions in RC. rewrite Tw in RC. rewrite stop_send_ok in RC by (auto; lia). cbn [Z.add] in RC.
  change (ErrOK <? ErrWARNING) with false in RC. cbv iota in RC.
  destruct (write_stop_quiet E H c CNTRL_ACCEPT (Z.of_nat (length (senders tc))) (map sized tc) Qc Stc Tw (RP _ Fc)) as (tc1 & c1 & WS1 & P1).
  rewrite WS1 in RC. change (Z.min ErrOK ErrOK) with ErrOK in RC. change (ErrOK <? ErrWARNING) with false in RC. cbv iota in RC.
  destruct (map_sized tc) as (mc1 & mc2 & mc3 & mc4). destruct (map_sized ts) as (ms1 & ms2 & ms3 & ms4).
  assert (So1: sent c c1 oc).
  { unfold sent in *. rewrite <- SoC. clear - RC Wc1. 
    destruct (twoway c1 && negb false).
    - destruct (_ <? _) in RC; apply finish_rpres in RC; congruence.
    - destruct (read_request_type D c1) as [t c2] eqn:RT. apply type_rpres in RT. destruct RT as (_ & _ & RT & _). rewrite <- RT.
      destruct (t =? 3).
      + destruct (_ <? _) in RC; [apply finish_rpres in RC; congruence|].
        destruct (read_stop D H cleanc savec c2 tc1) as [[[[x1 x2] x3] x4] x5] eqn:RD. apply read_stop_rpres in RD. destruct RD as (_ & _ & RD & _).
        apply finish_rpres in RC; congruence.
      + destruct (_ || _) in RC; [|apply finish_rpres in RC; congruence].
        destruct (_ <? _) in RC; apply finish_rpres in RC; congruence. }
  (* the server reads *)
  assert (Pm1: Permutation (map t_sid (receivers (map sized ts))) (map t_sid (senders (map sized tc)))) by (rewrite ms2, mc1; exact Ps).
  rewrite <- mc4 in WS1.
  destruct (stop_roundtrip E D H BC HL cleans saves c c1 s CNTRL_ACCEPT (map sized tc) tc1 (map sized ts) oc []) as (s1 & ts1 & s2 & RT & RD & PT & A1 & Sc1 & Ss2); auto.
  { unfold accept_code, CNTRL_ACCEPT. lia. } { rewrite map_length; auto. }
  { apply Forall_forall. auto. } { rewrite app_nil_r. auto. }
  rewrite mc3 in RD.
  unfold stop_wait in RS. rewrite RT in RS.
  assert (Tws1: twoway s1 = false).
  { apply type_rpres in RT. destruct RT as (_ & _ & _ & _ & -> & _). destruct Lcs as (_ & <- & _). exact Tw. }
  rewrite Tws1 in RS. cbn [andb negb Z.eqb Pos.eqb orb] in RS.
  rewrite stop_send_ok in RS by (auto; lia). cbn [Z.add] in RS.
  change (ErrOK <? ErrWARNING) with false in RS. cbv iota in RS. rewrite Ws1, Ws2 in RS. change (Z.min ErrOK ErrOK) with ErrOK in RS.
  change (ErrOK <? ErrWARNING) with false in RS. change (CNTRL_ACCEPT =? CNTRL_ACCEPT) with true in RS. cbv iota in RS.
  rewrite RD in RS. change (Z.min ErrOK ErrOK) with ErrOK in RS.
  (* the server writes *)
  destruct A1 as (B1 & B2 & B3 & B4 & B5).
  assert (Tw2: twoway s2 = false).
  { pose proof RD as RD'. apply read_stop_rpres in RD'. destruct RD' as (_ & _ & _ & _ & X & _). congruence. }
  assert (RP1: Forall reported ts1).
  { eapply Permutation_Forall; [exact PT|]. apply RP; auto. }
  destruct (perm_senders _ _ PT) as [PS PR].
  assert (NL: length (senders ts) = length (senders ts1)) by (rewrite <- ms4; apply Permutation_length; exact PS).
  destruct (write_stop_quiet E H s2 CNTRL_ACCEPT (Z.of_nat (length (senders ts))) ts1 B5 Ss2 Tw2 RP1) as (ts2 & s3 & WS2 & P2).
  unfold wait_finish in RS. change (ErrOK <? ErrWARNING) with false in RS. rewrite Tw2 in RS.
  change (true && (ErrWARNING <=? ErrOK) && negb (false && true)) with true in RS. cbv iota in RS.
  rewrite WS2 in RS. rewrite Ws4 in RS. change (Z.min (Z.min ErrOK ErrOK) ErrOK) with ErrOK in RS. change (ErrOK <? ErrWARNING) with false in RS. cbv iota in RS. cbn [negb] in RS.
  replace (negb (twoway s && false) && true) with true in RS by (destruct (twoway s); reflexivity).
  inversion RS; subst r sa err fs s'; clear RS.
  assert (RS2: rpres s s2).
  { apply type_rpres in RT. apply read_stop_rpres in RD. eapply rpres_trans; eauto. }
  assert (So2: sent s2 s3 os).
  { unfold sent in *. destruct RS2 as (_ & _ & -> & _). exact SoS. }
  (* the client reads *)
  assert (L2: linked s2 c1).
  { destruct Lsc as (K1 & K2 & K3 & K4 & K5 & K6). destruct RS2 as (R1 & R2 & R3 & R4 & R5 & R6 & R7). destruct P1 as (Q1 & Q2 & Q3 & Q4).
    destruct B1 as (D1 & D2 & D3 & D4 & D5 & D6). unfold linked. rewrite R1, R2, Q1, Q2. repeat split; congruence. }
  rewrite NL in WS2.
  destruct (stop_roundtrip E D H BC HL cleanc savec s2 s3 c1 CNTRL_ACCEPT ts1 ts2 tc1 os []) as (c2 & tc2 & c3 & RT2 & RD2 & PT2 & A2 & Sc2 & Ss3); auto.
  { apply P1; auto. } { congruence. } { unfold accept_code, CNTRL_ACCEPT. lia. }
  { rewrite <- (Permutation_length PT), map_length. auto. }
  { apply (proj2 (write_stop_list _ _ _ _ _ _ WS1)). apply OP; auto. }
  { rewrite (proj1 (write_stop_list _ _ _ _ _ _ WS1)), mc2, Pc, <- ms1. apply Permutation_map. exact PS. }
  { apply Forall_forall. auto. } { rewrite app_nil_r. destruct P1 as (_ & _ & -> & _). auto. }
  assert (Tw1: twoway c1 = false) by (destruct B1 as (_ & -> & _); exact Tw2).
  rewrite Tw1 in RC. cbn [andb] in RC. rewrite RT2 in RC. cbn [Z.eqb Pos.eqb] in RC. rewrite Wc1 in RC.
  change (Z.min ErrOK ErrOK) with ErrOK in RC. change (ErrOK <? ErrWARNING) with false in RC. cbv iota in RC.
  rewrite RD2 in RC. change (Z.min ErrOK ErrOK) with ErrOK in RC. unfold stop_finish in RC. rewrite Wc4 in RC.
  change (Z.min ErrOK ErrOK) with ErrOK in RC. change (ErrOK <? ErrWARNING) with false in RC. cbv iota in RC. cbn [negb] in RC.
  inversion RC; subst rcc ac fc c'; clear RC.
  destruct A2 as (E1 & E2 & E3 & E4 & E5).
  assert (RC3: rpres c1 c3).
  { apply type_rpres in RT2. apply read_stop_rpres in RD2. eapply rpres_trans; eauto. }
  do 5 (split; [reflexivity|]).
  split; [reflexivity|].
  split. { rewrite <- ms3. apply Permutation_map. symmetry. exact PS. }
  split. { unfold clr_st. cproj. rewrite Ss3. reflexivity. }
  split. { unfold clr_st. cproj. rewrite Sc2, Ss2. reflexivity. }
  split. { destruct B1 as (K1 & K2 & K3 & K4 & K5 & K6). destruct RC3 as (R1 & R2 & R3 & R4 & R5 & R6 & R7). destruct P2 as (Q1 & Q2 & Q3 & Q4).
    destruct E1 as (D1 & D2 & D3 & D4 & D5 & D6). unfold linked, clr_st. cproj. rewrite R1, R2, Q1, Q2. repeat split; congruence. }
  split; [exact E1|]. split; [exact E4|exact E3].
Qed.
End Two.
