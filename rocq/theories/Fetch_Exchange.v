(** The whole exchange of fetching a session: the server sends, the client receives. *)
From Coq Require Import ZArith List Bool Lia ZifyBool ZifyNat Arith.
From Verif Require Import Base BaseLemmas Puts Time_Model Time_Proofs Sched_Model Wire_Model Wire_Spec Wire_Proofs Control_Model Control_Spec
  Control_Proofs Control_Integrity Stop_Model Stop_Spec Stop_Proofs Stop_Exchange File_Model File_Spec File_Proofs File_Updates
  Server_Model Fetch_Model Fetch_Spec Fetch_Proofs Fetch_Result.
Import ListNotations.
Open Scope Z_scope.
Ltac Zify.zify_post_hook ::= Z.div_mod_to_equations.

Section Exchange.
Variable E D H : list Z -> list Z -> list Z.
Hypothesis BC : block_cipher E D.
Hypothesis HL : digest20 H.

(** what is sent from [c] to [c'] is read by [rd] *)
Definition stream (c c' : ctl) (rd : ctl -> ctl -> Prop) : Prop :=
  exists o, sent c c' o /\ same c c' /\ wf c' /\
    forall s rest, wf s -> quiet s -> linked c s -> inp s = o ++ rest -> exists s', rd s s' /\ agree c' s' rest /\ same s s'.

Lemma stream_nil : forall c, wf c -> stream c c (fun s s' => s = s').
Proof using.
  intros c W. exists []. split; [unfold sent; now rewrite app_nil_r|]. split; [apply same_refl|]. split; [exact W|].
  intros s rest Ws Q L I. exists s. split; [reflexivity|]. split; [unfold agree; cbn [app] in I; tauto|apply same_refl].
Qed.
Lemma stream_app : forall c c1 c2 r1 r2, stream c c1 r1 -> stream c1 c2 r2 -> stream c c2 (fun s s' => exists s1, r1 s s1 /\ r2 s1 s').
Proof using.
  intros c c1 c2 r1 r2 (o1 & S1 & M1 & W1 & K1) (o2 & S2 & M2 & W2 & K2). exists (o1 ++ o2).
  split; [unfold sent in *; rewrite S2, S1, app_assoc; reflexivity|]. split; [eapply same_trans; eauto|]. split; [exact W2|].
  intros s rest Ws Q L I. rewrite <- app_assoc in I.
  destruct (K1 s _ Ws Q L I) as (s1 & R1 & (A1 & A2 & A3 & A4 & A5) & N1).
  destruct (K2 s1 rest A4 A5 A1 A2) as (s2 & R2 & A6 & N2). exists s2. split; [eauto|]. split; [exact A6|eapply same_trans; eauto].
Qed.
Lemma stream_weak : forall c c' (r1 r2 : ctl -> ctl -> Prop), (forall s s', r1 s s' -> r2 s s') -> stream c c' r1 -> stream c c' r2.
Proof using.
  intros c c' r1 r2 X (o & A & B & C & K). exists o. split; [exact A|]. split; [exact B|]. split; [exact C|].
  intros s rest Ws Q L I. destruct (K s rest Ws Q L I) as (s' & R & Y). exists s'. split; [now apply X|exact Y].
Qed.

Lemma send_outs_app : forall l1 l2 c, send_outs E H c (l1 ++ l2) = match send_outs E H c l1 with (true, c1) => send_outs E H c1 l2 | r => r end.
Proof using.
  induction l1 as [|o l1 IH]; intros l2 c; cbn [app send_outs]; [reflexivity|].
  destruct o; [destruct (send_blocks _ _ _ _) as [[| |] ?]|destruct (send_blocks _ _ _ _) as [[| |] ?]|]; cbn; auto.
Qed.

Lemma send_outs_quiet : forall l c, quiet c -> ~ In Broken l -> exists c', send_outs E H c l = (true, c') /\ wpres c c'.
Proof using.
  induction l as [|o l IH]; intros c Q NB; cbn [send_outs]; [exists c; split; [reflexivity|apply wpres_refl]|].
  assert (NB': ~ In Broken l) by (intros I; apply NB; now right).
  destruct o as [bs| |].
  - set (c0 := shm_add _ 0 _). assert (P0: wpres c c0) by (eapply wpres_trans; [apply msg_pres|apply shm_add_pres]).
    destruct (send_quiet E c0 0 (length bs / 16) (quiet_wpres _ _ P0 Q)) as (c1 & S1 & P1). rewrite S1.
    pose proof (wpres_trans _ _ _ P0 P1) as P2. destruct (IH c1 (quiet_wpres _ _ P2 Q) NB') as (c' & S2 & P3). exists c'. split; [exact S2|eapply wpres_trans; eauto].
  - pose proof (digest_pres H c 0) as P0. destruct (send_quiet E _ 0 1 (quiet_wpres _ _ P0 Q)) as (c1 & S1 & P1). rewrite S1.
    pose proof (wpres_trans _ _ _ P0 P1) as P2. destruct (IH c1 (quiet_wpres _ _ P2 Q) NB') as (c' & S2 & P3). exists c'. split; [exact S2|eapply wpres_trans; eauto].
  - exfalso. apply NB. now left.
Qed.

(** one chunk *)
Lemma agree_msg : forall c s rest m, agree c s rest -> length m = 400%nat -> agree c (set_msg s m) rest.
Proof using. intros c s rest m (A & B & C & (D1 & D2 & D3) & F) L. unfold agree, linked, wf, quiet in *. cproj. tauto. Qed.

Lemma chunk_step : forall c b nb c1, wf c -> length b = (16 * nb)%nat -> (16 * nb <= 400)%nat ->
  send_blocks E (shm_add (set_msg c (put 0 b (msg c))) 0 nb) 0 nb = (IODone, c1) ->
  stream c c1 (fun s s1 => take_blocks D s nb = (Some b, s1)).
Proof using BC.
  intros c b nb c1 (W1 & W2 & W3) Hb NB HS.
  set (c0 := shm_add (set_msg c (put 0 b (msg c))) 0 nb) in *.
  assert (LM: length (put 0 b (msg c)) = 400%nat) by (rewrite put_length; lia).
  assert (SB: sub 0 (16 * nb) (put 0 b (msg c)) = b) by (rewrite <- Hb; apply sub_put_same; lia).
  assert (C0: msg c0 = put 0 b (msg c) /\ shm c0 = (if ciphers c then shm c ++ b else shm c) /\ ciphers c0 = ciphers c /\
    key c0 = key c /\ wiv c0 = wiv c /\ riv c0 = riv c /\ outp c0 = outp c /\ same c c0).
  { unfold c0, shm_add, same. change (ciphers (set_msg c (put 0 b (msg c)))) with (ciphers c). destruct (ciphers c) eqn:C.
    - change (ciphers (set_shm ?x ?y)) with (ciphers c). cproj. rewrite SB. tauto.
    - cproj. tauto. }
  destruct C0 as (C1 & C2 & C3 & C4 & C5 & C6 & C7 & C8). clearbody c0.
  apply send_ok in HS; [|rewrite C1; lia].
  unfold after_send in HS. rewrite C1, C3, C4, C5, C7 in HS. rewrite SB in HS.
  destruct (wire_len E D BC (ciphers c) nb (key c) (wiv c) b Hb W3) as [L1 L2].
  exists (fst (wire E (ciphers c) (key c) (wiv c) b)). subst c1.
  split; [reflexivity|]. split; [exact C8|]. split.
  { unfold wf. cproj. rewrite put_length by lia. rewrite C6. auto. }
  intros s rest Ws Q (K1 & K2 & K3 & K4 & K5 & K6) Hi.
  assert (C: ciphers s = ciphers c) by (unfold ciphers; congruence).
  destruct (recv0 E D BC s nb b rest Ws Q Hb ltac:(lia)) as (s1 & R1 & G & R2). { rewrite Hi, C, K3, K5. reflexivity. }
  pose proof (wf_got E D BC _ _ _ _ nb Ws G Hb) as Ws1.
  destruct G as (G1 & G2 & G3 & G4 & G5 & G6 & G7 & G8 & G9).
  assert (Cs1: ciphers s1 = ciphers c) by (rewrite <- C; now apply ciphers_same).
  unfold take_blocks. rewrite R1. rewrite Hb in G9. rewrite G9. eexists. split; [reflexivity|].
  destruct C8 as (C81 & C82 & C83 & C84 & C85 & C86 & C87), G1 as (G11 & G12 & G13 & G14 & G15 & G16 & G17).
  destruct Ws as (Wsm & _ & _).
  unfold rhm_add. rewrite Cs1. unfold agree, linked, wf, quiet, same in *. rewrite G9.
  rewrite G3, C, K3, K5 in *.
  destruct (ciphers c); cproj; repeat match goal with |- _ /\ _ => split end; try tauto; try congruence; try reflexivity; try exact (proj1 Ws1); rewrite ?put_length by lia; auto; try lia.
  all: rewrite ?C6; auto.
Qed.

Lemma code_step : forall c c1, wf c -> send_blocks E (shm_digest H c 0) 0 1 = (IODone, c1) -> stream c c1 (fun s s1 => take_code D H s = (true, s1)).
Proof using BC HL.
  intros c c1 W S. destruct (tag_step E D H BC HL c c1 W S) as (o & A & B & C & K). exists o. split; [exact A|]. split; [exact B|]. split; [exact C|].
  intros s rest Ws Q L I. destruct (K s rest Ws Q L I) as (s1 & s2 & R1 & R2 & AG & SM). exists (set_msg s2 (msg s)).
  unfold take_code. rewrite R1, R2. split; [reflexivity|]. split; [apply agree_msg; [exact AG|apply Ws]|]. unfold same in *. cproj. tauto.
Qed.

Lemma groups_stream : forall nb bl c c1, wf c -> (1 <= nb)%nat -> (16 * nb <= 400)%nat -> Forall (fun b => length b = (16 * nb)%nat) bl ->
  send_outs E H c (map Chunk bl) = (true, c1) -> stream c c1 (fun s s1 => take_groups D s (length bl) nb = (Some (concat bl), s1)).
Proof using BC.
  intros nb bl c c1 W N1 NB F. revert c W. induction F as [|b bl X F IH]; intros c W S; cbn [map send_outs] in S.
  - assert (c = c1) by congruence. subst c1. eapply stream_weak; [|apply stream_nil, W]. intros s s' ->. reflexivity.
  - rewrite X in S. replace (16 * nb / 16)%nat with nb in S by lia.
    destruct (send_blocks E _ 0 nb) as [[| |] c2] eqn:S1; try discriminate.
    pose proof (chunk_step c b nb c2 W X NB S1) as T1. assert (W2: wf c2) by (destruct T1 as (o & _ & _ & Y & _); exact Y).
    pose proof (IH c2 W2 S) as T2. eapply stream_weak; [|exact (stream_app _ _ _ _ _ T1 T2)].
    intros s s' (s1 & R1 & R2). cbn [length take_groups concat]. rewrite R1, R2. reflexivity.
Qed.

Lemma slot_blocks_stream : forall sl bl c c1, wf c -> Forall2 slot_octets sl bl ->
  send_outs E H c (map Chunk bl) = (true, c1) -> stream c c1 (fun s s1 => read_slots_loop D s (length sl) true = (Some sl, s1)).
Proof using BC.
  intros sl bl c c1 W F. revert c W. induction F as [|x b sl bl (X1 & X2) F IH]; intros c W S; cbn [map send_outs] in S.
  - assert (c = c1) by congruence. subst c1. eapply stream_weak; [|apply stream_nil, W]. intros s s' ->. reflexivity.
  - rewrite X1 in S. change (16 / 16)%nat with 1%nat in S.
    destruct (send_blocks E _ 0 1) as [[| |] c2] eqn:S1; try discriminate.
    assert (T1: stream c c2 (fun s s1 => exists s0, recv_blocks D s 0 1 = (IODone, s0) /\ s1 = rhm_add s0 0 1 /\ sub 0 16 (msg s1) = b)).
    { destruct (slot_step E D BC c b c2 W X1 S1) as (o & A & B & C & K). exists o. split; [exact A|]. split; [exact B|]. split; [exact C|].
      intros s rest Ws Q L I. destruct (K s rest Ws Q L I) as (s1 & R1 & R2 & AG & SM). exists (rhm_add s1 0 1). eauto 6. }
    assert (W2: wf c2) by (destruct T1 as (o & _ & _ & Y & _); exact Y).
    pose proof (IH c2 W2 S) as T2. eapply stream_weak; [|exact (stream_app _ _ _ _ _ T1 T2)].
    intros s s' (s1 & (s0 & R0 & -> & R1) & R2). cbn [length read_slots_loop]. rewrite R0, R1, X2, R2. reflexivity.
Qed.

(** skip and data records *)
Lemma last_stream : forall nb b c c1, wf c -> (1 <= nb)%nat -> (16 * nb <= 400)%nat -> length b = (16 * nb)%nat ->
  send_outs E H c [Chunk b] = (true, c1) -> stream c c1 (fun s s1 => take_blocks D s nb = (Some b, s1)).
Proof using BC.
  intros nb b c c1 W N1 NB L S. cbn [send_outs] in S. rewrite L in S. replace (16 * nb / 16)%nat with nb in S by lia.
  destruct (send_blocks E _ 0 nb) as [[| |] c2] eqn:S1; try discriminate. assert (c2 = c1) by congruence. subst c2. now apply chunk_step.
Qed.

Lemma skips_stream : forall (n : nat) whole last rest c c1, wf c -> (1 <= n)%nat -> Z.of_nat n < 2^29 ->
  length whole = ((n - 1) / 2)%nat -> Forall (fun b => length b = 16%nat) whole -> length last = (8 * (n - 2 * ((n - 1) / 2)))%nat ->
  rest = zeros (16 - 8 * (n - 2 * ((n - 1) / 2))) ->
  send_outs E H c (map Chunk (whole ++ [last ++ rest])) = (true, c1) ->
  stream c c1 (fun s s1 => take_skips D s (Z.of_nat n) = (Some (concat whole ++ last), s1)).
Proof using BC.
  intros n whole last rest c c1 W N1 N2 LW F LL ER S. rewrite map_app, send_outs_app in S.
  destruct (send_outs E H c (map Chunk whole)) as [[|] c2] eqn:S1; [|discriminate].
  pose proof (groups_stream 1 whole c c2 W ltac:(lia) ltac:(lia) F S1) as T1. assert (W2: wf c2) by (destruct T1 as (o & _ & _ & Y & _); exact Y).
  assert (LB: length (last ++ rest) = (16 * 1)%nat) by (subst rest; rewrite app_length, zeros_length; lia).
  pose proof (last_stream 1 (last ++ rest) c2 c1 W2 ltac:(lia) ltac:(lia) LB S) as T2.
  eapply stream_weak; [|exact (stream_app _ _ _ _ _ T1 T2)]. intros s s' (s1 & R1 & R2).
  unfold take_skips, u32. rewrite Z.mod_small by (change M32 with (2^32); lia).
  assert (WB: whole_blocks (Z.of_nat n * 8) = Z.of_nat (length whole)).
  { unfold whole_blocks. destruct (Z.ltb_spec 16 (Z.of_nat n * 8)); lia. }
  rewrite WB, Nat2Z.id, R1. destruct (Z.eqb_spec (Z.of_nat n * 8 - 16 * Z.of_nat (length whole)) 0) as [X|X]; [lia|].
  rewrite R2. f_equal. f_equal. f_equal. replace (Z.to_nat (Z.of_nat n * 8 - 16 * Z.of_nat (length whole))) with (length last) by lia.
  rewrite firstn_app, firstn_all, Nat.sub_diag. change (firstn 0 rest) with (@nil Z). apply app_nil_r.
Qed.

Lemma full_len : forall rc, Forall (fun o => length o = 25%nat) rc -> Forall (fun b => length b = (16 * 25)%nat) (full (length rc / 16) rc).
Proof using.
  intros rc F. unfold full. apply Forall_forall. intros x I. apply in_map_iff in I. destruct I as (i & <- & I). apply in_seq in I.
  rewrite (concat_len 25); [|apply Forall_firstn, Forall_skipn, F]. rewrite firstn_length, skipn_length. lia.
Qed.

Lemma full_concat : forall k (rc : list (list Z)), (16 * k <= length rc)%nat -> concat (full k rc) ++ concat (skipn (16 * k) rc) = concat rc.
Proof using.
  induction k as [|k IH]; intros rc L; [reflexivity|]. rewrite full_S, concat_app. cbn [concat]. rewrite app_nil_r, <- app_assoc, <- concat_app.
  replace (skipn (16 * S k) rc) with (skipn 16 (skipn (16 * k) rc)).
  - rewrite firstn_skipn. apply IH. lia.
  - rewrite skipn_skipn. f_equal. lia.
Qed.

Lemma full_length : forall k rc, length (full k rc) = k.
Proof using. intros. unfold full. now rewrite map_length, seq_length. Qed.

Lemma records_stream : forall rc c c1, wf c -> Forall (fun o => length o = 25%nat) rc ->
  send_outs E H c (map Chunk (full (length rc / 16) rc ++ left_over rc)) = (true, c1) ->
  stream c c1 (fun s s1 => take_records D s (Z.of_nat (length rc)) = (Some (concat rc), s1)).
Proof using BC.
  intros rc c c1 W F S. rewrite map_app, send_outs_app in S.
  destruct (send_outs E H c (map Chunk (full _ rc))) as [[|] c2] eqn:S1; [|discriminate].
  pose proof (groups_stream 25 _ c c2 W ltac:(lia) ltac:(lia) (full_len rc F) S1) as T1. assert (W2: wf c2) by (destruct T1 as (o & _ & _ & Y & _); exact Y).
  rewrite full_length in T1. unfold left_over in S.
  pose proof (full_concat (length rc / 16) rc ltac:(lia)) as FC.
  assert (LS: length (concat (skipn (16 * (length rc / 16)) rc)) = (25 * (length rc mod 16))%nat).
  { rewrite (concat_len 25) by (apply Forall_skipn, F). rewrite skipn_length. lia. }
  unfold take_records. replace (Z.to_nat (Z.of_nat (length rc) / 16)) with (length rc / 16)%nat by lia.
  destruct (Nat.eqb_spec (length rc mod 16) 0) as [M|M].
  - assert (c2 = c1) by (cbn in S; congruence). subst c2. eapply stream_weak; [|exact T1]. cbn beta. intros s s' R. rewrite R.
    destruct (Z.eqb_spec (Z.of_nat (length rc) mod 16) 0) as [Y|Y]; [|lia]. f_equal. f_equal. rewrite <- FC.
    assert (Z0: concat (skipn (16 * (length rc / 16)) rc) = []) by (apply length_zero_iff_nil; lia). rewrite Z0. symmetry. apply app_nil_r.
  - set (nb := (25 * (length rc mod 16) / 16 + 1)%nat) in *. cbn [map] in S.
    assert (NB: (1 <= nb <= 25)%nat) by (unfold nb; lia).
    assert (NB2: (25 * (length rc mod 16) <= 16 * nb)%nat) by (unfold nb; lia).
    set (lst := concat (skipn (16 * (length rc / 16)) rc) ++ zeros (16 * nb - 25 * (length rc mod 16))) in *.
    assert (LB: length lst = (16 * nb)%nat) by (unfold lst; rewrite app_length, zeros_length, LS; lia).
    pose proof (last_stream nb lst c2 c1 W2 ltac:(lia) ltac:(lia) LB S) as T2.
    eapply stream_weak; [|exact (stream_app _ _ _ _ _ T1 T2)]. cbn beta. intros s s' (s1 & R1 & R2). rewrite R1.
    destruct (Z.eqb_spec (Z.of_nat (length rc) mod 16) 0) as [Y|Y]; [lia|].
    replace (Z.to_nat (Z.of_nat (length rc) mod 16 * 25 / 16 + 1)) with nb by (unfold nb; lia). rewrite R2. f_equal. f_equal. rewrite <- FC. f_equal.
    unfold lst. replace (25 * Z.to_nat (Z.of_nat (length rc) mod 16))%nat with (length (concat (skipn (16 * (length rc / 16)) rc))) by (rewrite LS; lia).
    rewrite firstn_app, firstn_all, Nat.sub_diag. change (firstn 0 (zeros (16 * nb - 25 * (length rc mod 16)))) with (@nil Z). apply app_nil_r.
Qed.

(** reading leaves the writing side alone *)
Lemma take_blocks_rpres : forall s n r s1, take_blocks D s n = (r, s1) -> rpres s s1.
Proof using.
  intros s n r s1 T. unfold take_blocks in T. destruct (recv_blocks D s 0 n) as [q c] eqn:R. apply recv_rpres in R.
  assert (G: forall c0 m, rpres s c0 -> rpres s (set_msg c0 m)) by (intros c0 m X; exact X).
  apply (f_equal snd) in T. destruct q; cbn [snd] in T; rewrite <- T; apply G; auto. eapply rpres_trans; [exact R|apply rhm_rpres].
Qed.
Lemma take_code_rpres : forall s b s1, take_code D H s = (b, s1) -> rpres s s1.
Proof using.
  intros s b s1 T. unfold take_code in T. destruct (recv_blocks D s 0 1) as [q c] eqn:R. apply recv_rpres in R.
  assert (G: forall c0 m, rpres s c0 -> rpres s (set_msg c0 m)) by (intros c0 m X; exact X).
  destruct q; try (apply (f_equal snd) in T; cbn [snd] in T; rewrite <- T; apply G; exact R).
  destruct (rhm_check H c 0) as [ok c2] eqn:R2. apply check_rpres in R2.
  apply (f_equal snd) in T; cbn [snd] in T; rewrite <- T; apply G. eapply rpres_trans; eauto.
Qed.
Lemma take_groups_rpres : forall n k s r s1, take_groups D s k n = (r, s1) -> rpres s s1.
Proof using.
  intros n k. induction k as [|k IH]; intros s r s1 T; cbn [take_groups] in T; [apply (f_equal snd) in T; cbn [snd] in T; rewrite <- T; apply rpres_refl|].
  destruct (take_blocks D s n) as [[a|] c] eqn:R; apply take_blocks_rpres in R.
  - destruct (take_groups D c k n) as [[l|] c2] eqn:R2; apply IH in R2; apply (f_equal snd) in T; cbn [snd] in T; rewrite <- T; eapply rpres_trans; eauto.
  - apply (f_equal snd) in T; cbn [snd] in T; rewrite <- T; exact R.
Qed.
Lemma take_skips_rpres : forall n s r s1, take_skips D s n = (r, s1) -> rpres s s1.
Proof using.
  intros n s r s1 T. unfold take_skips in T. destruct (take_groups D s _ 1) as [[a|] c] eqn:R; apply take_groups_rpres in R;
    [|apply (f_equal snd) in T; cbn [snd] in T; rewrite <- T; exact R].
  destruct (_ =? 0) in T; [apply (f_equal snd) in T; cbn [snd] in T; rewrite <- T; exact R|].
  destruct (take_blocks D c 1) as [[l|] c2] eqn:R2; apply take_blocks_rpres in R2; apply (f_equal snd) in T; cbn [snd] in T; rewrite <- T; eapply rpres_trans; eauto.
Qed.
Lemma take_records_rpres : forall n s r s1, take_records D s n = (r, s1) -> rpres s s1.
Proof using.
  intros n s r s1 T. unfold take_records in T. destruct (take_groups D s _ 25) as [[a|] c] eqn:R; apply take_groups_rpres in R;
    [|apply (f_equal snd) in T; cbn [snd] in T; rewrite <- T; exact R].
  destruct (_ =? 0) in T; [apply (f_equal snd) in T; cbn [snd] in T; rewrite <- T; exact R|].
  destruct (take_blocks D c _) as [[l|] c2] eqn:R2; apply take_blocks_rpres in R2; apply (f_equal snd) in T; cbn [snd] in T; rewrite <- T; eapply rpres_trans; eauto.
Qed.
Lemma slots_rpres : forall n s r s1, read_slots_loop D s n true = (r, s1) -> rpres s s1.
Proof using.
  induction n as [|n IH]; intros s r s1 T; cbn [read_slots_loop] in T; [apply (f_equal snd) in T; cbn [snd] in T; rewrite <- T; apply rpres_refl|].
  destruct (recv_blocks D s 0 1) as [q c] eqn:R. apply recv_rpres in R.
  assert (G: forall c0, rpres s c0 -> rpres s (invalid c0)) by (intros c0 X; eapply rpres_trans; [exact X|apply st_rpres]).
  destruct q; try (apply (f_equal snd) in T; cbn [snd] in T; rewrite <- T; apply G; exact R).
  pose proof (rpres_trans _ _ _ R (rhm_rpres c 0 1)) as R1.
  destruct (decode_slot _); [|apply (f_equal snd) in T; cbn [snd] in T; rewrite <- T; apply G; exact R1].
  destruct (read_slots_loop D _ n true) as [[l|] c2] eqn:R2; apply IH in R2; apply (f_equal snd) in T; cbn [snd] in T; rewrite <- T; eapply rpres_trans; eauto.
Qed.

(** the request, read by the client *)
Lemma request_read : forall s0 pre c1 s p sl bl c2 c3 o rest,
  wf s0 -> (112 <= length pre)%nat -> (length pre <= 400)%nat ->
  send_blocks E (shm_digest H (shm_add (set_msg s0 (put 0 pre (msg s0))) 0 6) 96) 0 7 = (IODone, c1) ->
  send_outs E H c1 (map Chunk bl) = (true, c2) -> send_blocks E (shm_digest H c2 0) 0 1 = (IODone, c3) ->
  decode_preamble false (sub 0 112 pre) 112 false 28 = PreOK p -> Forall2 slot_octets sl bl -> p_nslots p = Z.of_nat (length sl) ->
  wf s -> quiet s -> linked s0 s -> twoway s = false -> st s = StTestRequest ->
  (link_local (p_sender p) = true -> link_local (remote s) = true) -> (link_local (p_receiver p) = true -> link_local (remote s) = true) ->
  sent s0 c3 o -> inp s = o ++ rest ->
  exists s', read_test_request D H s false true true = (ErrOK, Some (mkReq (p_sender p) (p_receiver p) (p_conf_sender p) (p_conf_receiver p) (p_sid p)
      (mkTSpec (p_start p) (p_timeout p) (p_typeP p) (p_padding p) (p_npackets p) (p_nslots p) (Some sl))), CNTRL_ACCEPT, s') /\
    agree c3 s' rest /\ st s' = StFetching /\ rpres s s' /\ same s0 c3 /\ wf c3 /\ twoway s' = false.
Proof using BC HL.
  intros s0 pre c1 s p sl bl c2 c3 o rest W0 LP LP2 SB SO SC DP F2 NS Ws Q L Tw Hst Ls Lr So Hi.
  set (m := put 0 pre (msg s0)) in *. assert (Wm := W0). destruct Wm as (Wm & _ & Ww).
  assert (M0: length m = 400%nat) by (unfold m; rewrite put_length; lia).
  assert (MP: forall o0 l, (o0 + l <= 112)%nat -> sub o0 l m = sub o0 l pre).
  { intros o0 l Hl. unfold m. apply sub_put_prefix. lia. }
  destruct (emit E D H BC HL s0 m 6 c1 M0 ltac:(lia) Ww SB) as [W1 _].
  set (o1 := fst (wire E (ciphers s0) (key s0) (wiv s0) (sub 0 (16 * 6) m ++ tag H (ciphers s0) (hkey s0) (shm s0) (sub 0 (16 * 6) m)))) in *.
  assert (S1: sent s0 c1 o1) by apply W1.
  assert (Wc1: wf c1) by (eapply (wf_wrote E D BC); [exact W0|exact W1|rewrite app_length, (tag_len H HL), sub_length by lia; instantiate (1 := 7%nat); lia]).
  destruct (slot_blocks_stream sl bl c1 c2 Wc1 F2 SO) as (o2 & S2 & Sm2 & Wc2 & K2).
  destruct (tag_step E D H BC HL c2 c3 Wc2 SC) as (o3 & S3 & Sm3 & Wc3 & K3).
  assert (Oo: o = o1 ++ o2 ++ o3).
  { unfold sent in *. rewrite S3, S2, S1 in So. rewrite <- !app_assoc in So. apply app_inv_head in So. auto. }
  rewrite Oo, <- !app_assoc in Hi.
  destruct (exchange_request E D H BC HL s0 m 6 c1 s o1 _ W0 Ws Q L M0 ltac:(lia) ltac:(lia) SB S1 Hi) as (s1 & R1 & B1 & Sm1 & K).
  destruct (K (st s1)) as (s2 & s3 & R2 & R3 & Dl & Sm). clear K.
  rewrite <- st_eta in R2.
  pose proof Dl as (Dlk & Dinp & _ & Dwf & Dq & (Dmode & Dtw & Dkey & Dhk & Drem & Dloc & Dst) & _ & _ & _ & F).
  cbn [set_st mode twoway key hkey remote local st] in *.
  assert (Ss: st s1 = StTestRequest) by (rewrite <- Hst; apply Sm1).
  unfold read_test_request. rewrite Tw.
  assert (I: is_st StTestRequest s = true) by (unfold is_st; rewrite Hst; reflexivity). rewrite I. cbn [negb]. rewrite R1, R2.
  change 96%nat with (16 * 6)%nat at 1. rewrite R3. cbn [negb]. rewrite Dtw, Tw.
  rewrite (decode_preamble_ext false (sub 0 112 (msg s3)) (sub 0 112 pre) 112 false 128 28); try lia.
  2:{ intros o0 l Hl. rewrite !sub_sub by lia. cbn [plus]. rewrite F by lia. apply MP. lia. }
  rewrite DP.
  assert (LLs: forall a, (link_local a = true -> link_local (remote s) = true) -> ll_scope_ok (remote s3) a = true).
  { intros a Ha. unfold ll_scope_ok. rewrite Drem. destruct (link_local a); [rewrite Ha by auto|]; reflexivity. }
  rewrite (LLs _ Ls), (LLs _ Lr). cbn [negb orb].
  set (s4 := or_st (clr_st s3 StTestRequest) StTestRequestSlots).
  assert (St4: st s4 = StTestRequestSlots).
  { unfold s4, or_st, clr_st. cproj. rewrite Dst, Ss. reflexivity. }
  change (twoway s4) with (twoway s3). rewrite Dtw, Tw.
  unfold read_slots. assert (I4: is_st StTestRequestSlots s4 = true) by (unfold is_st; rewrite St4; reflexivity).
  rewrite I4. cbn [negb]. rewrite NS, slots_count.
  destruct (K2 s4 (o3 ++ rest)) as (s5 & R5 & (A51 & A52 & A53 & A54 & A55) & Sm5); auto.
  rewrite R5.
  destruct (K3 s5 rest A54 A55 A51 A52) as (s6 & s7 & R6 & R7 & A7 & Sm7).
  rewrite R6, R7. eexists. split; [reflexivity|]. split; [exact A7|].
  assert (St7: st s7 = StTestRequestSlots).
  { destruct Sm7 as (_ & _ & _ & _ & _ & _ & ->). destruct Sm5 as (_ & _ & _ & _ & _ & _ & ->). auto. }
  split; [unfold or_st, clr_st; cproj; rewrite St7; reflexivity|].
  split.
  { apply recv_rpres in R1. apply recv_rpres in R2. apply check_rpres in R3. apply slots_rpres in R5. apply recv_rpres in R6. apply check_rpres in R7.
    eapply rpres_trans; [exact R1|]. eapply rpres_trans; [exact R2|]. eapply rpres_trans; [apply rhm_rpres|]. eapply rpres_trans; [exact R3|].
    eapply rpres_trans; [|eapply rpres_trans; [exact R5|eapply rpres_trans; [exact R6|eapply rpres_trans; [exact R7|]]]].
    - unfold s4, or_st, clr_st. eapply rpres_trans; apply st_rpres.
    - unfold or_st, clr_st. eapply rpres_trans; apply st_rpres. }
  split; [|split; [exact Wc3|]].
  - eapply same_trans; [exact Sm|]. eapply same_trans; [exact Sm2|exact Sm3].
  - unfold or_st, clr_st. cproj. destruct Sm7 as (_ & -> & _). destruct Sm5 as (_ & -> & _). unfold s4, or_st, clr_st. cproj. now rewrite Dtw.
Qed.

Lemma fetch_read_rpres : forall s r s1, read_fetch D H s = (r, s1) -> rpres s s1.
Proof using.
  intros s r s1 T. unfold read_fetch in T. destruct (negb _); [apply (f_equal snd) in T; cbn [snd] in T; rewrite <- T; apply rpres_refl|].
  destruct (twoway s); [apply (f_equal snd) in T; cbn [snd] in T; rewrite <- T; apply rpres_refl|].
  destruct (recv_blocks D s 16 2) as [q c] eqn:R. apply recv_rpres in R.
  assert (G: forall c0 x, rpres s c0 -> rpres s (set_st c0 x)) by (intros c0 x X; eapply rpres_trans; [exact X|apply st_rpres]).
  destruct q; [| |destruct intr]; try (apply (f_equal snd) in T; cbn [snd] in T; rewrite <- T; first [exact R|apply G; exact R]).
  destruct (rhm_check H _ 32) as [ok c2] eqn:R2. apply check_rpres in R2. assert (R3: rpres s c2) by (eapply rpres_trans; [exact R|eapply rpres_trans; [apply rhm_rpres|exact R2]]).
  destruct (negb ok); [|destruct (negb _)]; apply (f_equal snd) in T; cbn [snd] in T; rewrite <- T; try (apply G; exact R3).
Qed.
Lemma ack_read_rpres : forall s r s1, read_fetch_ack D H s = (r, s1) -> rpres s s1.
Proof using.
  intros s r s1 T. unfold read_fetch_ack in T. destruct (negb _); [apply (f_equal snd) in T; cbn [snd] in T; rewrite <- T; apply rpres_refl|].
  destruct (recv_blocks D s 0 2) as [q c] eqn:R. apply recv_rpres in R.
  assert (G: forall c0 x, rpres s c0 -> rpres s (set_st c0 x)) by (intros c0 x X; eapply rpres_trans; [exact X|apply st_rpres]).
  destruct q; try (apply (f_equal snd) in T; cbn [snd] in T; rewrite <- T; first [exact R|apply G; exact R]).
  destruct (rhm_check H _ 16) as [ok c2] eqn:R2. apply check_rpres in R2. assert (R3: rpres s c2) by (eapply rpres_trans; [exact R|eapply rpres_trans; [apply rhm_rpres|exact R2]]).
  destruct (negb ok); [|destruct (_ =? CNTRL_INVALID)]; apply (f_equal snd) in T; cbn [snd] in T; rewrite <- T; try (apply G; exact R3).
  unfold or_st, clr_st. destruct (_ =? CNTRL_ACCEPT); apply G, G, G, R3.
Qed.

(** writing the request and the acknowledgement succeeds while the connection works *)
Lemma write_fetch_quiet : forall c b e sid, quiet c -> st c = StRequest -> twoway c = false ->
  exists c', write_fetch E H c b e sid = (ErrOK, c') /\ wpres c c' /\ st c' = Z.ldiff (Z.lor StRequest (Z.lor StFetchAck StFetchSession)) StRequest /\ same c (set_st c' (st c)).
Proof using.
  intros c b e sid Q S Tw. unfold write_fetch. replace (negb (is_st StRequest c) || is_st StTest c) with false by (unfold is_st; rewrite S; reflexivity). rewrite Tw.
  set (m := put 16 _ _). set (c0 := shm_digest H (shm_add (set_msg c m) 0 2) 32).
  assert (P0: wpres c c0) by (eapply wpres_trans; [eapply wpres_trans; [apply msg_pres|apply shm_add_pres]|apply digest_pres]).
  assert (S0: same c c0). { unfold c0, shm_digest, shm_add, same. destruct (ciphers (set_msg c m)); match goal with |- context [if ?x then _ else _] => destruct x end; cproj; tauto. }
  destruct (send_quiet E c0 0 3 (quiet_wpres _ _ P0 Q)) as (c1 & S1 & P1). rewrite S1.
  assert (SM: same c0 c1).
  { unfold send_blocks in S1. destruct (ciphers c0); [destruct (cbc_enc _ _ _ _ _) as [x y]|]; unfold write_raw in S1;
      repeat match type of S1 with context [match ?x with _ => _ end] => destruct x; try discriminate end;
      apply (f_equal snd) in S1; cbn [snd] in S1; rewrite <- S1; unfold same; cproj; tauto. }
  pose proof (same_trans _ _ _ S0 SM) as S2. eexists. split; [reflexivity|].
  split; [eapply wpres_trans; [exact P0|]; exact P1|]. split.
  - unfold clr_st, or_st. cproj. destruct S2 as (_ & _ & _ & _ & _ & _ & ->). now rewrite S.
  - unfold same, clr_st, or_st in *. cproj. tauto.
Qed.

Lemma write_ack_quiet : forall c a fin next n m, quiet c -> is_st StFetchAck c = true ->
  exists c', write_fetch_ack E H c a fin next n m = (ErrOK, c') /\ wpres c c'.
Proof using.
  intros c a fin next n m Q I. unfold write_fetch_ack. rewrite I. cbn [negb]. set (mm := put 12 _ _). set (c0 := shm_digest H (shm_add (set_msg c mm) 0 1) 16).
  assert (P0: wpres c c0) by (eapply wpres_trans; [eapply wpres_trans; [apply msg_pres|apply shm_add_pres]|apply digest_pres]).
  destruct (send_quiet E c0 0 2 (quiet_wpres _ _ P0 Q)) as (c1 & S1 & P1). rewrite S1. pose proof (wpres_trans _ _ _ P0 P1) as P2.
  eexists. split; [reflexivity|]. destruct (a =? CNTRL_ACCEPT); exact P2.
Qed.

End Exchange.
