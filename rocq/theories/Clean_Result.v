(** The result of the clean-up. *)
From Coq Require Import ZArith List Bool Lia ZifyBool ZifyNat.
From Verif Require Import Base BaseLemmas Arith_Model Arith_Proofs Time_Model Sched_Model Wire_Model Wire_Spec Wire_Proofs File_Model File_Spec File_Proofs File_Updates
  Double Double_Proofs Clean_Model Clean_Spec Clean_Proofs Clean_Search.
Import ListNotations.
Open Scope Z_scope.

Lemma settled_time : forall timeout r, 0 <= settled timeout r < 2^64 -> rec_time timeout r = settled timeout r.
Proof.
  intros timeout r H. unfold rec_time, settled, lostb, is_lost in *. destruct (owptime (r_recv r) =? 0); [|reflexivity].
  unfold OWPNum64Add, u64. rewrite Z.mod_small; [reflexivity|]. exact H.
Qed.

Lemma write_count : forall f header items n, recorded f header items -> 0 <= n < 2^32 ->
  exists header', write_ndata n f = Some (header' ++ concat (map fst items)) /\
    length header' = length header /\ field header' 20 4 = n /\
    forall i, (i < 20 \/ 24 <= i)%nat -> nth_error header' i = nth_error header i.
Proof.
  intros f header items n R N. destruct (rec_initial R) as (h & I & V & _ & O & K & _).
  pose proof (rec_len_f R) as L. destruct R as (F & _ & _ & _ & _ & LH & _ & _ & _).
  exists (put 20 (be_enc 4 n) header).
  split; [|split; [|split]].
  - unfold write_ndata. rewrite I. destruct (Z.ltb_spec (ih_version h) 3); [lia|]. destruct (Z.ltb_spec (ih_odata h) (ih_oskip h)); [lia|].
    rewrite fwrite_in by (rewrite be_enc_length; lia). f_equal. rewrite F. unfold put. rewrite be_enc_length.
    rewrite firstn_app, skipn_app. replace (20 - length header)%nat with 0%nat by lia. replace (20 + 4 - length header)%nat with 0%nat by lia.
    change (firstn 0 (concat (map fst items))) with (@nil Z). change (skipn 0 (concat (map fst items))) with (concat (map fst items)).
    rewrite app_nil_r, <- !app_assoc. reflexivity.
  - apply put_length. rewrite be_enc_length. lia.
  - unfold field, octs_at. change (firstn 4 (skipn 20 (put 20 (be_enc 4 n) header))) with (sub 20 4 (put 20 (be_enc 4 n) header)).
    replace 4%nat with (length (be_enc 4 n)) at 1 by apply be_enc_length.
    rewrite sub_put_same by (rewrite ?be_enc_length; lia). rewrite number_be. now apply enc_dec32.
  - intros i X. rewrite nth_error_put by (rewrite be_enc_length; lia). rewrite be_enc_length.
    destruct ((20 <=? i)%nat && (i <? 20 + 4)%nat) eqn:B; [|reflexivity]. lia.
Qed.

Lemma recorded_prefix : forall f header items items', recorded f header items -> Forall item_ok items' -> (length items' <= length items)%nat ->
  recorded (header ++ concat (map fst items')) header items'.
Proof.
  intros f header items items' (F & A & B & C & D & E & G & I & J) I' L.
  split; [reflexivity|]. do 6 (split; [assumption|]). split; [assumption|lia].
Qed.

Lemma filter_len : forall {A} (p : A -> bool) l, (length (filter p l) <= length l)%nat.
Proof. induction l as [|a l IH]; [auto|]. cbn [filter]. destruct (p a); cbn [length]; lia. Qed.

Lemma Forall_filter' : forall {A} (P : A -> Prop) p l, Forall P l -> Forall P (filter p l).
Proof. induction 1; cbn [filter]; [constructor|]. destruct (p x); auto. Qed.
Lemma Forall_skipn' : forall {A} (P : A -> Prop) l n, Forall P l -> Forall P (skipn n l).
Proof. intros A P l n H. rewrite <- (firstn_skipn n l) in H. apply Forall_app in H. apply H. Qed.
Lemma Forall_firstn' : forall {A} (P : A -> Prop) l n, Forall P l -> Forall P (firstn n l).
Proof. intros A P l n H. rewrite <- (firstn_skipn n l) in H. apply Forall_app in H. apply H. Qed.

Lemma count_sub : forall n header header' o l, with_count n header header' -> (o + l <= 20 \/ 24 <= o)%nat -> sub o l header' = sub o l header.
Proof.
  intros n header header' o l (L & _ & E) O. apply nth_error_ext. intros i. destruct (Nat.lt_ge_cases i l) as [I|I].
  - rewrite !nth_error_sub by exact I. apply E. lia.
  - rewrite !nth_error_sub_out by exact I. reflexivity.
Qed.

Lemma recorded_count : forall f header items n header' items', recorded f header items -> with_count n header header' ->
  Forall item_ok items' -> (length items' <= length items)%nat -> recorded (header' ++ concat (map fst items')) header' items'.
Proof.
  intros f header items n header' items' (F & A & B & C & D & E & G & I & J) W I' L.
  assert (SE: forall o l, (o + l <= 20 \/ 24 <= o)%nat -> octs_at header' o l = octs_at header o l) by (intros; now apply (count_sub n)).
  destruct W as (WL & _). unfold recorded, field in *.
  split; [reflexivity|]. split; [now rewrite SE by lia|]. split; [now rewrite SE by lia|]. split; [now rewrite SE by lia|].
  split; [rewrite SE by lia; now rewrite WL|]. split; [lia|]. split; [lia|]. split; [assumption|lia].
Qed.

(** no record above [max]: nothing is dropped *)
Lemma drop_nothing : forall f header items h max n j num, recorded f header items -> ih_version h = 3 -> ih_recsize h = 25 ->
  (j + n = length items)%nat -> (forall x, In x (skipn j items) -> r_seq (snd x) <= max) ->
  drop_above h f max n (Z.of_nat j) (Z.of_nat (length header) + 25 * Z.of_nat j) num None = Some (num, None).
Proof.
  intros f header items h max n. induction n as [|n IH]; intros j num R V S J A; [reflexivity|]. cbn [drop_above].
  rewrite (read_at R h j V S). destruct (nth_error items j) as [(b, r)|] eqn:X; [|apply nth_error_None in X; lia].
  rewrite (skip_cons _ _ _ X) in A. pose proof (A (b, r) ltac:(now left)) as B. cbn [snd] in B. destruct (Z.ltb_spec max (r_seq r)); [lia|].
  replace (Z.of_nat j + 1) with (Z.of_nat (Datatypes.S j)) by lia.
  replace (Z.of_nat (length header) + 25 * Z.of_nat j + ih_recsize h) with (Z.of_nat (length header) + 25 * Z.of_nat (Datatypes.S j)) by lia.
  apply IH; [exact R|exact V|exact S|lia|]. intros x I. apply A. now right.
Qed.

Lemma fold_max_ge : forall l a, a <= fold_left Z.max l a /\ forall x, In x l -> x <= fold_left Z.max l a.
Proof.
  induction l as [|b l IH]; intros a; cbn [fold_left]; [split; [lia|intros x []]|]. destruct (IH (Z.max a b)) as (A & B). split; [lia|].
  intros x [->|I]; [lia|now apply B].
Qed.

Section Session.
Context {f header : list Z} {items : list item} (R : recorded f header items).
Variables (start timeout npackets : Z) (delta : nat -> Z) (next stop : Z).


Definition next' : Z := if next =? 4294967295 then npackets else next.
Hypothesis settled_ok : Forall (fun x => 0 <= settled timeout (snd x) < 2^64) items.

(** ** The search *)
Lemma search_found : forall h tr, ih_version h = 3 -> ih_recsize h = 25 -> ih_odata h = Z.of_nat (length header) ->
  forall fuel l xl hi hR, nth_error items l = Some xl -> settled timeout (snd xl) < tr -> tr <= hR -> hR < 2^64 ->
  (l < hi <= length items)%nat -> (forall x, nth_error items hi = Some x -> settled timeout (snd x) = hR) ->
  match search fuel h f timeout tr (Z.of_nat l) (settled timeout (snd xl)) (Z.of_nat hi) hR with
  | FoundAt i => exists k x, i = Z.of_nat k /\ nth_error items k = Some x /\ settled timeout (snd x) < tr
  | FUndefined => False
  | _ => True
  end.
Proof.
  intros h tr V S O. induction fuel as [|fuel IH]; intros l xl hi hR XL LT TH HB LH XH; [exact I|]. cbn [search].
  assert (SZ: 25 * Z.of_nat (length items) < 2^32) by apply R. pows.
  assert (U: u32 (Z.of_nat hi - Z.of_nat l) = Z.of_nat hi - Z.of_nat l) by (unfold u32; apply Z.mod_small; lia). rewrite U.
  destruct (Z.ltb_spec 1 (Z.of_nat hi - Z.of_nat l)) as [G|G]; [|exists l, xl; auto].
  assert (LB: 0 <= settled timeout (snd xl)).
  { rewrite Forall_forall in settled_ok. apply settled_ok. eapply nth_error_In; exact XL. }
  destruct (mid_range tr (settled timeout (snd xl)) hR (Z.of_nat l) (Z.of_nat hi)) as (m & M & MR & _); try lia.
  rewrite M. rewrite O, S. replace (u32 (m * 25)) with (25 * Z.of_nat (Z.to_nat m)) by (unfold u32; rewrite Z.mod_small; lia).
  rewrite (read_at R h (Z.to_nat m) V S). destruct (nth_error items (Z.to_nat m)) as [(b, r)|] eqn:X; [|exact I].
  assert (RT: rec_time timeout r = settled timeout r).
  { apply settled_time. rewrite Forall_forall in settled_ok. apply (settled_ok (b, r)). eapply nth_error_In; exact X. }
  assert (RB: settled timeout r < 2^64).
  { rewrite Forall_forall in settled_ok. apply (settled_ok (b, r)). eapply nth_error_In; exact X. }
  assert (Z.to_nat m < length items)%nat by (apply nth_error_Some; congruence).
  rewrite RT. destruct (Z.ltb_spec (settled timeout r) tr) as [RL|RL].
  - rewrite <- (Z2Nat.id m) by lia. apply (IH (Z.to_nat m) (b, r) hi hR X RL TH HB); [|exact XH].
    split; [|lia]. destruct (Nat.eq_dec (Z.to_nat m) hi) as [E|E]; [|lia]. rewrite E in X. specialize (XH _ X). cbn [snd] in XH. lia.
  - rewrite <- (Z2Nat.id m) by lia. apply (IH l xl (Z.to_nat m) (settled timeout r) XL LT RL RB); [lia|].
    intros x X'. rewrite X in X'. injection X' as <-. reflexivity.
Qed.

Lemma search_ends : forall h tr T0, ih_version h = 3 -> ih_recsize h = 25 -> ih_odata h = Z.of_nat (length header) ->
  (forall x, In x items -> T0 <= settled timeout (snd x)) ->
  (forall x, In x items -> tr <= settled timeout (snd x) -> settled timeout (snd x) - T0 <= 2^20 * (settled timeout (snd x) - tr)) ->
  forall fuel l xl hi hR, nth_error items l = Some xl -> settled timeout (snd xl) < tr -> tr <= hR -> hR < 2^64 -> hR - T0 <= 2^20 * (hR - tr) ->
  (l < hi <= length items)%nat -> (hi <= fuel + l)%nat ->
  exists i, search fuel h f timeout tr (Z.of_nat l) (settled timeout (snd xl)) (Z.of_nat hi) hR = FoundAt i.
Proof.
  intros h tr T0 V S O LOW SEP. induction fuel as [|fuel IH]; intros l xl hi hR XL LT TH HB HS LH FU; [lia|]. cbn [search].
  assert (SZ: 25 * Z.of_nat (length items) < 2^32) by apply R. pows.
  assert (U: u32 (Z.of_nat hi - Z.of_nat l) = Z.of_nat hi - Z.of_nat l) by (unfold u32; apply Z.mod_small; lia). rewrite U.
  destruct (Z.ltb_spec 1 (Z.of_nat hi - Z.of_nat l)) as [G|G]; [|eexists; reflexivity].
  assert (LB: 0 <= settled timeout (snd xl)).
  { rewrite Forall_forall in settled_ok. apply settled_ok. eapply nth_error_In; exact XL. }
  assert (LL: T0 <= settled timeout (snd xl)) by (apply LOW; eapply nth_error_In; exact XL).
  destruct (mid_range tr (settled timeout (snd xl)) hR (Z.of_nat l) (Z.of_nat hi)) as (m & M & MR & MS); try lia.
  specialize (MS ltac:(lia)).
  rewrite M. rewrite O, S. replace (u32 (m * 25)) with (25 * Z.of_nat (Z.to_nat m)) by (unfold u32; rewrite Z.mod_small; lia).
  rewrite (read_at R h (Z.to_nat m) V S). destruct (nth_error items (Z.to_nat m)) as [(b, r)|] eqn:X; [|apply nth_error_None in X; lia].
  assert (IX: In (b, r) items) by (eapply nth_error_In; exact X).
  assert (RB: 0 <= settled timeout r < 2^64) by (rewrite Forall_forall in settled_ok; apply (settled_ok (b, r)); exact IX).
  rewrite (settled_time timeout r RB).
  destruct (Z.ltb_spec (settled timeout r) tr) as [RL|RL].
  - rewrite <- (Z2Nat.id m) by lia. apply (IH (Z.to_nat m) (b, r) hi hR X RL TH HB); [exact HS|lia|lia].
  - rewrite <- (Z2Nat.id m) by lia. apply (IH l xl (Z.to_nat m) (settled timeout r) XL LT RL); [apply RB| |lia|lia].
    apply (SEP (b, r) IX RL).
Qed.

(** ** The threshold *)
Hypothesis times_ok : 0 <= timeout /\ 2 * timeout <= start /\ 2 * timeout <= stop /\ stop < 2^64 /\ start < 2^64.
Hypothesis delays_ok : forall i, 0 <= delta i.
Definition last_time : Z := match Z.to_nat next' with O => start | S k => scheduled start delta k end.
Hypothesis schedule_ok : last_time < 2^64.

Lemma scheduled_mono : forall i j, (i <= j)%nat -> scheduled start delta i <= scheduled start delta j.
Proof.
  intros i j L. induction L as [|j L IH]; [lia|]. change (scheduled start delta (S j)) with (scheduled start delta j + delta (S j)). pose proof (delays_ok (S j)). lia.
Qed.
Lemma scheduled_start : forall i, start <= scheduled start delta i.
Proof. intros i. pose proof (scheduled_mono 0 i ltac:(lia)) as M. cbn [scheduled] in M. pose proof (delays_ok 0%nat). lia. Qed.

Lemma sum_delays_scheduled : forall n, (match n with O => start | S k => scheduled start delta k end) < 2^64 ->
  sum_delays start delta n = match n with O => start | S k => scheduled start delta k end.
Proof.
  induction n as [|n IH]; intros B; [reflexivity|]. cbn [sum_delays].
  assert (E: scheduled start delta n = (match n with O => start | S k => scheduled start delta k end) + delta n) by (destruct n; reflexivity).
  rewrite E in B |- *. pose proof (delays_ok n).
  assert (0 <= match n with O => start | S k => scheduled start delta k end) by (destruct n as [|k]; [lia|pose proof (scheduled_start k); lia]).
  rewrite IH by lia. unfold OWPNum64Add, u64. apply Z.mod_small. pows. lia.
Qed.

Definition threshold : Z := Z.min last_time stop - 2 * timeout.
Lemma threshold_val : let t := sum_delays start delta (Z.to_nat next') in
  OWPNum64Sub (if t <? stop then t else stop) (OWPNum64Mult timeout (OWPULongToNum64 2)) = threshold.
Proof.
  cbv zeta. rewrite sum_delays_scheduled by exact schedule_ok. fold last_time.
  assert (LT: start <= last_time) by (unfold last_time; destruct (Z.to_nat next'); [lia|apply scheduled_start]).
  pows. assert (M2: OWPNum64Mult timeout (OWPULongToNum64 2) = 2 * timeout).
  { change (OWPULongToNum64 2) with 8589934592. rewrite Num64Mult_exact by (red; lia).
    replace (timeout * 8589934592) with (2 * timeout * M32) by lia. rewrite Z.div_mul by lia. apply Z.mod_small. lia. }
  rewrite M2. unfold threshold, OWPNum64Sub, u64. replace (if last_time <? stop then last_time else stop) with (Z.min last_time stop) by (destruct (Z.ltb_spec last_time stop); lia).
  apply Z.mod_small. lia.
Qed.

Lemma threshold_le : 0 <= threshold <= stop.
Proof.
  assert (LT: start <= last_time) by (unfold last_time; destruct (Z.to_nat next'); [lia|apply scheduled_start]). unfold threshold. lia.
Qed.

Lemma find_start_found : forall fuel h i, read_initial f = Some h -> items <> [] ->
  find_start fuel h f start timeout delta next' stop (Z.of_nat (length items)) = FoundAt i ->
  exists k, i = Z.of_nat k /\ (k < length items)%nat /\ (k = 0%nat \/ exists x, nth_error items k = Some x /\ settled timeout (snd x) < threshold).
Proof.
  intros fuel h i I NE FS. destruct (rec_initial R) as (h' & I' & V & S & O & K & Z & _).
  assert (h' = h) by congruence. subst h'. unfold find_start in FS. pose proof threshold_val as TV. cbv zeta in TV, FS. rewrite TV in FS.
  replace (ih_odata h) with (Z.of_nat (length header) + 25 * Z.of_nat 0) in FS by lia. rewrite (read_at R h 0 V S) in FS.
  assert (LI: (0 < length items)%nat) by (destruct items; [congruence|cbn [length]; lia]).
  destruct (nth_error items 0) as [(b, r)|] eqn:X0; [|apply nth_error_None in X0; lia].
  assert (RB: 0 <= settled timeout r < 2^64) by (rewrite Forall_forall in settled_ok; apply (settled_ok (b, r)); eapply nth_error_In; exact X0).
  rewrite (settled_time _ _ RB) in FS.
  pose proof threshold_le as TL.
  destruct (Z.ltb_spec (settled timeout r) threshold) as [L|L].
  - pose proof (search_found h threshold V S O fuel 0 (b, r) (length items) stop X0 L ltac:(lia) ltac:(lia) ltac:(lia)) as SF.
    specialize (SF ltac:(intros x X; assert (length items < length items)%nat by (apply nth_error_Some; congruence); lia)).
    change (Z.of_nat 0) with 0 in SF. cbn [snd] in SF. rewrite FS in SF. destruct SF as (k & x & -> & X & SX). exists k. split; [reflexivity|].
    split; [apply nth_error_Some; congruence|]. right. eauto.
  - injection FS as <-. exists 0%nat. split; [reflexivity|]. split; [lia|]. now left.
Qed.

(** where the pass begins, and what it does *)
Lemma clean_from : forall fuel f' maxr off,
  clean_data_recs (fun k => k) fuel f start timeout npackets delta next stop = CleanOK f' maxr off ->
  exists k header', (k = 0%nat \/ exists x, nth_error items k = Some x /\ settled timeout (snd x) < threshold) /\
    f' = header' ++ concat (map fst (firstn k items ++ filter (fun x => keep next' timeout stop (snd x)) (skipn k items))) /\
    with_count (length (firstn k items ++ filter (fun x => keep next' timeout stop (snd x)) (skipn k items))) header header' /\
    (forall x, In x (skipn k items) -> ~ lost (snd x) -> r_seq (snd x) < next') /\
    (items <> [] -> off = Z.of_nat (length header) + 25 * Z.of_nat k /\
      maxr = fold_left Z.max (map (fun x => r_seq (snd x)) (filter (fun x => keep next' timeout stop (snd x)) (skipn k items))) 0 /\ (k <= length items)%nat).
Proof.
  intros fuel f' maxr off C. unfold clean_data_recs in C.
  destruct (rec_initial R) as (h & I & V & S & O & K & Z & _). rewrite I, S, O, Z in C.
  replace (Z.of_nat (length header) + 25 * Z.of_nat (length items) - Z.of_nat (length header)) with (Z.of_nat (length items) * 25) in C by lia.
  rewrite Z.rem_mul, Z.quot_mul in C by lia. cbn [Z.eqb negb] in C.
  assert (SZ: 25 * Z.of_nat (length items) < 2^32) by apply R.
  assert (U: u32 (Z.of_nat (length items)) = Z.of_nat (length items)) by (unfold u32; rewrite Z.mod_small; pows; lia). rewrite U in C.
  destruct (Z.eqb_spec (Z.of_nat (length items)) 0) as [Z0|NZ].
  { assert (IE: items = []) by (apply length_zero_iff_nil; lia).
    destruct (write_count f header items 0 R ltac:(pows; lia)) as (hd' & W & W1 & W2 & W3). rewrite W in C.
    exists 0%nat, hd'. split; [now left|].
    assert (f' = hd' ++ concat (map fst items)) by congruence. subst f'. rewrite IE. split; [reflexivity|]. split; [|split; [intros x []|congruence]].
    split; [exact W1|]. split; [exact W2|exact W3]. }
  fold next' in C. destruct (npackets <? next'); [discriminate|].
  destruct (find_start fuel h f start timeout delta next' stop (Z.of_nat (length items))) as [i| | |] eqn:FS; try discriminate.
  destruct (find_start_found fuel h i I) as (k & -> & KL & KX); [intros IE; apply length_zero_iff_nil in IE; lia|exact FS|].
  replace (u32 (Z.of_nat k * 25)) with (25 * Z.of_nat k) in C by (unfold u32; rewrite Z.mod_small; pows; lia).
  replace (OWPNum64Sub stop timeout) with (stop - timeout) in C by (unfold OWPNum64Sub, u64; rewrite Z.mod_small; pows; lia).
  replace (Z.to_nat (Z.of_nat (length items) - Z.of_nat k)) with (length items - k)%nat in C by lia.
  pose proof (sweep_spec R next' (stop - timeout) h (length items - k) k (Z.of_nat (length items)) 0 None V S O ltac:(lia) ltac:(pows; lia)) as SW.
  destruct (sweep h f next' (stop - timeout) (length items - k) (Z.of_nat k) _ _ 0 None) as [((num', maxr'), w')|]; [|discriminate].
  destruct SW as (B & N' & M' & CT & WN).
  set (tail := filter (kept next' (stop - timeout)) (skipn k items)) in *.
  assert (TE: tail = filter (fun x => keep next' timeout stop (snd x)) (skipn k items)).
  { unfold tail. apply filter_ext. intros x. unfold kept, keep. f_equal. lia. }
  pose proof (rec_len_f R) as LF.
  assert (CB: copy_back (fun k => k) f w' = header ++ concat (map fst (firstn k items ++ tail))).
  { assert (C1: contents (header := header) (f := f) (length items) w' = copy_back (fun k => k) f w').
    { destruct w' as [(l, y)|]; cbn [contents copy_back]; [now rewrite firstn_all|]. apply firstn_all2. lia. }
    rewrite <- C1, CT. cbn [contents]. destruct R as (F & _ & _ & _ & _ & _ & _ & IO & _).
    rewrite F, firstn_app, firstn_all2 by lia. replace (length header + 25 * k - length header)%nat with (25 * k)%nat by lia.
    rewrite (concat_first items IO), map_app, concat_app, app_assoc. reflexivity. }
  assert (R': recorded (copy_back (fun k => k) f w') header (firstn k items ++ tail)).
  { rewrite CB. eapply recorded_prefix; [exact R| |].
    - destruct R as (_ & _ & _ & _ & _ & _ & _ & IO & _). apply Forall_app. split; [now apply Forall_firstn'|apply Forall_filter'; now apply Forall_skipn'].
    - rewrite app_length, firstn_length. pose proof (filter_len (kept next' (stop - timeout)) (skipn k items)) as FL. fold tail in FL. rewrite skipn_length in FL. lia. }
  assert (NL: num' = Z.of_nat (length (firstn k items ++ tail))) by (rewrite app_length, firstn_length; lia).
  destruct (write_count _ _ _ num' R') as (hd' & W & W1 & W2 & W3).
  { pose proof (filter_len (kept next' (stop - timeout)) (skipn k items)) as FL. fold tail in FL. rewrite skipn_length in FL. pows. lia. }
  rewrite W in C. exists k, hd'. split; [exact KX|]. rewrite <- TE. split; [congruence|]. split; [split; [exact W1|]; split; [congruence|exact W3]|].
  split; [|intros _; split; [congruence|]; split; [|lia]; injection C as _ <- _; exact M'].
  intros x IX NL'. destruct (Z.ltb_spec (r_seq (snd x)) next') as [L|L]; [exact L|]. exfalso.
  assert (BX: existsb (bad next') (skipn k items) = true); [|congruence].
  apply existsb_exists. exists x. split; [exact IX|]. unfold bad. apply andb_true_intro. split; [lia|]. unfold is_lost, lost in *. lia.
Qed.

(** ** Records before the start of the pass *)
Lemma ordered_nth : forall l, in_order timeout l -> forall i j x y, (i <= j)%nat -> nth_error l i = Some x -> nth_error l j = Some y ->
  settled timeout (snd x) <= settled timeout (snd y).
Proof.
  clear. induction l as [|a l IH]; intros O i j x y IJ X Y; [destruct i; discriminate|].
  destruct O as (O1 & O2). destruct i as [|i].
  - cbn [nth_error] in X. injection X as <-. destruct j as [|j]; [cbn [nth_error] in Y; injection Y as <-; lia|].
    cbn [nth_error] in Y. destruct l as [|b l]; [destruct j; discriminate|].
    specialize (IH O2 0%nat j b y ltac:(lia) eq_refl Y). lia.
  - destruct j as [|j]; [lia|]. exact (IH O2 i j x y ltac:(lia) X Y).
Qed.

Lemma early_kept : forall x : item, plausible_rec start timeout delta (snd x) -> settled timeout (snd x) < threshold -> 0 <= next' -> 0 <= r_seq (snd x) ->
  keep next' timeout stop (snd x) = true /\ r_seq (snd x) < next'.
Proof.
  intros (b, r) (PL & PR) S N SQ. cbn [snd] in *.
  assert (Q: scheduled start delta (Z.to_nat (r_seq r)) < last_time /\ owptime (r_send r) + timeout <= stop).
  { unfold settled, lostb, lost, threshold in *. destruct (Z.eqb_spec (owptime (r_recv r)) 0) as [E|E].
    - specialize (PL E). lia.
    - destruct (PR E). lia. }
  destruct Q as (Q1 & Q2).
  assert (L: r_seq r < next').
  { unfold last_time in Q1. destruct (Z.to_nat next') as [|k] eqn:NK.
    - pose proof (scheduled_start (Z.to_nat (r_seq r))). lia.
    - destruct (Z.lt_ge_cases (r_seq r) next') as [L|L]; [exact L|]. pose proof (scheduled_mono k (Z.to_nat (r_seq r)) ltac:(lia)). lia. }
  split; [|exact L]. unfold keep. apply andb_true_intro. split; lia.
Qed.

Hypothesis order : in_order timeout items.
Hypothesis plaus : Forall (fun x => plausible_rec start timeout delta (snd x)) items.
Hypothesis seqs : Forall (fun x => 0 <= r_seq (snd x)) items.
Hypothesis next_ok : 0 <= next'.

Lemma filter_all' : forall {A} (p : A -> bool) l, (forall x, In x l -> p x = true) -> filter p l = l.
Proof. clear. induction l as [|a l IH]; intros H; [reflexivity|]. cbn [filter]. rewrite (H a) by (left; reflexivity). f_equal. apply IH. intros x X. apply H. now right. Qed.

Lemma before : forall k, (k = 0%nat \/ exists x, nth_error items k = Some x /\ settled timeout (snd x) < threshold) ->
  forall x, In x (firstn k items) -> keep next' timeout stop (snd x) = true /\ r_seq (snd x) < next'.
Proof.
  intros k [->|(y & Y & SY)] x X; [destruct X|].
  assert (IX: In x items) by (rewrite <- (firstn_skipn k items); apply in_or_app; now left).
  destruct (In_nth_error _ _ X) as (i & NI).
  assert (L: (i < k)%nat). { assert (i < length (firstn k items))%nat by (apply nth_error_Some; congruence). rewrite firstn_length in H. lia. }
  assert (NI': nth_error items i = Some x).
  { rewrite <- (firstn_skipn k items). rewrite nth_error_app1; [exact NI|]. apply nth_error_Some. congruence. }
  pose proof (ordered_nth items order i k x y ltac:(lia) NI' Y) as OO.
  rewrite Forall_forall in plaus, seqs. apply early_kept; [now apply plaus|lia|exact next_ok|now apply seqs].
Qed.

Lemma clean_ok : forall fuel f' maxr off,
  clean_data_recs (fun k => k) fuel f start timeout npackets delta next stop = CleanOK f' maxr off ->
  exists header', f' = header' ++ concat (map fst (filter (fun x => keep next' timeout stop (snd x)) items)) /\
    with_count (length (filter (fun x => keep next' timeout stop (snd x)) items)) header header' /\
    (forall x, In x items -> ~ lost (snd x) -> r_seq (snd x) < next').
Proof.
  intros fuel f' maxr off C. destruct (clean_from fuel f' maxr off C) as (k & hd' & K & F & W & B & _).
  pose proof (before k K) as BF.
  assert (E: firstn k items ++ filter (fun x => keep next' timeout stop (snd x)) (skipn k items) = filter (fun x => keep next' timeout stop (snd x)) items).
  { rewrite <- (firstn_skipn k items) at 3. rewrite filter_app. f_equal. symmetry. apply filter_all'. intros x X. apply BF, X. }
  rewrite E in F, W. exists hd'. split; [exact F|]. split; [exact W|].
  intros x X NL. rewrite <- (firstn_skipn k items) in X. apply in_app_or in X. destruct X as [X|X]; [apply BF, X|now apply B].
Qed.

(** a session whose control connection was lost *)
Lemma broken_same : forall fuel f1 maxr off, next = 4294967295 ->
  clean_data_recs (fun k => k) fuel f start timeout npackets delta next stop = CleanOK f1 maxr off -> maxr <> 0 ->
  exists f2 header2, clean_up_session (fun k => k) fuel f start timeout npackets delta stop = CleanOK f2 maxr off /\
    f2 = header2 ++ concat (map fst (filter (fun x => keep next' timeout stop (snd x)) items)) /\
    length header2 = length header /\ field header2 20 4 = Z.of_nat (length (filter (fun x => keep next' timeout stop (snd x)) items)) /\ field header2 8 4 = 2.
Proof.
  intros fuel f1 maxr off NX C M0. destruct (clean_from fuel f1 maxr off C) as (k & hd' & K & F & W & B & MO).
  pose proof (before k K) as BF.
  assert (E: firstn k items ++ filter (fun x => keep next' timeout stop (snd x)) (skipn k items) = filter (fun x => keep next' timeout stop (snd x)) items).
  { rewrite <- (firstn_skipn k items) at 3. rewrite filter_app. f_equal. symmetry. apply filter_all'. intros x X. apply BF, X. }
  unfold clean_up_session. rewrite <- NX, C.
  assert (NE: items <> []).
  { intros IE. unfold clean_data_recs in C. destruct (rec_initial R) as (h & I & V & S & O & _ & Z & _). rewrite I, S, O, Z in C. rewrite IE in C. cbn [length] in C.
    replace (Z.of_nat (length header) + 25 * Z.of_nat 0 - Z.of_nat (length header)) with 0 in C by lia. change (negb (Z.rem 0 25 =? 0)) with false in C. cbn [Z.eqb] in C.
    change (u32 (Z.quot 0 25)) with 0 in C. change (0 =? 0) with true in C. cbv iota beta in C. destruct (write_ndata 0 f); [|discriminate]. injection C as _ C _. lia. }
  destruct (MO NE) as (OFF & MX & KL).
  assert (LE: (length (firstn k items ++ filter (fun x => keep next' timeout stop (snd x)) (skipn k items)) <= length items)%nat) by (rewrite E; apply filter_len).
  assert (SZ: 25 * Z.of_nat (length items) < 2^32) by apply R.
  assert (R1: recorded f1 hd' (firstn k items ++ filter (fun x => keep next' timeout stop (snd x)) (skipn k items))).
  { rewrite F. eapply recorded_count; [exact R|exact W| |exact LE].
    destruct R as (_ & _ & _ & _ & _ & _ & _ & IO & _). apply Forall_app. split; [now apply Forall_firstn'|apply Forall_filter'; now apply Forall_skipn']. }
  set (tail := filter (fun x => keep next' timeout stop (snd x)) (skipn k items)) in *.
  destruct (rec_initial R1) as (h & I & V & S & O & OS & ZS & ND). rewrite I.
  destruct (Z.eqb_spec maxr 0); [lia|].
  destruct W as (W1 & W2 & W3). rewrite W2 in ND.
  assert (FK: length (firstn k items) = k) by (rewrite firstn_length; lia).
  rewrite S, O, ND, OFF, W1.
  replace (Z.of_nat (length header) + 25 * Z.of_nat k - Z.of_nat (length header)) with (Z.of_nat k * 25) by lia. rewrite Z.quot_mul by lia.
  replace (u32 (Z.of_nat k)) with (Z.of_nat k) by (unfold u32; rewrite Z.mod_small; pows; lia).
  rewrite <- W1.
  rewrite (drop_nothing f1 hd' (firstn k items ++ tail) h maxr (Z.to_nat (Z.of_nat (length (firstn k items ++ tail)) - Z.of_nat k)) k _ R1 V S).
  - cbn [copy_back]. destruct (write_count f1 hd' (firstn k items ++ tail) (Z.of_nat (length (firstn k items ++ tail))) R1) as (hd2 & X & X1 & X2 & X3); [pows; lia|].
    rewrite X. unfold write_finished. change (2 <? FIN_INCOMPLETE) with false. cbv iota.
    assert (LH: (152 <= length header)%nat) by apply R.
    exists (put 12 (be_enc 4 0) (put 8 (be_enc 4 FIN_INCOMPLETE) hd2) ++ concat (map fst (firstn k items ++ tail))), (put 12 (be_enc 4 0) (put 8 (be_enc 4 FIN_INCOMPLETE) hd2)).
    assert (PP: forall o b (m t : list Z), (o + length b <= length m)%nat -> put o b (m ++ t) = put o b m ++ t).
    { intros o b m t L. unfold put. rewrite firstn_app, skipn_app. replace (o - length m)%nat with 0%nat by lia. replace (o + length b - length m)%nat with 0%nat by lia.
      change (firstn 0 t) with (@nil Z). change (skipn 0 t) with t. now rewrite app_nil_r, <- !app_assoc. }
    assert (L4: forall x, length (be_enc 4 x) = 4%nat) by (intros; apply be_enc_length).
    split.
    + rewrite (fwrite_in 8) by (rewrite app_length, L4; lia). rewrite PP by (rewrite L4; lia).
      rewrite fwrite_in by (rewrite app_length, put_length; rewrite ?L4; lia). rewrite PP by (rewrite put_length; rewrite ?L4; lia). reflexivity.
    + split; [now rewrite E|]. split; [rewrite !put_length; rewrite ?L4; try lia; rewrite put_length; rewrite ?L4; lia|].
      rewrite <- E.
      assert (FS: forall m o n, field m o n = number (sub o n m)) by reflexivity. rewrite !FS in *.
      rewrite !(sub_put_disjoint 20) by (rewrite ?L4; try (rewrite put_length; rewrite ?L4); lia).
      rewrite (sub_put_disjoint 8) by (rewrite ?L4; try (rewrite put_length; rewrite ?L4); lia).
      split; [exact X2|]. change (sub 8 4 (put 8 (be_enc 4 FIN_INCOMPLETE) hd2)) with (sub 8 (length (be_enc 4 FIN_INCOMPLETE)) (put 8 (be_enc 4 FIN_INCOMPLETE) hd2)).
      rewrite sub_put_same by (rewrite ?L4; lia). reflexivity.
  - rewrite app_length, FK. lia.
  - intros x IX. rewrite skipn_app, FK, Nat.sub_diag, skipn_all2 in IX by lia. cbn [app] in IX. change (skipn 0 tail) with tail in IX.
    rewrite MX. apply fold_max_ge. apply (in_map (fun x => r_seq (snd x))). exact IX.
Qed.

(** it ends, if record times are separated from the threshold *)
Lemma clean_total : forall fuel T0,
  (forall x, In x items -> T0 <= settled timeout (snd x)) ->
  (forall x, In x items -> threshold <= settled timeout (snd x) -> settled timeout (snd x) - T0 <= 2^20 * (settled timeout (snd x) - threshold)) ->
  stop - T0 <= 2^20 * (stop - threshold) -> (length items <= fuel)%nat -> next' <= npackets ->
  (forall x, In x items -> ~ lost (snd x) -> r_seq (snd x) < next') ->
  exists f' maxr off, clean_data_recs (fun k => k) fuel f start timeout npackets delta next stop = CleanOK f' maxr off.
Proof.
  intros fuel T0 LOW SEP SS FU NP NB. unfold clean_data_recs.
  destruct (rec_initial R) as (h & I & V & S & O & K & Z & _). rewrite I, S, O, Z.
  replace (Z.of_nat (length header) + 25 * Z.of_nat (length items) - Z.of_nat (length header)) with (Z.of_nat (length items) * 25) by lia.
  rewrite Z.rem_mul, Z.quot_mul by lia. cbn [Z.eqb negb].
  assert (SZ: 25 * Z.of_nat (length items) < 2^32) by apply R.
  assert (U: u32 (Z.of_nat (length items)) = Z.of_nat (length items)) by (unfold u32; rewrite Z.mod_small; pows; lia). rewrite U.
  destruct (Z.eqb_spec (Z.of_nat (length items)) 0) as [Z0|NZ].
  { destruct (write_count f header items 0 R ltac:(pows; lia)) as (hd' & W & _). rewrite W. eauto. }
  fold next'. destruct (Z.ltb_spec npackets next'); [lia|].
  assert (FS: exists i, find_start fuel h f start timeout delta next' stop (Z.of_nat (length items)) = FoundAt i).
  { unfold find_start. pose proof threshold_val as TV. cbv zeta in TV |- *. rewrite TV.
    replace (ih_odata h) with (Z.of_nat (length header) + 25 * Z.of_nat 0) by lia. rewrite (read_at R h 0 V S).
    destruct (nth_error items 0) as [(b, r)|] eqn:X0; [|apply nth_error_None in X0; lia].
    assert (RB: 0 <= settled timeout r < 2^64) by (rewrite Forall_forall in settled_ok; apply (settled_ok (b, r)); eapply nth_error_In; exact X0).
    rewrite (settled_time _ _ RB). pose proof threshold_le.
    destruct (Z.ltb_spec (settled timeout r) threshold) as [L|L]; [|eauto].
    apply (search_ends h threshold T0 V S O LOW SEP fuel 0 (b, r) (length items) stop X0 L); lia. }
  destruct FS as (i & FS). rewrite FS.
  destruct (find_start_found fuel h i I) as (k & -> & KL & KX); [intros IE; apply length_zero_iff_nil in IE; lia|exact FS|].
  replace (u32 (Z.of_nat k * 25)) with (25 * Z.of_nat k) by (unfold u32; rewrite Z.mod_small; pows; lia).
  replace (OWPNum64Sub stop timeout) with (stop - timeout) by (unfold OWPNum64Sub, u64; rewrite Z.mod_small; pows; lia).
  replace (Z.to_nat (Z.of_nat (length items) - Z.of_nat k)) with (length items - k)%nat by lia.
  pose proof (sweep_spec R next' (stop - timeout) h (length items - k) k (Z.of_nat (length items)) 0 None V S O ltac:(lia) ltac:(pows; lia)) as SW.
  destruct (sweep h f next' (stop - timeout) (length items - k) (Z.of_nat k) _ _ 0 None) as [((num', maxr'), w')|].
  2:{ apply existsb_exists in SW. destruct SW as (x & X & BX). exfalso. unfold bad, is_lost in BX.
      assert (IX: In x items) by (rewrite <- (firstn_skipn k items); apply in_or_app; now right).
      specialize (NB x IX). unfold lost in NB. lia. }
  destruct SW as (B & N' & M' & CT & WN).
  assert (R': exists it, recorded (copy_back (fun k => k) f w') header it).
  { exists (firstn k items ++ filter (kept next' (stop - timeout)) (skipn k items)).
    pose proof (rec_len_f R) as LF.
    assert (C1: contents (header := header) (f := f) (length items) w' = copy_back (fun k => k) f w').
    { destruct w' as [(l, y)|]; cbn [contents copy_back]; [now rewrite firstn_all|]. apply firstn_all2. lia. }
    rewrite <- C1, CT. cbn [contents].
    assert (F: f = header ++ concat (map fst items)) by apply R.
    assert (IO: Forall item_ok items) by (destruct R as (_ & _ & _ & _ & _ & _ & _ & IO & _); exact IO).
    rewrite F, firstn_app, firstn_all2 by lia. replace (length header + 25 * k - length header)%nat with (25 * k)%nat by lia.
    rewrite (concat_first items IO), <- app_assoc, <- concat_app, <- map_app.
    eapply recorded_prefix; [exact R| |].
    - apply Forall_app. split; [now apply Forall_firstn'|apply Forall_filter'; now apply Forall_skipn'].
    - rewrite app_length, firstn_length. pose proof (filter_len (kept next' (stop - timeout)) (skipn k items)) as FL. rewrite skipn_length in FL. lia. }
  destruct R' as (it & R'). destruct (write_count _ _ _ num' R') as (hd' & W & _).
  { pose proof (filter_len (kept next' (stop - timeout)) (skipn k items)) as FL. rewrite skipn_length in FL. pows. lia. }
  rewrite W. eauto.
Qed.
End Session.
