(** Proofs about [Sched_Model] against [Sched_Spec]. *)
From Coq Require Import ZArith List Bool Lia ZifyBool ZifyNat.
From Verif Require Import Base BaseLemmas Arith_Model Arith_Proofs Sched_Model Sched_Spec.
Import ListNotations.
Open Scope Z_scope.
Ltac Zify.zify_post_hook ::= Z.div_mod_to_equations.

(** ** S1 *)
Lemma land_pow2_zero : forall a n, 0 <= n -> (Z.land a (2 ^ n) =? 0) = negb (Z.testbit a n).
Proof.
  intros a n Hn. destruct (Z.testbit a n) eqn:T; cbn [negb].
  - apply Z.eqb_neq. intros H. assert (Z.testbit (Z.land a (2^n)) n = false) by (rewrite H; apply Z.bits_0).
    rewrite Z.land_spec, T, Z.pow2_bits_true in H0 by lia. discriminate.
  - apply Z.eqb_eq. apply Z.bits_inj'. intros m Hm. rewrite Z.land_spec, Z.bits_0.
    destruct (Z.eq_dec m n) as [->|].
    + now rewrite T.
    + rewrite Z.pow2_bits_false by lia. apply andb_false_r.
Qed.

Lemma s1_loop_spec : forall fuel u j, 0 <= u < M32 -> 0 <= j <= 32 -> 33 - j <= Z.of_nat fuel ->
  (forall i, 0 <= i < j -> Z.testbit u (31 - i) = true) ->
  exists j', s1_loop fuel (u * 2 ^ j) j = (u * 2 ^ j', j') /\ j <= j' <= 32 /\
    (forall i, 0 <= i < j' -> Z.testbit u (31 - i) = true) /\
    (j' < 32 -> Z.testbit u (31 - j') = false).
Proof.
  induction fuel; intros u j Hu Hj Hf Hb; [lia|].
  cbn [s1_loop]. change BIT31 with (2^31). rewrite land_pow2_zero by lia. rewrite negb_involutive.
  rewrite Z.mul_pow2_bits by lia.
  destruct (Z.testbit u (31 - j)) eqn:T; cbn [andb].
  - destruct (Z.ltb_spec j 32).
    + assert (P : u * 2 ^ j * 2 = u * 2 ^ (j + 1)) by (rewrite Z.pow_add_r by lia; change (2^1) with 2; ring).
      unfold u64. rewrite P.
      rewrite Z.mod_small.
      2:{ assert (2 ^ (j+1) <= 2 ^ 32) by (apply Z.pow_le_mono_r; lia).
          assert (0 < 2 ^ (j+1)) by (apply Z.pow_pos_nonneg; lia).
          change (2^32) with M32 in *. nia. }
      destruct (IHfuel u (j+1)) as (j' & E & A & B & C); try lia.
      { intros i Hi. destruct (Z.eq_dec i j); [subst; auto|]. apply Hb. lia. }
      exists j'. split; auto. split; [lia|]. auto.
    + exists j. assert (j = 32) by lia. subst j. repeat split; auto; lia.
  - exists j. repeat split; auto; lia.
Qed.

Lemma s1_final : forall u j, 0 <= u -> 0 <= j -> mask32 (u64 (u * 2 ^ j * 2)) = (u * 2 ^ (j+1)) mod M32.
Proof.
  intros. rewrite Z.pow_add_r by lia. change (2^1) with 2. rewrite Z.mul_assoc.
  set (v := u * 2 ^ j * 2). unfold mask32, u64. lia.
Qed.

(** U is even *)
Lemma U_even : forall u j, 0 <= j -> ((u * 2 ^ (j+1)) mod M32) mod 2 = 0.
Proof.
  intros. rewrite Z.pow_add_r by lia. change (2^1) with 2. rewrite Z.mul_assoc.
  set (v := u * 2 ^ j). lia.
Qed.

(** ** S3 *)
Lemma s3_loop_spec : forall U, LN2 <= U <= 0xFFFFFFFE ->
  let k := s3_loop 12 U 2 in (2 <= k <= 11)%nat /\ U < spec_Q k /\
  (forall k', (2 <= k' < k)%nat -> spec_Q k' <= U).
Proof.
  intros U HU. unfold LN2 in HU. unfold s3_loop.
  unfold Qtab. cbn [length Nat.ltb Nat.leb nth].
  Ltac s3case U q := destruct (Z.ltb_spec U q);
     [cbv zeta; split; [lia|]; split; [unfold spec_Q; cbn [nth]; lia|];
      let k' := fresh "k'" in let Hk' := fresh in
      intros k' Hk'; unfold spec_Q;
      do 12 (first [exfalso; lia | destruct k' as [|k']; [cbn [nth]; lia|]]) |].
  s3case U 0xEEF193F7. s3case U 0xFD271862. s3case U 0xFF9D6DD0. s3case U 0xFFF4CFD0.
  s3case U 0xFFFEE819. s3case U 0xFFFFE7FF. s3case U 0xFFFFFE2B. s3case U 0xFFFFFFE0.
  s3case U 0xFFFFFFFE. s3case U 0xFFFFFFFF.
  lia.
Qed.

(** ** the generator over an abstract source *)
Section Source.
Context {St : Type}.
Variable draw : St -> Z * St.
Variable w : nat -> Z.
Variable Inv : nat -> St -> Prop.
Hypothesis Hdraw : forall n s, Inv n s -> exists s', draw s = (w n, s') /\ Inv (S n) s'.
Hypothesis Hw : forall n, 0 <= w n < M32.

Lemma min_loop_spec : forall n V s p lo, Inv p s ->
  (exists i, (lo <= i < p)%nat /\ V = w i) -> (forall i, (lo <= i < p)%nat -> V <= w i) ->
  exists V' s', min_loop draw n V s = (V', s') /\ Inv (p + n) s' /\
   (exists i, (lo <= i < p + n)%nat /\ V' = w i) /\ (forall i, (lo <= i < p + n)%nat -> V' <= w i).
Proof.
  induction n; intros V s p lo HI HV Hmin.
  - cbn [min_loop]. exists V, s. rewrite Nat.add_0_r. auto.
  - cbn [min_loop]. destruct (Hdraw _ _ HI) as (s1 & E & HI1). rewrite E.
    destruct (IHn (if w p <? V then w p else V) s1 (S p) lo) as (V' & s' & E' & HI' & A & B); auto.
    + destruct HV as (i & Hi & ->). destruct (w p <? w i).
      * exists p. split; auto. lia.
      * exists i. split; auto. lia.
    + intros i Hi. destruct (Nat.eq_dec i p).
      * subst. destruct (Z.ltb_spec (w p) V); lia.
      * assert (V <= w i) by (apply Hmin; lia). destruct (Z.ltb_spec (w p) V); lia.
    + exists V', s'. replace (p + S n)%nat with (S p + n)%nat by lia. auto.
Qed.

Lemma j_ones_bound : forall u j, 0 <= u < M32 -> 0 <= j < 32 -> 
  LN2 <= (u * 2 ^ (j+1)) mod M32 -> j <= 30.
Proof.
  intros u j Hu Hj H. destruct (Z.eq_dec j 31); [|lia]. subst j.
  change (2 ^ (31+1)) with M32 in H. rewrite Z.mod_mul in H by lia. unfold LN2 in H. lia.
Qed.

Lemma exp_next_spec : forall s n, Inv n s ->
  exists X s' m, exp_next draw s = (X, s') /\ Inv (n + m) s' /\ is_deviate (shift n w) X m /\
    0 <= X <= 32 * spec_ln2 /\ (1 <= m <= 12)%nat.
Proof.
  intros s n HI. unfold exp_next. destruct (Hdraw _ _ HI) as (s1 & E & HI1). rewrite E. clear E.
  pose proof (Hw n) as Hu.
  destruct (s1_loop_spec 33 (w n) 0 Hu) as (j & E & Hj & Hones & Hzero); try lia.
  change (2^0) with 1 in E. rewrite Z.mul_1_r in E. rewrite E. clear E.
  rewrite s1_final by lia.
  set (U := (w n * 2 ^ (j+1)) mod M32).
  assert (HUr : 0 <= U < M32) by (subst U; lia).
  pose proof (U_even (w n) j ltac:(lia)) as Hev. fold U in Hev.
  rewrite ULongToNum64_eq by (red; lia).
  assert (Hln : LN2 = 2977044472) by reflexivity.
  assert (Hln' : spec_ln2 = 2977044472) by reflexivity.
  assert (Hmul : OWPNum64Mult (j * M32) LN2 = j * LN2).
  { rewrite Num64Mult_exact by (red; lia). 
    replace (j * M32 * LN2) with (j * LN2 * M32) by ring. rewrite Z.div_mul by lia.
    apply Z.mod_small. lia. }
  destruct (Z.ltb_spec U LN2).
  - exists (j * LN2 + U), s1, 1%nat. rewrite Hmul. unfold OWPNum64Add, u64.
    rewrite Z.mod_small by lia. split; auto. replace (n + 1)%nat with (S n) by lia.
    split; auto. split; [|split; [|lia]].
    + exists j. unfold shift. rewrite Nat.add_0_r. split; [lia|]. split; auto. split; auto.
      exists U. split; [reflexivity|]. left. repeat split; lia.
    + rewrite Hln, Hln' in *. destruct (Z.eq_dec j 32).
      * subst j. unfold U. 
        replace (w n * 2 ^ (32 + 1)) with (w n * 2 * M32) by (change (2^(32+1)) with (2 * M32); ring).
        rewrite Z.mod_mul by lia. lia.
      * lia.
  - destruct (s3_loop_spec U) as (Hk & HQ & Hleast); [lia|].
    set (k := s3_loop 12 U 2) in *. cbv zeta.
    destruct (Hdraw _ _ HI1) as (s2 & E2 & HI2). rewrite E2.
    destruct (min_loop_spec (k - 1) (w (S n)) s2 (S (S n)) (S n)) as (V & s3 & E3 & HI3 & HV & HVmin); auto.
    { exists (S n). split; auto. } { intros i Hi. replace i with (S n) by lia. lia. }
    rewrite E3.
    assert (Hj' : j < 32).
    { destruct (Z.eq_dec j 32); [|lia]. exfalso. subst j. unfold U in H.
      replace (w n * 2 ^ (32 + 1)) with (w n * 2 * M32) in H by (change (2^(32+1)) with (2 * M32); ring).
      rewrite Z.mod_mul in H by lia. lia. }
    assert (Hj30 : j <= 30) by (apply (j_ones_bound (w n)); auto; lia).
    assert (HVr : 0 <= V < M32) by (destruct HV as (i & _ & ->); apply Hw).
    assert (Hadd : OWPNum64Add (j * M32) V = j * M32 + V).
    { unfold OWPNum64Add, u64. rewrite Z.mod_small; lia. }
    rewrite Hadd, Num64Mult_exact by (red; lia).
    set (X := (j * M32 + V) * LN2 / M32).
    assert (HX : 0 <= X <= 31 * LN2).
    { subst X. rewrite Hln in *. lia. }
    rewrite Z.mod_small by lia.
    exists X, s3, (1 + k)%nat. split; auto.
    split. { replace (n + (1 + k))%nat with (S (S n) + (k - 1))%nat by lia. auto. }
    split; [|split; [lia|lia]].
    exists j. unfold shift. rewrite Nat.add_0_r. split; [lia|]. split; auto. split; auto.
    exists U. split; auto. right. split; [lia|].
    exists k. split; [lia|]. split; auto. split; auto. split; auto.
    exists V. split; [|split].
    + destruct HV as (i & Hi & ->). exists (i - n)%nat. split; [lia|]. f_equal. lia.
    + intros i Hi. apply HVmin. lia.
    + reflexivity.
Qed.
End Source.

(** Any source of 32-bit words *)
Lemma exp_next_any : forall (St : Type) (draw : St -> Z * St) (s : St),
  let after n := Nat.iter n (fun s => snd (draw s)) s in
  let w n := fst (draw (after n)) in
  (forall n, 0 <= w n < M32) ->
  exists X m, exp_next draw s = (X, after m) /\ is_deviate w X m /\
    0 <= X <= 32 * spec_ln2 /\ (1 <= m <= 12)%nat.
Proof.
  intros St draw s after w Hw.
  destruct (exp_next_spec draw w (fun n s' => s' = after n)) with (s := s) (n := 0%nat)
    as (X & s' & m & E & HI & HD & HX & Hm); auto.
  - intros n s' ->. exists (after (S n)). split; auto. unfold after, w. cbn [Nat.iter]. 
    rewrite surjective_pairing at 1. reflexivity.
  - exists X, m. subst s'. auto.
Qed.

(** uniqueness: Algorithm S determines value and word count *)
Lemma deviate_unique : forall w X m X' m', is_deviate w X m -> is_deviate w X' m' -> X = X' /\ m = m'.
Proof.
  intros w X m X' m' (j & Hj & Ho & Hz & U & HU & H) (j' & Hj' & Ho' & Hz' & U' & HU' & H').
  assert (j = j').
  { destruct (Z.lt_trichotomy j j') as [L|[L|L]]; auto; exfalso.
    - rewrite (Ho' j) in Hz by lia. discriminate Hz. lia.
    - rewrite (Ho j') in Hz' by lia. discriminate Hz'. lia. }
  subst j'. assert (EU : U' = U) by congruence. rewrite EU in *. clear EU HU' HU.
  destruct H as [(A & B & C)|(A & k & Hk & Q1 & Q2 & Hm & V & HV & Hmin & B)];
  destruct H' as [(A' & B' & C')|(A' & k' & Hk' & Q1' & Q2' & Hm' & V' & HV' & Hmin' & B')]; try lia.
  assert (k = k').
  { destruct (Nat.lt_trichotomy k k') as [L|[L|L]]; auto; exfalso.
    - specialize (Q2' k ltac:(lia)). lia.
    - specialize (Q2 k' ltac:(lia)). lia. }
  subst k'. 
  destruct HV as (i & Hi & ->). destruct HV' as (i' & Hi' & ->).
  pose proof (Hmin i' Hi'). pose proof (Hmin' i Hi).
  assert (w i = w i') by lia. split; congruence.
Qed.

(** ** the counter-mode source *)
Fixpoint le_dec (l : list Z) : Z := match l with [] => 0 | b :: t => b + 256 * le_dec t end.

Lemma be_dec_app1 : forall l b, be_dec (l ++ [b]) = be_dec l * 256 + b.
Proof. intros. unfold be_dec. rewrite fold_left_app. reflexivity. Qed.

Lemma be_dec_rev : forall l, be_dec (rev l) = le_dec l.
Proof. induction l; auto. cbn [rev le_dec]. rewrite be_dec_app1, IHl. ring. Qed.

Lemma incr_le_spec : forall l, octets l ->
  octets (incr_le l) /\ length (incr_le l) = length l /\
  le_dec (incr_le l) = (le_dec l + 1) mod 256 ^ Z.of_nat (length l).
Proof.
  induction 1 as [|b l Hb Hl (A & B & C)].
  - cbn. repeat split; auto. constructor.
  - cbn [incr_le length]. red in Hb. unfold u8.
    pose proof (pow256_pos (length l)) as Hp.
    assert (Hlb : 0 <= le_dec l < 256 ^ Z.of_nat (length l)).
    { rewrite <- be_dec_rev. pose proof (be_dec_bound (rev l)) as Hx. rewrite rev_length in Hx. apply Hx.
      unfold octets. apply Forall_rev. auto. }
    rewrite Nat2Z.inj_succ, Z.pow_succ_r by lia.
    set (P := 256 ^ Z.of_nat (length l)) in *. 
    destruct (Z.eq_dec b 255).
    + subst b. change ((255 + 1) mod 256) with 0. cbn [Z.eqb le_dec length].
      repeat split.
      * constructor; auto. red; lia.
      * now rewrite B.
      * rewrite C. replace (255 + 256 * le_dec l + 1) with (256 * (le_dec l + 1)) by ring.
        rewrite Z.mul_mod_distr_l by lia. ring.
    + rewrite Z.mod_small by lia. destruct (Z.eqb_spec (b+1) 0); [lia|].
      cbn [le_dec length]. repeat split; auto.
      * constructor; auto. red; lia.
      * rewrite Z.mod_small; lia.
Qed.

Lemma incr_counter_be : forall n x, incr_counter (be_enc n x) = be_enc n (x + 1).
Proof.
  intros n x. unfold incr_counter.
  destruct (incr_le_spec (rev (be_enc n x))) as (A & B & C).
  { apply Forall_rev, be_enc_octets. }
  apply be_dec_inj.
  - apply Forall_rev; auto.
  - apply be_enc_octets.
  - rewrite rev_length, B, rev_length, !be_enc_length. auto.
  - rewrite be_dec_rev, C, <- be_dec_rev, rev_involutive, rev_length, be_enc_length.
    rewrite !be_dec_enc_mod. apply Zplus_mod_idemp_l.
Qed.

Lemma be_enc_mod : forall n x, be_enc n (x mod 256 ^ Z.of_nat n) = be_enc n x.
Proof.
  intros. apply be_dec_inj; auto using be_enc_octets. 
  - now rewrite !be_enc_length.
  - rewrite !be_dec_enc_mod. apply Zmod_mod.
Qed.

Lemma octs_be : forall n x, octs n x = be_enc n x.
Proof.
  intros n x. apply be_dec_inj; auto using be_enc_octets.
  - revert x; induction n; intros; cbn [octs]; [constructor|].
    apply Forall_app. split; [apply IHn|]. constructor; [|constructor]. red. lia.
  - rewrite be_enc_length. revert x; induction n; intros; cbn [octs]; auto. rewrite app_length, IHn. cbn. lia.
  - rewrite be_dec_enc_mod. revert x. induction n; intros; cbn [octs].
    + cbn. now rewrite Z.mod_1_r.
    + rewrite be_dec_app1, IHn. rewrite Nat2Z.inj_succ, Z.pow_succ_r by lia.
      rewrite Z.rem_mul_r by (try lia; pose proof (pow256_pos n); lia). ring.
Qed.

Lemma land3 : forall x, Z.land x 3 = x mod 4.
Proof. intros. change 3 with (Z.ones 2). rewrite Z.land_ones by lia. reflexivity. Qed.

Lemma byte15 : forall x, byte 15 (be_enc 16 x) = x mod 256.
Proof.
  intros. unfold byte. cbn [be_enc nth]. change (256 ^ Z.of_nat 0) with 1. now rewrite Z.div_1_r.
Qed.

Lemma word_of_be : forall l, length l = 4%nat -> word_of l = be_dec l.
Proof.
  intros l H. do 4 (destruct l as [|? l]; try discriminate H). destruct l; try discriminate H.
  unfold be_dec. cbn. lia.
Qed.

Section Ctr.
Variable E : list Z -> list Z -> list Z.
Hypothesis E_len : forall k b, length (E k b) = 16%nat.
Hypothesis E_oct : forall k b, octets (E k b).

(** state of the generator after n draws *)
Definition ctr_inv (key : list Z) (n : nat) (e : expctx) : Prop :=
  e_key e = key /\ e_counter e = be_enc 16 (Z.of_nat n) /\
  ((n mod 4 <> 0)%nat -> e_out e = E key (be_enc 16 (Z.of_nat (n - n mod 4)))).

Lemma ctr_word_be : forall key n,
  ctr_word E key n = be_dec (sub (4 * (n mod 4)) 4 (E key (be_enc 16 (Z.of_nat (n - n mod 4))))).
Proof.
  intros. unfold ctr_word. rewrite octs_be. change (2^128) with (256 ^ Z.of_nat 16). rewrite be_enc_mod.
  apply word_of_be. apply sub_length. rewrite E_len. lia.
Qed.

Lemma ctr_word_range : forall key n, 0 <= ctr_word E key n < M32.
Proof.
  intros. rewrite ctr_word_be.
  match goal with |- context [be_dec ?l] => pose proof (be_dec_bound l) as B end.
  rewrite sub_length in B by (rewrite E_len; lia). apply B. apply sub_octets. apply E_oct.
Qed.

Lemma unif_rand_spec : forall key n e, ctr_inv key n e ->
  exists e', unif_rand E e = (ctr_word E key n, e') /\ ctr_inv key (S n) e'.
Proof.
  intros key n e (Hk & Hc & Ho). unfold unif_rand. rewrite Hk, Hc, byte15, land3.
  assert (F : (Z.of_nat n mod 256) mod 4 = Z.of_nat (n mod 4)) by lia.
  rewrite F, Nat2Z.id. rewrite ctr_word_be.
  assert (Hout : (if Z.of_nat (n mod 4) =? 0 then E key (be_enc 16 (Z.of_nat n)) else e_out e)
           = E key (be_enc 16 (Z.of_nat (n - n mod 4)))).
  { destruct (Z.eqb_spec (Z.of_nat (n mod 4)) 0) as [Hz|Hz].
    - do 3 f_equal. lia.
    - apply Ho. lia. }
  rewrite Hout. eexists. split; [reflexivity|].
  repeat split; cbn [e_key e_counter e_out].
  - rewrite incr_counter_be. f_equal. lia.
  - intros Hn. do 3 f_equal. lia.
Qed.

Lemma ctr_inv_zero : forall sid, ctr_inv sid 0 (zero_exp sid).
Proof. intros. repeat split; auto. intros H; exfalso; apply H; reflexivity. Qed.

(** n-th draw after (re)start *)
Lemma unif_stream : forall sid n,
  fst (unif_rand E (Nat.iter n (fun e => snd (unif_rand E e)) (zero_exp sid))) = ctr_word E sid n.
Proof.
  intros sid n.
  assert (H : ctr_inv sid n (Nat.iter n (fun e => snd (unif_rand E e)) (zero_exp sid))).
  { induction n; [apply ctr_inv_zero|].
    change (ctr_inv sid (S n) (snd (unif_rand E (Nat.iter n (fun e => snd (unif_rand E e)) (zero_exp sid))))).
    destruct (unif_rand_spec sid n _ IHn) as (e' & Eq & HI). rewrite Eq. exact HI. }
  destruct (unif_rand_spec sid n _ H) as (e' & Eq & HI). now rewrite Eq.
Qed.

(** ** schedules *)
Definition slot_view (s : slot) : bool * Z :=
  match s with SlotExp m => (true, m) | SlotLit o => (false, o) | SlotOther => (false, 0) end.

Definition slot_ok (s : slot) : Prop :=
  match s with SlotExp m => is_u64 m | SlotLit o => is_u64 o | SlotOther => False end.

Definition sched_inv (sid : list Z) (slots : list slot) (np : Z) (i p : nat) (c : schedctx) : Prop :=
  ctr_inv sid p (s_exp c) /\ s_i c = Z.of_nat i /\ s_maxi c = np /\
  s_nslots c = Z.min (Z.of_nat (length slots)) np /\ s_slots c = slots.

Lemma next_deltas_spec : forall n sid slots np i p c,
  slots <> [] -> Forall slot_ok slots -> 0 <= np < M32 ->
  sched_inv sid slots np i p c -> Z.of_nat (i + n) <= np ->
  exists ds c' p', next_deltas E n c = (map Delta ds, c') /\ sched_inv sid slots np (i + n) p' c' /\
    is_schedule (ctr_word E sid) (map slot_view slots) i p ds p'.
Proof.
  induction n; intros sid slots np i p c Hne Hok Hnp HI Hn.
  - exists [], c, p. rewrite Nat.add_0_r. repeat split; try apply HI. constructor.
  - cbn [next_deltas]. destruct HI as (Hctr & Hi & Hm & Hs & Hsl).
    unfold next_delta. rewrite Hi, Hm, Hs, Hsl.
    assert (Hlen : (0 < length slots)%nat) by (destruct slots; [congruence|cbn; lia]).
    destruct (Z.leb_spec np (Z.of_nat i)); [lia|].
    destruct (Z.eqb_spec (Z.min (Z.of_nat (length slots)) np) 0); [lia|].
    assert (Hidx : Z.to_nat (Z.of_nat i mod Z.min (Z.of_nat (length slots)) np)
                   = (i mod length slots)%nat).
    { destruct (Z.le_gt_cases (Z.of_nat (length slots)) np).
      - rewrite Z.min_l by lia. rewrite <- Nat2Z.inj_mod. apply Nat2Z.id.
      - rewrite Z.min_r by lia. rewrite Z.mod_small by lia. rewrite Nat2Z.id.
        symmetry. apply Nat.mod_small. lia. }
    rewrite Hidx.
    assert (Hlt : (i mod length slots < length slots)%nat) by (apply Nat.mod_upper_bound; lia).
    destruct (nth_error slots (i mod length slots)) as [sl|] eqn:Hsl'.
    2:{ apply nth_error_None in Hsl'. lia. }
    assert (Hslok : slot_ok sl).
    { apply nth_error_In in Hsl'. rewrite Forall_forall in Hok. auto. }
    assert (Hview : nth_error (map slot_view slots) (i mod length (map slot_view slots))
                    = Some (slot_view sl)).
    { rewrite map_length. rewrite nth_error_map, Hsl'. reflexivity. }
    assert (Hi1 : u64 (Z.of_nat i + 1) = Z.of_nat (S i)).
    { unfold u64. rewrite Z.mod_small; lia. }
    destruct sl as [mean|off|]; cbn [slot_ok] in Hslok; [| |contradiction].
    + destruct (exp_next_spec (unif_rand E) (ctr_word E sid) (ctr_inv sid)) with (s := s_exp c) (n := p)
        as (X & e' & m & EX & HI' & HD & HX & Hm'); auto.
      { intros k s Hk. apply unif_rand_spec; auto. }
      { intros; apply ctr_word_range. }
      rewrite EX.
      destruct (IHn sid slots np (S i) (p + m)%nat
                 (mkSched e' (u64 (Z.of_nat i + 1)) np (Z.min (Z.of_nat (length slots)) np) slots))
        as (ds & c' & p' & En & HIn & HSch); auto; try lia.
      { repeat split; cbn [s_exp s_i s_maxi s_nslots s_slots]; auto; apply HI'. }
      rewrite En. exists (OWPNum64Mult X mean :: ds), c', p'.
      split; auto. split. { replace (i + S n)%nat with (S i + n)%nat by lia. auto. }
      rewrite Num64Mult_exact; auto.
      2:{ red. assert (spec_ln2 = 2977044472) by reflexivity. lia. }
      eapply sched_exp; eauto.
    + destruct (IHn sid slots np (S i) p
                 (mkSched (s_exp c) (u64 (Z.of_nat i + 1)) np (Z.min (Z.of_nat (length slots)) np) slots))
        as (ds & c' & p' & En & HIn & HSch); auto; try lia.
      { repeat split; cbn [s_exp s_i s_maxi s_nslots s_slots]; auto; apply Hctr. }
      rewrite En. exists (off :: ds), c', p'.
      split; auto. split. { replace (i + S n)%nat with (S i + n)%nat by lia. auto. }
      eapply sched_lit; eauto.
Qed.

Lemma create_inv : forall sid t c, sched_create sid t = Some c ->
  exists slots, sp_slots t = Some slots /\ slots <> [] /\ ~ In SlotOther slots /\
    sched_inv sid slots (sp_npackets t) 0 0 c.
Proof.
  intros sid t c H. unfold sched_create in H. destruct (sp_slots t) as [l|] eqn:Hl; [|discriminate].
  destruct (_ || _) eqn:Hc; [discriminate|]. apply orb_false_elim in Hc as [Hz Hs].
  inversion H; subst c; clear H. exists l. split; auto.
  unfold sp_nslots, check_slots in *. rewrite Hl in *.
  split. { intros ->. discriminate. }
  split. { apply negb_false_iff in Hs. rewrite forallb_forall in Hs. intros Hin. specialize (Hs _ Hin). discriminate. }
  repeat split; auto. cbn. intros Hx. exfalso; apply Hx; reflexivity.
Qed.

Lemma create_schedule : forall sid t c slots n,
  sched_create sid t = Some c -> sp_slots t = Some slots ->
  Forall slot_ok slots -> 0 <= sp_npackets t < M32 -> Z.of_nat n <= sp_npackets t ->
  exists ds c' p, next_deltas E n c = (map Delta ds, c') /\
    is_schedule (ctr_word E sid) (map slot_view slots) 0 0 ds p.
Proof.
  intros sid t c slots n Hc Hs Hok Hnp Hn.
  apply create_inv in Hc as (sl & Hs' & Hne & _ & HI).
  assert (sl = slots) by congruence. subst sl.
  destruct (next_deltas_spec n sid slots (sp_npackets t) 0 0 c) as (ds & c' & p & En & HIn & HSch); auto.
  eauto 10.
Qed.


(** drawing changes only the generator state and the index *)
Lemma unif_key : forall e, e_key (snd (unif_rand E e)) = e_key e.
Proof. intros. reflexivity. Qed.

Lemma min_loop_key : forall n V e, e_key (snd (min_loop (unif_rand E) n V e)) = e_key e.
Proof.
  induction n; intros; cbn [min_loop]; auto.
  destruct (unif_rand E e) as [t e'] eqn:H. rewrite IHn. 
  change e' with (snd (t, e')). rewrite <- H. apply unif_key.
Qed.

Lemma exp_key : forall e, e_key (snd (exp_next (unif_rand E) e)) = e_key e.
Proof.
  intros. unfold exp_next. destruct (unif_rand E e) as [u e1] eqn:H1.
  assert (K1 : e_key e1 = e_key e) by (change e1 with (snd (u,e1)); rewrite <- H1; apply unif_key).
  destruct (s1_loop 33 u 0). destruct (_ <? _); auto.
  destruct (unif_rand E e1) as [v e2] eqn:H2.
  assert (K2 : e_key e2 = e_key e1) by (change e2 with (snd (v,e2)); rewrite <- H2; apply unif_key).
  pose proof (min_loop_key (s3_loop 12 (mask32 (u64 (z * 2))) 2 - 1) v e2) as K3.
  destruct (min_loop _ _ v e2). cbn [snd] in *. congruence.
Qed.

Definition same_config (c c' : schedctx) : Prop :=
  e_key (s_exp c) = e_key (s_exp c') /\ s_maxi c = s_maxi c' /\ s_nslots c = s_nslots c' /\
  s_slots c = s_slots c'.

Lemma next_delta_config : forall c, same_config (snd (next_delta E c)) c.
Proof.
  intros c. unfold next_delta, same_config.
  destruct (_ <=? _); [cbn [snd]; auto|]. destruct (_ =? _); [cbn [snd]; auto|].
  pose proof (exp_key (s_exp c)) as K.
  destruct (nth_error _ _) as [[mean|off|]|];
    [destruct (exp_next _ _)| | |]; cbn [snd s_exp s_maxi s_nslots s_slots] in *; auto.
Qed.

Lemma next_deltas_config : forall n c, same_config (snd (next_deltas E n c)) c.
Proof.
  induction n; intros; cbn [next_deltas]. { unfold same_config; cbn; auto. }
  pose proof (next_delta_config c) as K. destruct (next_delta E c) as [d c1].
  pose proof (IHn c1) as K1. destruct (next_deltas E n c1). unfold same_config in *. cbn [snd] in *.
  intuition congruence.
Qed.

Lemma reset_restart : forall sid t c n ds c', sched_create sid t = Some c ->
  next_deltas E n c = (ds, c') -> sched_reset c' None = (c, true).
Proof.
  intros sid t c n ds c' Hc Hn.
  pose proof (next_deltas_config n c) as (K1 & K2 & K3 & K4). rewrite Hn in *. cbn [snd] in *.
  unfold sched_reset. rewrite K1, K2, K3, K4. f_equal.
  unfold sched_create in Hc. destruct (sp_slots t); [|discriminate].
  destruct (_ || _); [discriminate|]. inversion Hc; subst. reflexivity.
Qed.

Lemma reset_as_create : forall c sid t c2, sched_create sid t = Some c2 ->
  sched_reset c (Some (sid, t)) = (c2, true).
Proof.
  intros c sid t c2 Hc. unfold sched_create in Hc. unfold sched_reset.
  destruct (sp_slots t) eqn:Hs; [|discriminate].
  destruct (_ || _) eqn:Ho; [discriminate|]. apply orb_false_elim in Ho as [_ Ho].
  rewrite Ho. inversion Hc; subst. reflexivity.
Qed.
End Ctr.

Lemma schedule_unique : forall w slots i p ds1 p1, is_schedule w slots i p ds1 p1 ->
  forall ds2 p2, is_schedule w slots i p ds2 p2 -> length ds1 = length ds2 -> ds1 = ds2 /\ p1 = p2.
Proof.
  intros w slots i p ds1 p1 H.
  induction H as [i p|i p off ds p' Hs HS IH|i p mean X m ds p' Hs HD HS IH]; intros ds2 p2 HS2 Len.
  - destruct ds2; [|discriminate]. inversion HS2; auto.
  - inversion HS2; subst; try discriminate.
    + injection Len as Len. destruct (IH _ _ H0 Len) as [-> ->]. split; [f_equal|]; congruence.
    + congruence.
  - inversion HS2; subst; try discriminate.
    + congruence.
    + destruct (deviate_unique _ _ _ _ _ HD H0) as [-> ->].
      injection Len as Len. destruct (IH _ _ H1 Len) as [-> ->].
      split; [|auto]. f_equal. congruence.
Qed.

Lemma next_deltas_length : forall E m c ds c', next_deltas E m c = (ds, c') -> length ds = m.
Proof.
  induction m; intros c ds c' H; cbn [next_deltas] in H.
  - inversion H; reflexivity.
  - destruct (next_delta E c) as [d cc]. destruct (next_deltas E m cc) as [ds' cc'] eqn:Hm.
    inversion H; subst. cbn. f_equal. eapply IHm; eauto.
Qed.

Lemma parties_agree : forall E sid t1 t2 c1 c2 slots n,
  sched_create sid t1 = Some c1 -> sched_create sid t2 = Some c2 ->
  sp_slots t1 = Some slots -> sp_slots t2 = Some slots -> Forall slot_ok slots ->
  0 <= sp_npackets t1 < M32 -> 0 <= sp_npackets t2 < M32 ->
  Z.of_nat n <= sp_npackets t1 -> Z.of_nat n <= sp_npackets t2 ->
  (forall k b, length (E k b) = 16%nat) -> (forall k b, octets (E k b)) ->
  fst (next_deltas E n c1) = fst (next_deltas E n c2).
Proof.
  intros E sid t1 t2 c1 c2 slots n H1 H2 S1 S2 Hok N1 N2 L1 L2 El Eo.
  destruct (create_schedule E El Eo sid t1 c1 slots n) as (ds1 & c1' & p1 & E1 & HS1); auto.
  destruct (create_schedule E El Eo sid t2 c2 slots n) as (ds2 & c2' & p2 & E2 & HS2); auto.
  rewrite E1, E2. cbn [fst]. f_equal.
  apply next_deltas_length in E1. apply next_deltas_length in E2. rewrite map_length in *.
  eapply schedule_unique; eauto. congruence.
Qed.

Lemma create_accepts : forall sid slots np, slots <> [] -> Forall slot_ok slots ->
  exists c, sched_create sid (mkSpec (Some slots) np) = Some c.
Proof.
  intros sid slots np Hne Hok. unfold sched_create, sp_nslots, check_slots. cbn [sp_slots].
  destruct slots as [|s0 slots]; [congruence|].
  destruct (Z.eqb_spec (Z.of_nat (length (s0 :: slots))) 0); [cbn in *; lia|].
  assert (F : forallb (fun s => match s with SlotOther => false | _ => true end) (s0 :: slots) = true).
  { apply forallb_forall. intros x Hx. rewrite Forall_forall in Hok. specialize (Hok x Hx).
    destruct x; auto. }
  rewrite F. cbn [orb negb]. eauto.
Qed.
