(** Lemmas for the properties of owping and owfetch *)
From Coq Require Import ZArith List Bool Lia ZifyBool ZifyNat QArith Qround.
From Verif Require Import Base BaseLemmas Arith_Model Arith_Proofs Control_Model Options_Model Config_Model Config_Spec Config_Proofs Receiver_Spec Sender_Spec
  Report_Model Report_Spec Report_Proofs Sched_Model Sched_Spec Ping_Model Ping_Spec.
Import ListNotations.
Open Scope Z_scope.

(** ** Modes *)
Lemma upper_letter : forall c k, 65 <= k <= 90 -> (upper c =? k) = true <-> c = k \/ c = k + 32.
Proof. intros c k K. unfold upper. destruct ((97 <=? c) && (c <=? 122)) eqn:?; lia. Qed.

Lemma parse_modes_spec : forall twamp s acc m, parse_modes twamp acc s = Some m ->
  m = Z.lor acc (m) /\ (Z.testbit m 0 = true <-> Z.testbit acc 0 = true \/ has_letter 79 s) /\ (Z.testbit m 1 = true <-> Z.testbit acc 1 = true \/ has_letter 65 s) /\
  (Z.testbit m 2 = true <-> Z.testbit acc 2 = true \/ has_letter 69 s) /\ (Z.testbit m 3 = true <-> Z.testbit acc 3 = true \/ has_letter 77 s).
Proof.
  intros twamp. induction s as [|c r IH]; intros acc m H; cbn [parse_modes] in H.
  - injection H as <-. split; [now rewrite Z.lor_diag|]. unfold has_letter. cbn [In]. repeat split; intros X; tauto.
  - assert (G : forall k b i, 65 <= k <= 90 -> (upper c =? k) = true -> b = 2 ^ i -> 0 <= i ->
        parse_modes twamp (Z.lor acc b) r = Some m -> forall j k', 0 <= j -> 65 <= k' <= 90 -> (j = i <-> k' = k) ->
        (Z.testbit m j = true <-> Z.testbit (Z.lor acc b) j = true \/ has_letter k' r) ->
        (Z.testbit m j = true <-> Z.testbit acc j = true \/ has_letter k' (c :: r))).
    { intros k b i K U Bi I0 _ j k' J K' IFF ->. rewrite Z.lor_spec. apply upper_letter in U; [|exact K]. subst b.
      assert (T : Z.testbit (2 ^ i) j = (j =? i)).
      { rewrite Z.pow2_bits_eqb by lia. apply Z.eqb_sym. }
      rewrite T, orb_true_iff, Z.eqb_eq. unfold has_letter. cbn [In]. split.
      - intros [[A|A]|[A|A]]; auto. apply IFF in A. right. destruct U as [U|U]; [left; left; lia|right; left; lia].
      - intros [A|[[A|A]|[A|A]]]; auto; left; right; apply IFF; destruct U as [U|U]; lia. }
    assert (L : forall b, parse_modes twamp (Z.lor acc b) r = Some m -> m = Z.lor acc m).
    { intros b P. destruct (IH _ _ P) as (E & _). rewrite E at 1 2. rewrite (Z.lor_comm acc b), <- Z.lor_assoc, (Z.lor_comm b), !Z.lor_assoc, Z.lor_diag. reflexivity. }
    destruct (upper c =? 79) eqn:U1; [|destruct (upper c =? 65) eqn:U2; [|destruct (upper c =? 69) eqn:U3; [|destruct (twamp && (upper c =? 77)) eqn:U4; [|discriminate]]]].
    + destruct (IH _ _ H) as (_ & A & B & C & D). split; [exact (L _ H)|].
      split; [|split; [|split]]; [apply (G 79 MODE_OPEN 0)|apply (G 79 MODE_OPEN 0)|apply (G 79 MODE_OPEN 0)|apply (G 79 MODE_OPEN 0)]; auto; try lia; try reflexivity; split; lia.
    + destruct (IH _ _ H) as (_ & A & B & C & D). split; [exact (L _ H)|].
      split; [|split; [|split]]; [apply (G 65 MODE_AUTH 1)|apply (G 65 MODE_AUTH 1)|apply (G 65 MODE_AUTH 1)|apply (G 65 MODE_AUTH 1)]; auto; try lia; try reflexivity; split; lia.
    + destruct (IH _ _ H) as (_ & A & B & C & D). split; [exact (L _ H)|].
      split; [|split; [|split]]; [apply (G 69 MODE_ENCR 2)|apply (G 69 MODE_ENCR 2)|apply (G 69 MODE_ENCR 2)|apply (G 69 MODE_ENCR 2)]; auto; try lia; try reflexivity; split; lia.
    + apply andb_true_iff in U4. destruct U4 as (_ & U4). destruct (IH _ _ H) as (_ & A & B & C & D). split; [exact (L _ H)|].
      split; [|split; [|split]]; [apply (G 77 MODE_MIXED 3)|apply (G 77 MODE_MIXED 3)|apply (G 77 MODE_MIXED 3)|apply (G 77 MODE_MIXED 3)]; auto; try lia; try reflexivity; split; lia.
Qed.

Lemma parse_modes_accepts : forall twamp s acc,
  (exists m, parse_modes twamp acc s = Some m) <-> Forall (fun c => In c [79; 111; 65; 97; 69; 101] \/ (twamp = true /\ In c [77; 109])) s.
Proof.
  intros twamp. induction s as [|c r IH]; intros acc; cbn [parse_modes].
  - split; [constructor|eauto].
  - assert (X : forall k, 65 <= k <= 90 -> (upper c =? k) = true \/ (c <> k /\ c <> k + 32 /\ (upper c =? k) = false)).
    { intros k K. destruct (upper c =? k) eqn:E; [auto|]. right. pose proof (upper_letter c k K) as U. rewrite E in U.
      repeat split; intros ->; destruct U as [_ U]; discriminate U; auto. }
    assert (Y : forall k, 65 <= k <= 90 -> (upper c =? k) = true -> c = k \/ c = k + 32) by (intros k K E; now apply upper_letter).
    destruct (X 79 ltac:(lia)) as [E|(N1 & N2 & E)]; rewrite ?E.
    { rewrite IH. split; [intros F; constructor; [|exact F]|intros F; now inversion F]. apply Y in E; [|lia]. cbn [In]. left. lia. }
    destruct (X 65 ltac:(lia)) as [E2|(N3 & N4 & E2)]; rewrite ?E2.
    { rewrite IH. split; [intros F; constructor; [|exact F]|intros F; now inversion F]. apply Y in E2; [|lia]. cbn [In]. left. lia. }
    destruct (X 69 ltac:(lia)) as [E3|(N5 & N6 & E3)]; rewrite ?E3.
    { rewrite IH. split; [intros F; constructor; [|exact F]|intros F; now inversion F]. apply Y in E3; [|lia]. cbn [In]. left. lia. }
    destruct twamp; cbn [andb].
    + destruct (X 77 ltac:(lia)) as [E4|(N7 & N8 & E4)]; rewrite ?E4.
      { rewrite IH. split; [intros F; constructor; [|exact F]|intros F; now inversion F]. apply Y in E4; [|lia]. cbn [In]. right. split; [reflexivity|lia]. }
      split; [intros (m & H); discriminate|intros F; inversion F as [|? ? H ?]; subst; cbn [In] in H; lia].
    + split; [intros (m & H); discriminate|intros F; inversion F as [|? ? H ?]; subst; cbn [In] in H]. destruct H as [H|(H & _)]; [lia|discriminate].
Qed.

(** ** Files *)
Lemma put_same : forall f n c, put f n c n = c.
Proof. intros. unfold put. now rewrite eqb_octets_refl. Qed.
Lemma put_other : forall f n c m, m <> n -> put f n c m = f m.
Proof. intros f n c m N. unfold put. destruct (eqb_octets m n) eqn:E; [apply eqb_octets_spec in E; congruence|reflexivity]. Qed.

(** ** Names *)
Lemma stamp_length : forall t, length (stamp t) = 20%nat.
Proof. reflexivity. Qed.
Lemma digits_eq : forall n a b, 0 <= a < 10 ^ Z.of_nat n -> 0 <= b < 10 ^ Z.of_nat n ->
  (forall i, 0 <= i < Z.of_nat n -> a / 10 ^ i mod 10 = b / 10 ^ i mod 10) -> a = b.
Proof.
  induction n as [|n IH]; intros a b A B H.
  - cbn in A, B. lia.
  - assert (T : 10 ^ Z.of_nat (S n) = 10 * 10 ^ Z.of_nat n) by (rewrite Nat2Z.inj_succ, Z.pow_succ_r; lia).
    pose proof (H 0 ltac:(lia)) as H0. change (10 ^ 0) with 1 in H0. rewrite !Z.div_1_r in H0.
    assert (Q : a / 10 = b / 10).
    { apply IH.
      - split; [apply Z.div_pos; lia|apply Z.div_lt_upper_bound; lia].
      - split; [apply Z.div_pos; lia|apply Z.div_lt_upper_bound; lia].
      - intros i I. rewrite !Z.div_div by lia. replace (10 * 10 ^ i) with (10 ^ (i + 1)) by (rewrite Z.pow_add_r by lia; lia). apply H. lia. }
    rewrite (Z.div_mod a 10), (Z.div_mod b 10), Q, H0 by lia. reflexivity.
Qed.
Lemma stamp_inj : forall a b, 0 <= a < 2 ^ 64 -> 0 <= b < 2 ^ 64 -> stamp a = stamp b -> a = b.
Proof.
  intros a b A B H. apply (digits_eq 20); change (10 ^ Z.of_nat 20) with 100000000000000000000; [lia|lia|].
  intros i I. unfold stamp in H. pose proof (fun I0 => ext_in_map H i I0) as X. cbv beta in X.
  assert (N : In i [19; 18; 17; 16; 15; 14; 13; 12; 11; 10; 9; 8; 7; 6; 5; 4; 3; 2; 1; 0]) by (clear - I; change (Z.of_nat 20) with 20 in I; cbn [In]; lia).
  specialize (X N). clear - X. lia.
Qed.
Lemma app_eq_len : forall {A} (a b c d : list A), length a = length c -> a ++ b = c ++ d -> a = c /\ b = d.
Proof.
  intros A. induction a as [|x a IH]; intros b [|y c] d L E; cbn [app length] in *; try discriminate; [auto|].
  injection E as -> E. destruct (IH b c d ltac:(lia) E) as (-> & ->). auto.
Qed.
Lemma result_name_inj : forall dir ext s t, 0 <= fst s < 2 ^ 64 -> 0 <= snd s < 2 ^ 64 -> 0 <= fst t < 2 ^ 64 -> 0 <= snd t < 2 ^ 64 ->
  result_name dir ext s = result_name dir ext t -> s = t.
Proof.
  intros dir ext (a, b) (c, d) A B C D E. cbn [fst snd] in *. unfold result_name in E. cbn [fst snd] in E. apply app_inv_head in E.
  pose proof (stamp_inj a c A C) as I1. pose proof (stamp_inj b d B D) as I2. pose proof (stamp_length a) as La. pose proof (stamp_length b) as Lb.
  pose proof (stamp_length c) as Lc. pose proof (stamp_length d) as Ld. revert I1 I2 La Lb Lc Ld E. generalize (stamp a) (stamp b) (stamp c) (stamp d). intros sa sb sc sd I1 I2 La Lb Lc Ld E.
  apply app_eq_len in E; [|congruence]. destruct E as (E1 & E2). apply app_inv_head in E2. apply app_eq_len in E2; [|congruence].
  destruct E2 as (E2 & _). f_equal; auto.
Qed.
Lemma temp_not_result : forall dir ext start s, temp_name dir start <> result_name dir ext s.
Proof.
  intros dir ext start s E. apply (f_equal (@length Z)) in E. unfold temp_name, result_name in E. rewrite !app_length, !stamp_length in E. cbn [length] in E. unfold ext_incomplete in E. cbn [length] in E. lia.
Qed.

Definition in_range (s : Z * Z) : Prop := 0 <= fst s < 2 ^ 64 /\ 0 <= snd s < 2 ^ 64.

Lemma write_fresh : forall dir ext start l f, Forall in_range (map fst l) -> NoDup (map fst l) -> (forall s, In s (map fst l) -> f (result_name dir ext s) = None) ->
  exists f', write_samples dir ext start l f = (f', map (result_name dir ext) (map fst l), true) /\
    (forall s, In s l -> f' (result_name dir ext (fst s)) = Some (snd s)) /\ (l <> [] -> f' (temp_name dir start) = None) /\
    (forall n, n <> temp_name dir start -> ~ In n (map (result_name dir ext) (map fst l)) -> f' n = f n).
Proof.
  intros dir ext start. induction l as [|(t, text) l IH]; intros f R N F; cbn [write_samples map] in *.
  - exists f. split; [reflexivity|]. split; [intros s []|]. split; [congruence|auto].
  - cbn [fst] in *. inversion R as [|? ? R1 R2]; subst. inversion N as [|? ? N1 N2]; subst.
    rewrite put_other by (apply not_eq_sym, temp_not_result). rewrite (F t) by (cbn [In]; auto).
    set (f1 := put (put (put f (temp_name dir start) (Some text)) (result_name dir ext t) (Some text)) (temp_name dir start) None).
    assert (F1 : forall n, n <> temp_name dir start -> n <> result_name dir ext t -> f1 n = f n).
    { intros n A B. unfold f1. now rewrite !put_other by assumption. }
    destruct (IH f1 R2 N2) as (f' & E & A & B & C).
    { intros s I. rewrite F1; [apply F; now right|apply not_eq_sym, temp_not_result|]. intros EQ. apply result_name_inj in EQ.
      - congruence.
      - rewrite Forall_forall in R2. apply (R2 s I).
      - rewrite Forall_forall in R2. apply (R2 s I).
      - apply R1.
      - apply R1. }
    rewrite E. exists f'. split; [reflexivity|].
    assert (T1 : f1 (temp_name dir start) = None) by apply put_same.
    assert (NR : ~ In (result_name dir ext t) (map (result_name dir ext) (map fst l))).
    { intros I. apply in_map_iff in I. destruct I as (s & EQ & I). apply result_name_inj in EQ; try (rewrite Forall_forall in R2; apply (R2 s I)); try apply R1. congruence. }
    split; [|split].
    + intros s [<-|I]; [|now apply A]. cbn [fst snd]. rewrite C; [|apply not_eq_sym, temp_not_result|exact NR].
      unfold f1. rewrite put_other by (apply not_eq_sym, temp_not_result). apply put_same.
    + intros _. destruct l as [|x l]; [|apply B; discriminate]. cbn [write_samples] in E. injection E as <-. exact T1.
    + intros n X Y. cbn [In] in Y. rewrite C by tauto. apply F1; [exact X|]. intros ->. tauto.
Qed.

(** ** Schedule *)
Lemma total_mono : forall delta m n, (forall k, 0 < delta k) -> (m < n)%nat -> total delta m < total delta n.
Proof.
  intros delta m n P L. induction L as [|n L IH]; cbn [total]; [pose proof (P (S m)); lia|pose proof (P (S n)); lia].
Qed.
Lemma total_mono_le : forall delta m n, (forall k, 0 < delta k) -> (m <= n)%nat -> total delta m <= total delta n.
Proof. intros delta m n P L. destruct (Nat.eq_dec m n) as [->|X]; [lia|]. pose proof (total_mono delta m n P ltac:(lia)). lia. Qed.
Lemma pieces_bounds : forall l n a b r, 0 < n -> pieces n a b l -> In r l -> a <= fst r < b.
Proof.
  induction l as [|(x, y) l IH]; intros n a b r N P I; [destruct P|]. cbn [pieces] in P. destruct l as [|z l].
  - destruct I as [<-|[]]. cbn [fst]. lia.
  - destruct P as (-> & -> & P). destruct I as [<-|I].
    + cbn [fst]. assert (G : a + n < b). { destruct z as (u, v). pose proof (IH n (a + n) b (u, v) N P (or_introl eq_refl)) as X. destruct l; cbn [pieces] in P; cbn [fst] in X; lia. } lia.
    + pose proof (IH n (a + n) b r N P I). lia.
Qed.
Lemma pieces_NoDup : forall l n a b, 0 < n -> pieces n a b l -> NoDup (map fst l).
Proof.
  induction l as [|(x, y) l IH]; intros n a b N P; cbn [map]; [constructor|]. cbn [fst]. cbn [pieces] in P. destruct l as [|z l].
  - constructor; [intros []|constructor].
  - destruct P as (-> & -> & P). constructor; [|exact (IH _ _ _ N P)]. intros I. apply in_map_iff in I. destruct I as (r & E & I).
    pose proof (pieces_bounds _ _ _ _ r N P I). lia.
Qed.
