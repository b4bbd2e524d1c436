(** Proofs about port range strings and the port search. *)
From Coq Require Import ZArith List Bool Lia ZifyBool ZifyNat.
From Verif Require Import Base Double Double_Proofs Port_Model Port_Spec.
Import ListNotations.
Open Scope Z_scope.
Ltac Zify.zify_post_hook ::= Z.div_mod_to_equations.

(** ** First port *)
Lemma d_int_exact : forall n, 0 <= n <= 2^53 -> 0 < snd (d_int n) /\ fst (d_int n) = n * snd (d_int n).
Proof.
  intros n Hn. unfold d_int. split; [apply b64_den|]. pose proof (b64_int n Hn). destruct (b64 n 1). exact H.
Qed.

(** upper bound of an operation: if n/d <= a/b then the result is at most (1+2^-53) a/b *)
Lemma b64_up : forall n d, 0 <= n -> 0 < d -> let (p, q) := b64 n d in 0 <= p /\ 0 < q /\ 2^53 * (p * d) <= (2^53 + 1) * (n * q).
Proof.
  intros n d Hn Hd. pose proof (b64_err n d Hn Hd) as E. pose proof (b64_den n d) as D. pose proof (b64_nonneg n d Hn Hd).
  destruct (b64 n d) as [p q]. cbn [fst snd] in *. repeat split; auto. lia.
Qed.

Lemma first_port_ok : forall low high r, 0 <= low <= high -> high <= 65535 -> high - low + 1 <= 65535 -> 0 <= r < 4294967295 ->
  exists p, first_port low high r = Some p /\ low <= p <= high.
Proof.
  intros low high r Hl Hh Hw Hr. unfold first_port.
  assert (Rg: range_of low high = high - low + 1) by (unfold range_of, u16; apply Z.mod_small; lia). rewrite Rg.
  set (n := high - low + 1) in *. assert (Hn: 1 <= n <= 65535) by lia.
  destruct (d_int_exact low ltac:(lia)) as [L1 L2]. destruct (d_int_exact r ltac:(lia)) as [R1 R2].
  destruct (d_int_exact 4294967295 ltac:(lia)) as [K1 K2]. destruct (d_int_exact n ltac:(lia)) as [N1 N2].
  (* quotient *)
  assert (Q: exists p1 q1, d_div (d_int r) (d_int 4294967295) = (p1, q1) /\ 0 <= p1 /\ 0 < q1 /\ 2^53 * (p1 * 4294967295) <= (2^53 + 1) * (r * q1)).
  { unfold d_div. set (a := d_int r) in *. set (b := d_int 4294967295) in *. rewrite R2, K2.
    pose proof (b64_up (r * snd a * snd b) (snd a * (4294967295 * snd b)) ltac:(nia) ltac:(nia)) as U.
    destruct (b64 _ _) as [p q]. destruct U as (U1 & U2 & U3). exists p, q. repeat split; auto.
    apply Z.mul_le_mono_pos_r with (p := snd a * snd b); [nia|]. lia. }
  destruct Q as (p1 & q1 & -> & P1 & Q1 & E1).
  (* product *)
  assert (Q: exists p2 q2, d_mul (p1, q1) (d_int n) = (p2, q2) /\ 0 <= p2 /\ 0 < q2 /\ 2^53 * (p2 * q1) <= (2^53 + 1) * (p1 * n * q2)).
  { unfold d_mul. cbn [fst snd]. set (c := d_int n) in *. rewrite N2.
    pose proof (b64_up (p1 * (n * snd c)) (q1 * snd c) ltac:(nia) ltac:(nia)) as U.
    destruct (b64 _ _) as [p q]. destruct U as (U1 & U2 & U3). exists p, q. repeat split; auto.
    apply Z.mul_le_mono_pos_r with (p := snd c); [lia|]. lia. }
  destruct Q as (p2 & q2 & -> & P2 & Q2 & E2).
  (* p2/q2 <= n * (1 - 2^-33) *)
  assert (B2: p2 * 2^33 <= n * q2 * (2^33 - 1)).
  { (* p1/q1 <= c1, c1 = (K-1)/K (1+eps) *)
    assert (A1: 2^53 * (p1 * 4294967295) <= (2^53 + 1) * (4294967294 * q1)) by nia.
    (* multiply E2 by 2^53 K *)
    assert (A2: (2^53 * (p2 * q1)) * (2^53 * 4294967295) <= (2^53 + 1) * (n * q2) * ((2^53 + 1) * (4294967294 * q1))).
    { replace ((2^53 + 1) * (p1 * n * q2)) with ((2^53 + 1) * (n * q2) * p1) in E2 by ring.
      assert (A3: (2^53 * (p2 * q1)) * (2^53 * 4294967295) <= (2^53 + 1) * (n * q2) * p1 * (2^53 * 4294967295)) by (apply Z.mul_le_mono_nonneg_r; [lia|exact E2]).
      assert (A4: (2^53 + 1) * (n * q2) * (2^53 * (p1 * 4294967295)) <= (2^53 + 1) * (n * q2) * ((2^53 + 1) * (4294967294 * q1))) by (apply Z.mul_le_mono_nonneg_l; [nia|exact A1]).
      lia. }
    assert (A5: p2 * (2^53 * 2^53 * 4294967295) <= n * q2 * ((2^53 + 1) * (2^53 + 1) * 4294967294)).
    { apply Z.mul_le_mono_pos_r with (p := q1); [lia|]. lia. }
    assert (C: ((2^53 + 1) * (2^53 + 1) * 4294967294) * 2^33 <= (2^33 - 1) * (2^53 * 2^53 * 4294967295)) by (vm_compute; discriminate).
    set (X := 2^53 * 2^53 * 4294967295) in *. set (Y := (2^53 + 1) * (2^53 + 1) * 4294967294) in *.
    assert (X0: 0 < X) by (vm_compute; reflexivity). clearbody X Y.
    apply Z.mul_le_mono_pos_r with (p := X); [lia|].
    assert (A6: p2 * X * 2^33 <= n * q2 * Y * 2^33) by lia.
    assert (A7: n * q2 * (Y * 2^33) <= n * q2 * ((2^33 - 1) * X)) by (apply Z.mul_le_mono_nonneg_l; [nia|exact C]). lia. }
  (* sum *)
  unfold d_add. cbn [fst snd]. set (a := d_int low) in *. rewrite L2.
  set (num := low * snd a * q2 + p2 * snd a). set (den := snd a * q2).
  assert (Hden: 0 < den) by (unfold den; nia). assert (Hnum: 0 <= num) by (unfold num; nia).
  pose proof (b64_up num den Hnum Hden) as U.
  pose proof (b64_ge_int num den low ltac:(lia) Hden ltac:(unfold num, den; nia)) as G.
  unfold d_trunc. destruct (b64 num den) as [p3 q3]. destruct U as (P3 & Q3 & E3). cbn [fst snd].
  assert (B3: p3 < (low + n) * q3).
  { unfold num, den in E3.
    assert (E4: 2^53 * (p3 * q2) <= (2^53 + 1) * ((low * q2 + p2) * q3)).
    { apply Z.mul_le_mono_pos_r with (p := snd a); [lia|]. lia. }
    (* (low q2 + p2) 2^33 <= q2 (low 2^33 + n (2^33-1)) *)
    assert (E5: (low * q2 + p2) * 2^33 <= q2 * ((low + n) * 2^33 - n)) by lia.
    assert (E6: 2^53 * (p3 * q2) * 2^33 <= (2^53 + 1) * q3 * (q2 * ((low + n) * 2^33 - n))).
    { assert ((2^53 + 1) * q3 * ((low * q2 + p2) * 2^33) <= (2^53 + 1) * q3 * (q2 * ((low + n) * 2^33 - n))) by (apply Z.mul_le_mono_nonneg_l; [nia|exact E5]). lia. }
    assert (E7: 2^53 * p3 * 2^33 <= (2^53 + 1) * q3 * ((low + n) * 2^33 - n)).
    { apply Z.mul_le_mono_pos_r with (p := q2); [lia|]. lia. }
    assert (E8: (2^53 + 1) * ((low + n) * 2^33 - n) < 2^53 * 2^33 * (low + n)) by lia.
    assert (E9: (2^53 + 1) * ((low + n) * 2^33 - n) * q3 < 2^53 * 2^33 * (low + n) * q3) by (apply Z.mul_lt_mono_pos_r; lia).
    lia. }
  assert (T1: low <= p3 / q3) by (apply Z.div_le_lower_bound; lia).
  assert (T2: p3 / q3 < low + n) by (apply Z.div_lt_upper_bound; lia).
  destruct (Z.ltb_spec (p3 / q3) 65536); [|lia]. exists (p3 / q3). split; [reflexivity|lia].
Qed.

(** the largest random number leads one port behind the range *)
Lemma first_port_last : forall low high, 0 <= low <= high -> high <= 65535 -> high - low + 1 <= 65535 ->
  first_port low high 4294967295 = if high =? 65535 then None else Some (high + 1).
Proof.
  intros low high Hl Hh Hw. unfold first_port.
  assert (Rg: range_of low high = high - low + 1) by (unfold range_of, u16; apply Z.mod_small; lia). rewrite Rg.
  set (n := high - low + 1) in *.
  replace (d_div (d_int 4294967295) (d_int 4294967295)) with (4503599627370496, 4503599627370496) by (vm_compute; reflexivity).
  destruct (d_int_exact low ltac:(lia)) as [L1 L2]. destruct (d_int_exact n ltac:(lia)) as [N1 N2].
  assert (Q: forall a b k, 0 <= k <= 2^53 -> 0 < b -> a = k * b -> 0 < snd (b64 a b) /\ fst (b64 a b) = k * snd (b64 a b)).
  { intros a b k Hk Hb ->. split; [apply b64_den|]. pose proof (b64_ge_int (k * b) b k Hk Hb ltac:(lia)). pose proof (b64_le_int (k * b) b k Hk ltac:(nia) Hb ltac:(lia)).
    destruct (b64 (k * b) b). cbn [fst snd]. lia. }
  set (K := 4503599627370496) in *.
  assert (M: 0 < snd (d_mul (K, K) (d_int n)) /\ fst (d_mul (K, K) (d_int n)) = n * snd (d_mul (K, K) (d_int n))).
  { unfold d_mul. cbn [fst snd]. apply Q; [lia|nia|]. rewrite N2. ring. }
  destruct M as [M1 M2].
  assert (S: 0 < snd (d_add (d_int low) (d_mul (K, K) (d_int n))) /\
     fst (d_add (d_int low) (d_mul (K, K) (d_int n))) = (low + n) * snd (d_add (d_int low) (d_mul (K, K) (d_int n)))).
  { unfold d_add. apply Q; [lia|nia|]. rewrite L2, M2. ring. }
  destruct S as [S1 S2]. unfold d_trunc. rewrite S2, Z.div_mul by lia.
  destruct (Z.eqb_spec high 65535), (Z.ltb_spec (low + n) 65536); try lia; auto. f_equal. lia.
Qed.

(** ** The loop *)
Lemma next_ok : forall low range k, 0 <= low -> 0 < range -> low + range <= 65536 -> 0 <= k < range ->
  next_port low range (low + k) = low + (if k + 1 =? range then 0 else k + 1).
Proof.
  intros low range k Hl Hr Hs Hk. unfold next_port, u16. replace (low + k - low) with k by lia. rewrite (Z.mod_small k) by lia.
  destruct (Z.eqb_spec (k + 1) range) as [<-|].
  - rewrite Z.rem_same by lia. rewrite Z.mod_0_l by lia. rewrite Z.add_0_l. rewrite Z.mod_small by lia. lia.
  - rewrite Z.rem_small by lia. rewrite (Z.mod_small (k + 1)) by lia. rewrite Z.mod_small by lia. lia.
Qed.

(** the ports in the order of the search: start, start+1, ..., end of the range, beginning of the range, ... *)
Definition nth_port (low range start : Z) (i : Z) : Z := low + (start - low + i) mod range.
Definition ports (low range start : Z) (n : nat) : list Z := map (fun i => nth_port low range start (Z.of_nat i)) (seq 0 n).

Lemma search_ok : forall bind low range start, 0 <= low -> 0 < range -> low + range <= 65536 -> low <= start < low + range ->
  forall m i fuel, (i + m)%nat = Z.to_nat range -> (m <= fuel)%nat -> (1 <= m)%nat ->
  exists j, (j < m)%nat /\
    let tr := ports low range start (i + j + 1) in
    let p := nth_port low range start (Z.of_nat (i + j)) in
    (forall t, (i <= t < i + j)%nat -> bind t (nth_port low range start (Z.of_nat t)) = BindInUse) /\
    match search fuel bind (Some low) range start (nth_port low range start (Z.of_nat i)) (ports low range start i) with
    | SBound q tried => q = p /\ tried = tr /\ bind (i + j)%nat p = BindOK
    | SFail tried => tried = tr /\ (bind (i + j)%nat p = BindOther \/ (bind (i + j)%nat p = BindInUse /\ j = (m - 1)%nat))
    | _ => False
    end.
Proof.
  intros bind low range start Hl Hr Hs Hst. induction m as [|m IH]; intros i fuel Hm Hf H1; [lia|].
  destruct fuel as [|fuel]; [lia|]. cbn [search].
  assert (Len: length (ports low range start i) = i) by (unfold ports; rewrite map_length, seq_length; auto). rewrite Len.
  assert (Ext: ports low range start i ++ [nth_port low range start (Z.of_nat i)] = ports low range start (i + 1)).
  { unfold ports. rewrite (Nat.add_comm i 1). change (1 + i)%nat with (S i). rewrite seq_S, map_app. reflexivity. }
  assert (Bd: low <= nth_port low range start (Z.of_nat i) < low + range).
  { unfold nth_port. pose proof (Z.mod_pos_bound (start - low + Z.of_nat i) range Hr). lia. }
  destruct (bind i (nth_port low range start (Z.of_nat i))) eqn:B.
  - exists 0%nat. rewrite !Nat.add_0_r. split; [lia|]. split; [lia|]. auto.
  - assert (Rz: (range =? 0) = false) by lia. rewrite Rz.
    assert (Nx: next_port low range (nth_port low range start (Z.of_nat i)) = nth_port low range start (Z.of_nat (i + 1))).
    { unfold nth_port. rewrite next_ok by (auto; apply Z.mod_pos_bound; lia). f_equal.
      replace (start - low + Z.of_nat (i + 1)) with (start - low + Z.of_nat i + 1) by lia.
      set (x := start - low + Z.of_nat i). pose proof (Z.mod_pos_bound x range Hr).
      destruct (Z.eqb_spec (x mod range + 1) range) as [e|e].
      - rewrite Z.add_mod by lia. destruct (Z.eq_dec range 1) as [->|]; [rewrite Z.mod_1_r; reflexivity|]. rewrite (Z.mod_small 1) by lia. rewrite e, Z.mod_same by lia. reflexivity.
      - rewrite Z.add_mod by lia. destruct (Z.eq_dec range 1) as [->|N1]; [exfalso; apply e; rewrite Z.mod_1_r; reflexivity|]. rewrite (Z.mod_small 1) by lia.
        set (y := x mod range) in *. clearbody y. symmetry. apply Z.mod_small. lia. }
    rewrite Nx.
    assert (Eq: (nth_port low range start (Z.of_nat (i + 1)) =? start) = (m =? 0)%nat).
    { unfold nth_port. destruct (Nat.eqb_spec m 0) as [->|Nz].
      - replace (start - low + Z.of_nat (i + 1)) with (start - low + 1 * range) by lia. rewrite Z.mod_add by lia. rewrite Z.mod_small by lia. lia.
      - apply Z.eqb_neq. intros C. set (k := Z.of_nat (i + 1)) in *. assert (0 < k < range) by lia.
        destruct (Z.ltb_spec (start - low + k) range); [rewrite Z.mod_small in C by lia; lia|].
        replace (start - low + k) with (start - low + k - range + 1 * range) in C by lia. rewrite Z.mod_add in C by lia. rewrite Z.mod_small in C by lia. lia. }
    rewrite Eq. destruct (Nat.eqb_spec m 0) as [->|Nz].
    + exists 0%nat. rewrite !Nat.add_0_r. split; [lia|]. split; [lia|]. auto.
    + rewrite Ext. destruct (IH (i + 1)%nat fuel ltac:(lia) ltac:(lia) ltac:(lia)) as (j & J1 & J2 & J3).
      exists (S j). replace (i + S j)%nat with (i + 1 + j)%nat by lia. split; [lia|]. split.
      * intros t Ht. destruct (Nat.eq_dec t i) as [->|]; [exact B|]. apply J2. lia.
      * destruct (search _ _ _ _ _ _ _) as [q tried|tried|tried|]; auto.
        destruct J3 as [J3 J4]. split; [exact J3|]. destruct J4 as [J4|[J4 J5]]; [left; exact J4|right; split; [exact J4|lia]].
  - exists 0%nat. rewrite !Nat.add_0_r. split; [lia|]. split; [lia|]. auto.
Qed.

Lemma nodup_map_in : forall (f : nat -> Z) l, NoDup l -> (forall x y, In x l -> In y l -> f x = f y -> x = y) -> NoDup (map f l).
Proof.
  induction l as [|a l IH]; intros N I; cbn [map]; [constructor|]. inversion N; subst. constructor.
  - intros C. apply in_map_iff in C. destruct C as (x & E & Hx). assert (x = a) by (apply I; [right; auto|left; auto|auto]). congruence.
  - apply IH; auto. intros x y Hx Hy. apply I; right; auto.
Qed.

Lemma ports_nodup : forall low range start n, 0 < range -> Z.of_nat n <= range -> NoDup (ports low range start n).
Proof.
  intros low range start n Hr Hn. unfold ports. apply nodup_map_in; [apply seq_NoDup|].
  intros x y Hx Hy E. apply in_seq in Hx, Hy. unfold nth_port in E.
  set (s := start - low) in *. clearbody s.
  assert (M: (s + Z.of_nat x) mod range = (s + Z.of_nat y) mod range) by lia.
  pose proof (Z.div_mod (s + Z.of_nat x) range ltac:(lia)). pose proof (Z.div_mod (s + Z.of_nat y) range ltac:(lia)).
  set (a := (s + Z.of_nat x) / range) in *. set (b := (s + Z.of_nat y) / range) in *. rewrite M in *. clearbody a b.
  assert (a = b) by nia. nia.
Qed.

Lemma ports_all : forall low range start q, 0 < range -> low <= start < low + range -> low <= q < low + range ->
  In q (ports low range start (Z.to_nat range)).
Proof.
  intros low range start q Hr Hs Hq. unfold ports. apply in_map_iff.
  exists (Z.to_nat ((q - start) mod range)). pose proof (Z.mod_pos_bound (q - start) range Hr) as B. split.
  - unfold nth_port. rewrite Z2Nat.id by lia. rewrite Z.add_mod_idemp_r by lia. replace (start - low + (q - start)) with (q - low) by lia.
    rewrite Z.mod_small by lia. lia.
  - apply in_seq. lia.
Qed.

(** ** Strings *)
Lemma take_digits_app : forall d r acc, Forall (fun c => 48 <= c <= 57) d -> no_digit r -> take_digits acc (d ++ r) = (value_from acc d, r).
Proof.
  induction d as [|c d IH]; intros r acc F N; cbn [app value_from].
  - destruct r as [|c r]; [reflexivity|]. cbn [take_digits]. unfold is_digit. cbn in N. destruct (Z.leb_spec 48 c), (Z.leb_spec c 57); cbn [andb]; auto; lia.
  - inversion F; subst. cbn [take_digits]. unfold is_digit at 1. assert ((48 <=? c) && (c <=? 57) = true) as -> by lia. apply IH; auto.
Qed.

Lemma take_digits_inv : forall s acc v r, take_digits acc s = (v, r) -> exists d, s = d ++ r /\ Forall (fun c => 48 <= c <= 57) d /\ v = value_from acc d /\ no_digit r.
Proof.
  induction s as [|c s IH]; intros acc v r E; cbn [take_digits] in E.
  - injection E as <- <-. exists []. cbn. auto.
  - unfold is_digit at 1 in E. destruct ((48 <=? c) && (c <=? 57)) eqn:Dg.
    + destruct (IH _ _ _ E) as (d & -> & F & V & N). exists (c :: d). cbn [app value_from]. repeat split; auto. constructor; auto. lia.
    + injection E as <- <-. exists []. cbn. repeat split; auto; lia.
Qed.

Lemma skip_space_app : forall sp s, space_string sp -> (match s with c :: _ => ~ (9 <= c <= 13 \/ c = 32) | [] => True end) -> skip_space (sp ++ s) = s.
Proof.
  induction sp as [|c sp IH]; intros s F N; cbn [app].
  - destruct s as [|c s]; [reflexivity|]. cbn [skip_space]. unfold is_space. destruct ((9 <=? c) && (c <=? 13) || (c =? 32)) eqn:E; auto. lia.
  - inversion F; subst. cbn [skip_space]. unfold is_space at 1. assert ((9 <=? c) && (c <=? 13) || (c =? 32) = true) as -> by lia. apply IH; auto.
Qed.

Lemma skip_space_inv : forall s, exists sp, s = sp ++ skip_space s /\ space_string sp /\ match skip_space s with c :: _ => ~ (9 <= c <= 13 \/ c = 32) | [] => True end.
Proof.
  induction s as [|c s IH]; cbn [skip_space].
  - exists []. repeat split. constructor.
  - unfold is_space. destruct ((9 <=? c) && (c <=? 13) || (c =? 32)) eqn:E.
    + destruct IH as (sp & I1 & I2 & I3). exists (c :: sp). cbn [app]. rewrite <- I1. repeat split; auto. constructor; auto. lia.
    + exists []. repeat split; [constructor|lia].
Qed.

Lemma value_from_nonneg : forall d acc, 0 <= acc -> Forall (fun c => 48 <= c <= 57) d -> acc <= value_from acc d.
Proof.
  induction d as [|c d IH]; intros acc A F; cbn [value_from]; [lia|]. inversion F; subst.
  specialize (IH (10 * acc + (c - 48)) ltac:(lia) ltac:(assumption)). lia.
Qed.

Lemma strtol_app : forall sg neg d r, sign_string sg neg -> digit_string d -> no_digit r ->
  strtol (sg ++ d ++ r) = Some (if neg then Z.max (- 9223372036854775808) (- value d) else Z.min 9223372036854775807 (value d), r).
Proof.
  intros sg neg d r S (D1 & D2) N. destruct d as [|c d]; [congruence|]. inversion D2; subst.
  assert (Dg: is_digit c = true) by (unfold is_digit; lia).
  assert (T: take_digits 0 ((c :: d) ++ r) = (value (c :: d), r)) by (apply take_digits_app; auto).
  unfold strtol. destruct S as [(-> & ->)|[(-> & ->)|(-> & ->)]].
  - cbn [app]. cbn [app] in T.
    assert (Cs: forall (A : Type) (x y : A), match c with 45 => x | 43 => y | _ => y end = y) by (intros; destruct c as [|p|p]; auto; do 6 (destruct p; auto); lia).
    assert (E: (match c :: d ++ r with 45 :: r0 => (true, r0) | 43 :: r0 => (false, r0) | _ => (false, c :: d ++ r) end) = (false, c :: d ++ r)).
    { clear -H1. destruct c as [|p|p]; auto. do 7 (destruct p as [p|p|]; auto; try lia). }
    rewrite E. rewrite Dg. rewrite T. reflexivity.
  - cbn [app]. cbn [app] in T. rewrite Dg. rewrite T. reflexivity.
  - cbn [app]. cbn [app] in T. rewrite Dg. rewrite T. reflexivity.
Qed.

Lemma strtol_inv : forall s v r, strtol s = Some (v, r) -> exists sg neg d, s = sg ++ d ++ r /\ sign_string sg neg /\ digit_string d /\ no_digit r /\
  v = if neg then Z.max (- 9223372036854775808) (- value d) else Z.min 9223372036854775807 (value d).
Proof.
  intros s v r E.
  assert (G: exists sg neg t, s = sg ++ t /\ sign_string sg neg /\ match t with c :: _ => if is_digit c then let '(v, r) := take_digits 0 t in
        Some (if neg then Z.max (- 9223372036854775808) (- v) else Z.min 9223372036854775807 v, r) else None | [] => None end = Some (v, r)).
  { unfold strtol in E. destruct s as [|c s]; [discriminate|].
    destruct (Z.eq_dec c 45) as [->|]; [exists [45], true, s; repeat split; auto; right; right; auto|].
    destruct (Z.eq_dec c 43) as [->|]; [exists [43], false, s; repeat split; auto; right; left; auto|].
    exists [], false, (c :: s). repeat split; auto; [left; auto|].
    assert (X: (match c :: s with 45 :: r0 => (true, r0) | 43 :: r0 => (false, r0) | _ => (false, c :: s) end) = (false, c :: s)).
    { clear E. destruct c as [|p|p]; auto. do 7 (destruct p as [p|p|]; auto; try lia). }
    rewrite X in E. exact E. }
  destruct G as (sg & neg & t & -> & Sg & G). destruct t as [|c t]; [discriminate|]. destruct (is_digit c) eqn:Dg; [|discriminate].
  destruct (take_digits 0 (c :: t)) as [v' r'] eqn:T. injection G as <- <-.
  apply take_digits_inv in T. destruct T as (d & T1 & T2 & T3 & T4). exists sg, neg, d. rewrite T1. repeat split; auto.
  - destruct d; [|discriminate]. cbn [app] in T1. subst r'. cbn in T4. unfold is_digit in Dg. lia.
  - unfold value. rewrite T3. reflexivity.
Qed.
