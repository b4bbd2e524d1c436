(** Raw output, choice of the output, time offset for debugging, privilege for binding to an interface (C163-C166). *)
From Coq Require Import String ZArith List Bool Lia.
From Coq Require Import ZifyBool.
From Verif Require Import Double Double_Proofs Ping_Model Misc_Model Options_Spec.
Import ListNotations.
Open Scope Z_scope.

Local Arguments chars s%string.

(** * Specification *)

(** splitting a text at a character *)
Fixpoint split (c : Z) (s : list Z) : list (list Z) :=
  match s with
  | [] => [[]]
  | x :: r => if x =? c then [] :: split c r else
              match split c r with w :: ws => (x :: w) :: ws | [] => [[x]] end
  end.

(** the words of the lines of a text in which each line is ended by a newline *)
Definition table (s : list Z) : list (list (list Z)) := map (split 32) (removelast (split 10 s)).

(** the number that a word of decimal digits stands for *)
Definition number (w : list Z) : option Z :=
  if forallb (fun c => (48 <=? c) && (c <=? 57)) w then Some (fold_left (fun a c => 10 * a + (c - 48)) w 0) else None.

(** a word says a number *)
Definition says (w : list Z) (n : Z) : Prop := w <> [] /\ number w = Some n.

(** the eight words of a record *)
Definition tells (g : Z -> Z -> list Z) (r : record) (ws : list (list Z)) : Prop :=
  match ws with
  | [w1; w2; w3; w4; w5; w6; w7; w8] =>
      says w1 (r_seq r) /\ says w2 (at_time (r_send r)) /\ says w3 (at_sync (r_send r)) /\
      w4 = g (at_mult (r_send r)) (at_scale (r_send r)) /\ says w5 (at_time (r_recv r)) /\ says w6 (at_sync (r_recv r)) /\
      w7 = g (at_mult (r_recv r)) (at_scale (r_recv r)) /\ says w8 (r_ttl r)
  | _ => False
  end.

(** the values that a record holds *)
Definition stamp_ok (t : tstamp) : Prop := 0 <= at_time t < 2^64 /\ 0 <= at_sync t < 2^8.
Definition rec_ok (r : record) : Prop := 0 <= r_seq r < 2^32 /\ stamp_ok (r_send r) /\ stamp_ok (r_recv r) /\ 0 <= r_ttl r < 2^8.

(** what "%g" writes has no blank and no newline *)
Definition word_ok (w : list Z) : Prop := ~ In 32 w /\ ~ In 10 w.

(** * Raw output *)

Definition digit_c (c : Z) : Prop := 48 <= c <= 57.

Lemma split_word : forall c w, ~ In c w -> split c w = [w].
Proof.
  induction w as [|x w IH]; intros A; [reflexivity|]. simpl. simpl in A.
  rewrite (proj2 (Z.eqb_neq x c)) by (intro; subst; apply A; left; reflexivity).
  rewrite IH by tauto. reflexivity.
Qed.

Lemma split_at : forall c w s, ~ In c w -> split c (w ++ c :: s) = w :: split c s.
Proof.
  induction w as [|x w IH]; intros s A; simpl; [rewrite Z.eqb_refl; reflexivity|]. simpl in A.
  rewrite (proj2 (Z.eqb_neq x c)) by (intro; subst; apply A; left; reflexivity).
  rewrite IH by tauto. reflexivity.
Qed.

Lemma digits_val : forall k n, 0 <= n < 10 ^ Z.of_nat (S k) ->
  Forall digit_c (print_digits k n) /\ print_digits k n <> [] /\ fold_left (fun a c => 10 * a + (c - 48)) (print_digits k n) 0 = n.
Proof.
  induction k as [|k IH]; intros n A.
  - change (10 ^ Z.of_nat 1) with 10 in A. cbn [print_digits].
    rewrite (Z.mod_small n 10) by lia. split; [|split].
    + constructor; [unfold digit_c; lia|constructor].
    + discriminate.
    + cbn [fold_left]. lia.
  - cbn [print_digits]. destruct (Z.ltb_spec n 10).
    + split; [|split].
      * constructor; [unfold digit_c; lia|constructor].
      * discriminate.
      * cbn [fold_left]. lia.
    + assert (B : 0 <= n / 10 < 10 ^ Z.of_nat (S k)).
      { split; [apply Z.div_pos; lia|]. apply Z.div_lt_upper_bound; [lia|].
        replace (10 * 10 ^ Z.of_nat (S k)) with (10 ^ Z.of_nat (S (S k))); [lia|].
        rewrite (Nat2Z.inj_succ (S k)), Z.pow_succ_r by lia. reflexivity. }
      destruct (IH _ B) as (D1 & D2 & D3). pose proof (Z.mod_pos_bound n 10 ltac:(lia)).
      split; [|split].
      * apply Forall_app. split; [exact D1|]. constructor; [unfold digit_c; lia|constructor].
      * destruct (print_digits k (n / 10)); discriminate.
      * rewrite fold_left_app, D3. cbn [fold_left]. pose proof (Z.div_mod n 10 ltac:(lia)). lia.
Qed.

Lemma forall_number : forall w, Forall digit_c w -> number w = Some (fold_left (fun a c => 10 * a + (c - 48)) w 0).
Proof.
  intros w A. unfold number. rewrite (proj2 (forallb_forall _ w)); [reflexivity|].
  intros x I. rewrite Forall_forall in A. specialize (A x I). unfold digit_c in A. lia.
Qed.

Lemma digits_word : forall w, Forall digit_c w -> word_ok w.
Proof. intros w A. rewrite Forall_forall in A. split; intro I; specialize (A _ I); unfold digit_c in A; lia. Qed.

Lemma print_says : forall n, 0 <= n < 2^64 -> says (print_u n) n /\ word_ok (print_u n).
Proof.
  intros n A. unfold print_u. destruct (digits_val 20 n) as (D1 & D2 & D3).
  { split; [lia|]. change (10 ^ Z.of_nat 21) with 1000000000000000000000. lia. }
  split; [|apply digits_word; exact D1]. split; [exact D2|]. rewrite forall_number by exact D1. congruence.
Qed.

Lemma stamp_says : forall n, 0 <= n < 2^64 -> says (stamp n) n /\ word_ok (stamp n).
Proof.
  intros n A. assert (F : Forall digit_c (stamp n)).
  { unfold stamp. rewrite Forall_forall. intros x I. apply in_map_iff in I. destruct I as (i & E & _). subst x.
    pose proof (Z.mod_pos_bound (n / 10 ^ i) 10 ltac:(lia)). unfold digit_c. lia. }
  split; [|apply digits_word; exact F]. split; [unfold stamp; discriminate|].
  rewrite forall_number by exact F. f_equal. unfold stamp. cbn [map fold_left].
  assert (E : forall i, 0 <= i -> n / 10 ^ i = 10 * (n / 10 ^ (i + 1)) + n / 10 ^ i mod 10).
  { intros i Hi. rewrite Z.pow_add_r, Z.pow_1_r, <- Z.div_div by (try lia; apply Z.pow_nonzero; lia).
    apply Z.div_mod. lia. }
  pose proof (E 0 ltac:(lia)); pose proof (E 1 ltac:(lia)); pose proof (E 2 ltac:(lia)); pose proof (E 3 ltac:(lia));
  pose proof (E 4 ltac:(lia)); pose proof (E 5 ltac:(lia)); pose proof (E 6 ltac:(lia)); pose proof (E 7 ltac:(lia));
  pose proof (E 8 ltac:(lia)); pose proof (E 9 ltac:(lia)); pose proof (E 10 ltac:(lia)); pose proof (E 11 ltac:(lia));
  pose proof (E 12 ltac:(lia)); pose proof (E 13 ltac:(lia)); pose proof (E 14 ltac:(lia)); pose proof (E 15 ltac:(lia));
  pose proof (E 16 ltac:(lia)); pose proof (E 17 ltac:(lia)); pose proof (E 18 ltac:(lia)); pose proof (E 19 ltac:(lia)).
  assert (Z20 : n / 10 ^ (19 + 1) = 0) by (apply Z.div_small; change (10 ^ (19 + 1)) with 100000000000000000000; lia).
  assert (Z0 : n / 10 ^ 0 = n) by (change (10 ^ 0) with 1; apply Z.div_1_r).
  clear E F.
  change (0 + 1) with 1 in *; change (1 + 1) with 2 in *; change (2 + 1) with 3 in *; change (3 + 1) with 4 in *;
  change (4 + 1) with 5 in *; change (5 + 1) with 6 in *; change (6 + 1) with 7 in *; change (7 + 1) with 8 in *;
  change (8 + 1) with 9 in *; change (9 + 1) with 10 in *; change (10 + 1) with 11 in *; change (11 + 1) with 12 in *;
  change (12 + 1) with 13 in *; change (13 + 1) with 14 in *; change (14 + 1) with 15 in *; change (15 + 1) with 16 in *;
  change (16 + 1) with 17 in *; change (17 + 1) with 18 in *; change (18 + 1) with 19 in *; change (19 + 1) with 20 in *.
  repeat match goal with |- context [n / 10 ^ ?i mod 10] => generalize dependent (n / 10 ^ i mod 10); intros end.
  repeat match goal with H : context [n / 10 ^ ?i] |- _ => generalize dependent (n / 10 ^ i); intros end.
  lia.
Qed.

Lemma raw_words_free : forall g r, (forall m s, word_ok (g m s)) -> rec_ok r -> ~ In 10 (raw_words g r).
Proof.
  intros g r G ((A1 & A2) & (B1 & B2) & (C1 & C2) & D).
  unfold raw_words, Misc_Model.blank. rewrite !in_app_iff. cbn [In].
  pose proof (proj2 (proj2 (print_says (r_seq r) ltac:(lia)))). pose proof (proj2 (proj2 (stamp_says _ B1))).
  pose proof (proj2 (proj2 (print_says _ ltac:(split; [apply B2|lia])))).
  pose proof (proj2 (proj2 (stamp_says _ C1))).
  pose proof (proj2 (proj2 (print_says (at_sync (r_recv r)) ltac:(lia)))).
  pose proof (proj2 (proj2 (print_says (at_sync (r_send r)) ltac:(lia)))).
  pose proof (proj2 (proj2 (print_says (r_ttl r) ltac:(lia)))).
  pose proof (proj2 (G (at_mult (r_send r)) (at_scale (r_send r)))).
  pose proof (proj2 (G (at_mult (r_recv r)) (at_scale (r_recv r)))).
  intuition discriminate.
Qed.

Lemma raw_words_split : forall g r, (forall m s, word_ok (g m s)) -> rec_ok r ->
  exists l w, tells g r (l ++ [w]) /\ split 32 (raw_words g r) = l ++ [w] /\
    forall s, split 32 (raw_words g r ++ 32 :: s) = l ++ w :: split 32 s.
Proof.
  intros g r G ((A1 & A2) & (B1 & B2) & (C1 & C2) & D).
  destruct (print_says (r_seq r) ltac:(lia)) as (S1 & W1). destruct (stamp_says _ B1) as (S2 & W2).
  destruct (print_says (at_sync (r_send r)) ltac:(lia)) as (S3 & W3).
  destruct (stamp_says _ C1) as (S5 & W5).
  destruct (print_says (at_sync (r_recv r)) ltac:(lia)) as (S6 & W6).
  destruct (print_says (r_ttl r) ltac:(lia)) as (S8 & W8).
  exists [print_u (r_seq r); stamp (at_time (r_send r)); print_u (at_sync (r_send r)); g (at_mult (r_send r)) (at_scale (r_send r));
     stamp (at_time (r_recv r)); print_u (at_sync (r_recv r)); g (at_mult (r_recv r)) (at_scale (r_recv r))], (print_u (r_ttl r)).
  unfold raw_words, Misc_Model.blank.
  generalize dependent (print_u (r_seq r)). generalize dependent (stamp (at_time (r_send r))).
  generalize dependent (print_u (at_sync (r_send r))). generalize dependent (stamp (at_time (r_recv r))).
  generalize dependent (print_u (at_sync (r_recv r))). generalize dependent (print_u (r_ttl r)).
  intros w8 S8 W8 w6 S6 W6 w5 S5 W5 w3 S3 W3 w2 S2 W2 w1 S1 W1.
  pose proof (G (at_mult (r_send r)) (at_scale (r_send r))) as W4. pose proof (G (at_mult (r_recv r)) (at_scale (r_recv r))) as W7.
  unfold word_ok in *.
  split; [|split].
  - cbn [app tells]. tauto.
  - cbn [app]. rewrite !split_at by tauto. rewrite split_word by tauto. reflexivity.
  - intros s. repeat rewrite <- app_assoc. cbn [app]. rewrite !split_at by tauto. reflexivity.
Qed.

Lemma removelast_cons : forall (A : Type) (x : A) l, l <> [] -> removelast (x :: l) = x :: removelast l.
Proof. intros A x [|y l] H; [congruence|reflexivity]. Qed.

Lemma split_nonempty : forall c s, split c s <> [].
Proof. induction s as [|x s IH]; simpl; [discriminate|]. destruct (x =? c); [discriminate|]. destruct (split c s); discriminate. Qed.

Lemma table_line : forall l s, ~ In 10 l -> table (l ++ 10 :: s) = split 32 l :: table s.
Proof. intros l s A. unfold table. rewrite split_at by exact A. rewrite removelast_cons by apply split_nonempty. reflexivity. Qed.

(** C163: a raw output is a table with one line for each record, in their order, from whose words all numbers of the
    records can be read *)
Theorem C163_raw : forall g l, (forall m s, word_ok (g m s)) -> Forall rec_ok l ->
  Forall2 (tells g) l (table (raw_output g l)).
Proof.
  intros g l G. induction l as [|r l IH]; intros A; [constructor|].
  inversion A as [|? ? A1 A2]; subst. unfold raw_output. cbn [flat_map]. unfold printraw at 1, newline.
  rewrite <- app_assoc. cbn [app]. rewrite table_line by (apply raw_words_free; assumption).
  constructor; [|apply IH; exact A2].
  destruct (raw_words_split g r G A1) as (l' & w & T & E & _). rewrite E. exact T.
Qed.

Theorem C163_raw_twoway : forall g l, (forall m s, word_ok (g m s)) -> Forall (fun r => rec_ok (fst r) /\ rec_ok (snd r)) l ->
  Forall2 (fun r ws => exists a b, ws = a ++ b /\ tells g (fst r) a /\ tells g (snd r) b) l (table (raw_output_tw g l)).
Proof.
  intros g l G. induction l as [|r l IH]; intros A; [constructor|].
  inversion A as [|? ? A1 A2]; subst. destruct A1 as (R1 & R2). unfold raw_output_tw. cbn [flat_map]. unfold printrawTW at 1, newline, Misc_Model.blank.
  replace ((raw_words g (fst r) ++ [32] ++ raw_words g (snd r) ++ [10]) ++ flat_map (printrawTW g) l)
    with ((raw_words g (fst r) ++ 32 :: raw_words g (snd r)) ++ 10 :: flat_map (printrawTW g) l)
    by (rewrite <- !app_assoc; cbn [app]; rewrite <- ?app_assoc; reflexivity).
  pose proof (raw_words_free g _ G R1). pose proof (raw_words_free g _ G R2).
  rewrite table_line by (rewrite in_app_iff; cbn [In]; intuition discriminate).
  constructor; [|apply IH; exact A2].
  destruct (raw_words_split g _ G R1) as (l1 & w1 & T1 & E1 & F1). destruct (raw_words_split g _ G R2) as (l2 & w2 & T2 & E2 & _).
  exists (l1 ++ [w1]), (l2 ++ [w2]). split; [|split; assumption]. rewrite F1, E2, <- app_assoc. reflexivity.
Qed.

Definition c163_g (m s : Z) : list Z := chars "1e-05".
Example C163_case : exists r, rec_ok r /\ (forall m s, word_ok (c163_g m s)) /\
  raw_output c163_g [r] = chars "7 17000000000000000042 1 1e-05 17000000000000000099 0 1e-05 255" ++ [10].
Proof.
  exists (Rec 7 (Stamp 17000000000000000042 1 3 4) (Stamp 17000000000000000099 0 3 4) 255).
  split; [|split].
  - unfold rec_ok, stamp_ok. cbn. lia.
  - intros m s. unfold word_ok, c163_g. split; vm_compute; intuition discriminate.
  - vm_compute. reflexivity.
Qed.

(** * Choice of the output *)

Lemma fold_flags : forall l o, let r := fold_left set_flag l o in
  (o_v4 r = true <-> o_v4 o = true \/ In F4 l) /\ (o_v6 r = true <-> o_v6 o = true \/ In F6 l) /\
  (o_records r = true <-> o_records o = true \/ In Fv l) /\ (o_machine r = true <-> o_machine o = true \/ In FM l) /\
  (o_quiet r = true <-> o_quiet o = true \/ In FQ l) /\ (o_raw r = true <-> o_raw o = true \/ In FR l).
Proof.
  induction l as [|f l IH]; intros o; cbn [fold_left In]; [tauto|].
  specialize (IH (set_flag o f)). cbv zeta in *. destruct IH as (I1 & I2 & I3 & I4 & I5 & I6).
  rewrite I1, I2, I3, I4, I5, I6. clear.
  destruct f; cbn; repeat split; intros; repeat match goal with H : _ \/ _ |- _ => destruct H end; subst; try discriminate; tauto.
Qed.

(** what is shown, said with the options that occur *)
Definition wanted (l : list flag) (out : list output) : Prop :=
  (In FR l -> out = [Raw_lines]) /\
  (~ In FR l -> In FQ l -> out = []) /\
  (~ In FR l -> ~ In FQ l -> In FM l -> out = [Machine_summary]) /\
  (~ In FR l -> ~ In FQ l -> ~ In FM l -> In Fv l -> out = [Packet_lines; Summary]) /\
  (~ In FR l -> ~ In FQ l -> ~ In FM l -> ~ In Fv l -> out = [Summary]).

(** C164 *)
Theorem C164_output : forall l,
  match read_flags l with
  | None => In F4 l /\ In F6 l
  | Some o => ~ (In F4 l /\ In F6 l) /\ wanted l (shown o)
  end.
Proof.
  intros l. unfold read_flags. pose proof (fold_flags l (Opts false false false false false false)) as F.
  cbv zeta in F. set (r := fold_left set_flag l (Opts false false false false false false)) in *. clearbody r.
  destruct r as [a b c d e f]. cbn in F. unfold settle. cbn.
  destruct F as (F1 & F2 & F3 & F4' & F5 & F6').
  assert (T : forall (x : bool) (P : Prop), (x = true <-> false = true \/ P) -> if x then P else ~ P)
    by (clear; intros [|] P (U & V); [destruct (U eq_refl) as [W|W]; [discriminate|exact W]|intros W; discriminate (V (or_intror W))]).
  apply T in F1; apply T in F2; apply T in F3; apply T in F4'; apply T in F5; apply T in F6'.
  unfold wanted, shown, do_stats_output. clear T.
  destruct a, b; cbn; [split; assumption| | |]; (split; [intros (X & Y); contradiction|]);
    destruct c, d, e, f; cbn in *; repeat split; intros; first [reflexivity|contradiction].
Qed.

(** order and repetition of the options do not matter *)
Theorem C164_order : forall l m, (forall f, In f l <-> In f m) -> option_map shown (read_flags l) = option_map shown (read_flags m).
Proof.
  intros l m E. pose proof (C164_output l) as A. pose proof (C164_output m) as B.
  destruct (read_flags l) as [o|], (read_flags m) as [p|]; cbn.
  - destruct A as (_ & A), B as (_ & B). unfold wanted in *.
    rewrite <- (E FR), <- (E FQ), <- (E FM), <- (E Fv) in B.
    assert (D : forall f, In f l \/ ~ In f l).
    { intros f. destruct (in_dec (fun x y : flag => ltac:(decide equality) : {x = y} + {x <> y}) f l); [left|right]; assumption. }
    f_equal. destruct A as (A1 & A2 & A3 & A4 & A5), B as (B1 & B2 & B3 & B4 & B5).
    destruct (D FR) as [R|R]; [rewrite (A1 R), (B1 R); reflexivity|].
    destruct (D FQ) as [Q|Q]; [rewrite (A2 R Q), (B2 R Q); reflexivity|].
    destruct (D FM) as [M|M]; [rewrite (A3 R Q M), (B3 R Q M); reflexivity|].
    destruct (D Fv) as [V|V]; [rewrite (A4 R Q M V), (B4 R Q M V)|rewrite (A5 R Q M V), (B5 R Q M V)]; reflexivity.
  - rewrite <- (E F4), <- (E F6) in B. destruct A as (A & _). contradiction.
  - destruct B as (B & _). rewrite <- (E F4), <- (E F6) in B. contradiction.
  - reflexivity.
Qed.

(** the messages besides the results are left out exactly with -Q or -R *)
Theorem C164_quiet : forall l o, read_flags l = Some o -> (o_quiet o = true <-> In FQ l \/ In FR l).
Proof.
  intros l o. unfold read_flags. pose proof (fold_flags l (Opts false false false false false false)) as F.
  cbv zeta in F. set (r := fold_left set_flag l (Opts false false false false false false)) in *. clearbody r.
  destruct r as [a b c d e f]. cbn in F. destruct F as (_ & _ & _ & _ & F5 & F6'). unfold settle. cbn [o_v4 o_v6 o_raw o_quiet].
  destruct (a && b); [discriminate|]. intros E. injection E as <-. cbn [o_quiet].
  destruct f, e; intuition congruence.
Qed.

Example C164_case : (option_map shown (read_flags [FM; FQ; FR; Fv]) = Some [Raw_lines]) /\ read_flags [F6; Fv; F4] = None /\
  option_map shown (read_flags [Fv; F4]) = Some [Packet_lines; Summary].
Proof. repeat split. Qed.

(** * Time offset *)

(** microseconds of a time of day *)
Definition micros (t : Z * Z) : Z := fst t * 1000000 + snd t.
Definition tod_ok (t : Z * Z) : Prop := 0 <= snd t < 1000000.
(** a finite double at most 2^53 or with a fraction: n / 2^k with n below 2^53 *)
Definition double (m : Z * Z) : Prop := exists k, 0 <= k /\ 0 <= fst m < 2^53 /\ snd m = 2^k.

Lemma offset_parts : forall m, double m ->
  let sec := d_trunc m in let usec := d_trunc (d_mul (d_sub m (d_int sec)) (d_int 1000000)) in
  0 <= sec /\ 0 <= usec < 1000000 /\
  - (2^20 + 1) * snd m <= 2^20 * ((sec * 1000000 + usec) * snd m - fst m * 1000000) <= snd m.
Proof.
  intros [n d] (k & K & N & D). cbn [fst snd] in *. cbv zeta. change (d_trunc (n, d)) with (n / d).
  assert (DP : 0 < d) by (subst d; apply pow2_pos; exact K).
  set (sec := n / d). assert (S0 : 0 <= sec) by (apply Z.div_pos; lia).
  assert (S1 : sec <= n) by (apply Z.div_le_upper_bound; nia).
  pose proof (b64_int sec ltac:(lia)) as I. unfold d_sub, d_mul, d_int, d_trunc. cbn [fst snd].
  pose proof (b64_den sec 1) as ID. destruct (b64 sec 1) as [ps qs] eqn:E. cbn [fst snd] in *. subst ps.
  (* the fraction *)
  set (f := n - sec * d). assert (F : 0 <= f < d) by (unfold f, sec; pose proof (Z.mod_pos_bound n d DP); pose proof (Z.div_mod n d ltac:(lia)); lia).
  replace (n * qs - sec * qs * d) with (f * qs) by (unfold f; ring).
  assert (FK : f * 2^53 <= (2^53 - 1) * d).
  { destruct (Z.le_gt_cases k 53).
    - replace (2^53) with (d * 2^(53 - k)) by (subst d; rewrite <- Z.pow_add_r by lia; f_equal; lia).
      pose proof (pow2_pos (53 - k) ltac:(lia)). nia.
    - assert (2^54 <= d) by (subst d; apply Z.pow_le_mono_r; lia).
      assert (f <= n) by (unfold f; nia). lia. }
  pose proof (b64_err (f * qs) (d * qs) ltac:(nia) ltac:(nia)) as E1.
  pose proof (b64_nonneg (f * qs) (d * qs) ltac:(nia) ltac:(nia)) as N1.
  pose proof (b64_den (f * qs) (d * qs)) as D1.
  pose proof (b64_mono (f * qs) (d * qs) (2^53 - 1) (2^53) ltac:(nia) ltac:(lia) ltac:(nia) ltac:(lia) ltac:(nia)) as M1.
  destruct (b64 (f * qs) (d * qs)) as [p1 q1]. cbn [fst snd] in *.
  replace (b64 (2^53 - 1) (2^53)) with (2^53 - 1, 2^53) in M1 by (vm_compute; reflexivity). cbn [fst snd] in M1.
  assert (E1' : - (f * q1) <= 2^53 * (p1 * d - f * q1) <= f * q1).
  { replace (- (f * qs * q1)) with (- (f * q1) * qs) in E1 by ring.
    replace (2^53 * (p1 * (d * qs) - f * qs * q1)) with (2^53 * (p1 * d - f * q1) * qs) in E1 by ring.
    replace (f * qs * q1) with (f * q1 * qs) in E1 by ring. destruct E1 as (X & Y).
    apply Z.mul_le_mono_pos_r in X; [|exact ID]. apply Z.mul_le_mono_pos_r in Y; [|exact ID]. split; assumption. }
  clear E1.
  replace (b64 1000000 1) with (1000000 * 2^33, 2^33) by (vm_compute; reflexivity). cbn [fst snd].
  pose proof (b64_err (p1 * (1000000 * 2^33)) (q1 * 2^33) ltac:(nia) ltac:(nia)) as E2.
  pose proof (b64_nonneg (p1 * (1000000 * 2^33)) (q1 * 2^33) ltac:(nia) ltac:(nia)) as N2.
  pose proof (b64_den (p1 * (1000000 * 2^33)) (q1 * 2^33)) as D2.
  pose proof (b64_mono (p1 * (1000000 * 2^33)) (q1 * 2^33) ((2^53 - 1) * 1000000) (2^53) ltac:(nia) ltac:(lia) ltac:(nia) ltac:(lia) ltac:(nia)) as M2.
  destruct (b64 (p1 * (1000000 * 2^33)) (q1 * 2^33)) as [p2 q2]. cbn [fst snd] in *.
  assert (M2' : p2 < 1000000 * q2).
  { replace (b64 ((2^53 - 1) * 1000000) (2^53)) with (8589934591999999, 2^33) in M2 by (vm_compute; reflexivity). cbn [fst snd] in M2. lia. }
  assert (E2' : - (p1 * 1000000 * q2) <= 2^53 * (p2 * q1 - p1 * 1000000 * q2) <= p1 * 1000000 * q2).
  { change (2^33) with 8589934592 in E2. clear - E2. lia. }
  clear E2 M2.
  set (u := p2 / q2). pose proof (Z.div_mod p2 q2 ltac:(lia)) as Q1. pose proof (Z.mod_pos_bound p2 q2 D2) as Q2. fold u in Q1.
  assert (UR : 0 <= u < 1000000) by (split; [apply Z.div_pos; assumption|apply Z.div_lt_upper_bound; [exact D2|rewrite Z.mul_comm; exact M2']]).
  set (r := p2 mod q2) in *. clearbody u r sec.
  split; [exact S0|]. split; [exact UR|].
  replace (2 ^ 20 * ((sec * 1000000 + u) * d - n * 1000000)) with (2^20 * (u * d - f * 1000000)) by (unfold f; ring).
  assert (U : 2^106 * (u * d) <= (2^53 + 1) * (2^53 + 1) * (f * 1000000)).
  { assert (X1 : 2^53 * (p2 * q1) <= (2^53 + 1) * (p1 * 1000000 * q2)) by lia.
    assert (X2 : 2^53 * (p1 * d) <= (2^53 + 1) * (f * q1)) by lia.
    assert (X3 : u * q2 <= p2) by (clear - Q1 Q2; lia).
    assert (X4 : u * q2 * (q1 * d) <= p2 * (q1 * d)) by (apply Z.mul_le_mono_nonneg_r; [clear - D1 DP; nia|exact X3]).
    assert (X5 : 2^53 * (p2 * q1) * d <= (2^53 + 1) * (p1 * 1000000 * q2) * d) by (apply Z.mul_le_mono_nonneg_r; [lia|exact X1]).
    assert (X6 : 2^53 * (p1 * d) * (1000000 * q2) <= (2^53 + 1) * (f * q1) * (1000000 * q2)) by (apply Z.mul_le_mono_nonneg_r; [lia|exact X2]).
    assert (X7 : 2^106 * (u * d) * (q1 * q2) <= (2^53 + 1) * (2^53 + 1) * (f * 1000000) * (q1 * q2)).
    { replace (2^106) with (2^53 * 2^53) by reflexivity. clear - X4 X5 X6. lia. }
    apply Z.mul_le_mono_pos_r in X7; [exact X7|clear - D1 D2; nia]. }
  assert (L : (2^53 - 1) * (2^53 - 1) * (f * 1000000) <= 2^106 * ((u + 1) * d)).
  { assert (X1 : (2^53 - 1) * (p1 * 1000000 * q2) <= 2^53 * (p2 * q1)) by lia.
    assert (X2 : (2^53 - 1) * (f * q1) <= 2^53 * (p1 * d)) by lia.
    assert (X3 : p2 <= (u + 1) * q2) by (clear - Q1 Q2; lia).
    assert (X4 : p2 * (q1 * d) <= (u + 1) * q2 * (q1 * d)) by (apply Z.mul_le_mono_nonneg_r; [clear - D1 DP; nia|exact X3]).
    assert (X5 : (2^53 - 1) * (p1 * 1000000 * q2) * d <= 2^53 * (p2 * q1) * d) by (apply Z.mul_le_mono_nonneg_r; [lia|exact X1]).
    assert (X6 : (2^53 - 1) * (f * q1) * (1000000 * q2) <= 2^53 * (p1 * d) * (1000000 * q2)) by (apply Z.mul_le_mono_nonneg_r; [lia|exact X2]).
    assert (X7 : (2^53 - 1) * (2^53 - 1) * (f * 1000000) * (q1 * q2) <= 2^106 * ((u + 1) * d) * (q1 * q2)).
    { replace (2^106) with (2^53 * 2^53) by reflexivity. clear - X4 X5 X6. lia. }
    apply Z.mul_le_mono_pos_r in X7; [exact X7|clear - D1 D2; nia]. }
  clearbody f. clear - U L F. split; lia.
Qed.

(** the clock after a shift *)
Lemma shift_micros : forall sign sec usec tod, tod_ok tod -> 0 <= usec < 1000000 ->
  tod_ok (shift_clock (sign, sec, usec) tod) /\ micros (shift_clock (sign, sec, usec) tod) = micros tod + Z.sgn sign * (sec * 1000000 + usec).
Proof.
  intros sign sec usec [a b] T U. unfold tod_ok, micros, shift_clock, tvaladd, tvalsub in *. cbn [fst snd] in *.
  destruct (Z.ltb_spec 0 sign); [|destruct (Z.ltb_spec sign 0)].
  - rewrite Z.sgn_pos by lia. destruct (Z.leb_spec 1000000 (b + usec)); cbn [fst snd]; lia.
  - rewrite Z.sgn_neg by lia. destruct (Z.ltb_spec (b - usec) 0); cbn [fst snd]; lia.
  - assert (sign = 0) by lia. subst. cbn. lia.
Qed.

(** the value of the variable in microseconds, as numerator over the denominator of the magnitude *)
Definition signed (neg : bool) (m : Z) : Z := if neg then - m else m.

(** C165 (partial: every number that is accepted is used, to a microsecond; whether it is accepted also depends on
    errno, and text behind it is ignored) *)
Theorem C165_offset_partial : forall erange sign neg m follows sets off tod, double m -> tod_ok tod ->
  init_offset erange sign (Some (Number neg m follows sets)) = Some off ->
  let now := shift_clock off tod in
  tod_ok now /\
  2^20 * Z.abs ((micros now - micros tod) * snd m - signed neg (fst m) * 1000000) <= (2^20 + 1) * snd m.
Proof.
  intros erange sign neg m follows sets off tod Dm T E. cbv zeta. unfold init_offset in E.
  destruct (erange || sets); [discriminate|]. destruct (Z.eqb_spec (fst m) 0) as [Z0|Z0].
  - injection E as <-. change (shift_clock (0, 0, 0) tod) with tod. split; [exact T|]. destruct Dm as (k & K & _ & D).
    pose proof (pow2_pos k K). rewrite Z0, D, Z.sub_diag. destruct neg; cbn [signed]; rewrite ?Z.opp_0, !Z.mul_0_l, Z.sub_diag; cbn [Z.abs]; lia.
  - destruct (offset_parts m Dm) as (P1 & P2 & P3). injection E as <-.
    set (sec := d_trunc m) in *. set (usec := d_trunc (d_mul (d_sub m (d_int sec)) (d_int 1000000))) in *.
    destruct (shift_micros (if neg then -1 else 1) sec usec tod T P2) as (S1 & S2). split; [exact S1|]. rewrite S2.
    clearbody sec usec. clear - P3. destruct neg; cbn [signed Z.sgn].
    + replace ((micros tod + -1 * (sec * 1000000 + usec) - micros tod) * snd m - - fst m * 1000000)
        with (- ((sec * 1000000 + usec) * snd m - fst m * 1000000)) by ring. lia.
    + replace ((micros tod + 1 * (sec * 1000000 + usec) - micros tod) * snd m - fst m * 1000000)
        with ((sec * 1000000 + usec) * snd m - fst m * 1000000) by ring. lia.
Qed.

(** without the variable the clock is the clock of the system, whatever came before *)
Theorem C165_unset : forall erange sign off tod, tod_ok tod -> init_offset erange sign None = Some off -> shift_clock off tod = tod.
Proof.
  intros erange sign off [a b] T E. injection E as <-. unfold shift_clock, tvaladd, tvalsub, tod_ok in *. cbn [fst snd] in *.
  destruct (0 <? sign); [|destruct (sign <? 0); [|reflexivity]]; rewrite ?Z.add_0_r, ?Z.sub_0_r.
  - destruct (Z.leb_spec 1000000 b); [lia|reflexivity].
  - destruct (Z.ltb_spec b 0); [lia|reflexivity].
Qed.

(** the same value is refused or accepted: errno of an earlier call decides *)
Theorem C165_errno_refuted : exists v off, init_offset false 0 (Some v) = Some off /\ init_offset true 0 (Some v) = None /\
  exists m, v = Number false m false false /\ double m.
Proof.
  exists (Number false (5, 2) false false), (1, 2, 500000). split; [vm_compute; reflexivity|]. split; [reflexivity|].
  exists (5, 2). split; [reflexivity|]. exists 1. cbn. lia.
Qed.

(** a value with text behind the number is accepted *)
Theorem C165_text_refuted : exists m off, init_offset false 0 (Some (Number false m true false)) = Some off.
Proof. exists (5, 1), (1, 5, 0). vm_compute. reflexivity. Qed.

Example C165_case : exists off, init_offset false 0 (Some (Number true (11, 8) false false)) = Some off /\ double (11, 8) /\
  shift_clock off (1000, 200000) = (998, 825000) /\ shift_clock (1, 5, 999999) (7, 1) = (13, 0).
Proof. exists (-1, 1, 375000). repeat split; try (vm_compute; reflexivity). exists 3. cbn. lia. Qed.

(** * Privileges *)

Definition all_well (c : cap_calls) : Prop := c_name c = true /\ c_get c = true /\ c_flag c = true /\ c_set c = true.

(** C166 (partial: for a process without the privilege and if the changes succeed; see the refutations) *)
Theorem C166_bind_partial : forall a r bind e during after res, interface_bind a r bind e = (during, after, res) ->
  (forall x, x <> net_raw -> during x = e x /\ after x = e x) /\ res = bind during /\
  (all_well a -> during net_raw = true) /\
  (all_well r -> after net_raw = false) /\
  (all_well r -> e net_raw = false -> forall x, after x = e x) /\
  (after net_raw = true -> ~ all_well r).
Proof.
  intros a r bind e during after res E. unfold interface_bind in E.
  destruct (set_capability a net_raw true e) as [e1 b1] eqn:E1. destruct (set_capability r net_raw false e1) as [e2 b2] eqn:E2.
  injection E as <- <- <-.
  assert (K : forall c on s s' b, set_capability c net_raw on s = (s', b) ->
    (forall x, x <> net_raw -> s' x = s x) /\ (all_well c -> s' net_raw = on)).
  { clear. intros c on s s' b E. unfold set_capability in E. unfold all_well.
    destruct (c_name c), (c_get c), (c_flag c), (c_set c); cbn [negb] in E; injection E as <- <-;
      split; try (intros; reflexivity); try (intros (? & ? & ? & ?); discriminate).
    intros x N. rewrite (proj2 (Z.eqb_neq x net_raw) N). reflexivity. }
  destruct (K _ _ _ _ _ E1) as (K1 & K2). destruct (K _ _ _ _ _ E2) as (K3 & K4).
  split; [intros x N; rewrite (K3 x N), (K1 x N); split; reflexivity|]. split; [reflexivity|].
  split; [exact K2|]. split; [exact K4|]. split.
  - intros W F x. destruct (Z.eq_dec x net_raw) as [->|N]; [rewrite (K4 W), F; reflexivity|]. rewrite (K3 x N), (K1 x N). reflexivity.
  - intros T W. rewrite (K4 W) in T. discriminate.
Qed.

Definition well : cap_calls := Calls true true true true true.

(** a process that has the privilege (owampd or powstream run by root) loses it with the first session *)
Theorem C166_lost_refuted : exists a r bind e during after,
  all_well a /\ all_well r /\ interface_bind a r bind e = (during, after, true) /\ e net_raw = true /\ after net_raw = false.
Proof.
  exists well, well, (fun c => c net_raw), (fun _ => true). eexists. eexists.
  unfold all_well, interface_bind, set_capability. cbn. repeat split.
Qed.

(** the privilege stays if it cannot be given up, and the result does not tell *)
Theorem C166_kept_refuted : exists a r bind e during after,
  interface_bind a r bind e = (during, after, true) /\ e net_raw = false /\ after net_raw = true.
Proof.
  exists well, (Calls true false true true true), (fun c => c net_raw), (fun _ => false). eexists. eexists.
  unfold interface_bind, set_capability. cbn. repeat split.
Qed.

Example C166_case : exists during after, interface_bind well well (fun c => c net_raw) (fun x => x =? 5) = (during, after, true) /\
  during net_raw = true /\ after net_raw = false /\ after 5 = true.
Proof. eexists. eexists. unfold interface_bind, set_capability. cbn. repeat split. Qed.

Print Assumptions C163_raw.
Print Assumptions C163_raw_twoway.
Print Assumptions C164_output.
Print Assumptions C164_order.
Print Assumptions C164_quiet.
Print Assumptions C165_offset_partial.
Print Assumptions C165_unset.
Print Assumptions C165_errno_refuted.
Print Assumptions C165_text_refuted.
Print Assumptions C166_bind_partial.
Print Assumptions C166_lost_refuted.
Print Assumptions C166_kept_refuted.
