(** Property theorems about the resources of an endpoint and the sizes it computes: C147-C149 *)
From Coq Require Import ZArith List Bool Arith Lia ZifyBool ZifyNat.
From Verif Require Import Base Arith_Model Double Double_Proofs Clean_Model Size_Model Size_Proofs Endpoint_Model.
Import ListNotations.
Open Scope Z_scope.

(** ** C147: what an endpoint acquires is given back *)

(** how often a resource was acquired and given back *)
Fixpoint got (r : res) (l : list event) : nat := match l with [] => 0 | Got x :: l => (if res_eqb x r then 1 else 0) + got r l | Gone _ :: l => got r l end.
Fixpoint gone (r : res) (l : list event) : nat := match l with [] => 0 | Gone x :: l => (if res_eqb x r then 1 else 0) + gone r l | Got _ :: l => gone r l end.
(** nothing is given back that is not held, nothing is acquired twice (the latest event is the first) *)
Fixpoint sane (l : list event) : Prop := match l with [] => True | Gone x :: l => got x l = S (gone x l) /\ sane l | Got x :: l => got x l = 0%nat /\ sane l end.

Definition all_res := [RRec; RPayload; RSock; RLost; RHash; RUser; RDup; RData; RFbuff; RPath; RSkipfd; RSkip; RHmac].
Fixpoint saneb (l : list event) : bool := match l with [] => true | Gone x :: l => Nat.eqb (got x l) (S (gone x l)) && saneb l | Got x :: l => Nat.eqb (got x l) 0 && saneb l end.
Lemma saneb_spec : forall l, saneb l = true -> sane l.
Proof. induction l as [|[x|x] l IH]; cbn [saneb sane]; intros H; auto; apply andb_true_iff in H; destruct H as (H1 & H2); apply Nat.eqb_eq in H1; auto. Qed.
Definition tidyb (except : res -> bool) (s : life) : bool := saneb (fst s) && forallb (fun r => Nat.eqb (got r (fst s)) (gone r (fst s)) || except r) all_res.
Definition tidy (except : res -> bool) (s : life) : Prop := sane (fst s) /\ forall r, except r = false -> got r (fst s) = gone r (fst s).
Lemma tidyb_spec : forall e s, tidyb e s = true -> tidy e s.
Proof.
  intros e s H. apply andb_true_iff in H. destruct H as (H1 & H2). split; [apply saneb_spec, H1|]. intros r E. rewrite forallb_forall in H2. specialize (H2 r).
  rewrite E, orb_false_r in H2. apply Nat.eqb_eq, H2. destruct r; cbn; tauto.
Qed.

(** the state after steps that succeed *)
Definition after (x : step) (s : life) : life :=
  match x with
  | Try => s
  | Get r => acquire r s
  | DropPath => release s RPath
  | Turn => (Got RData :: Gone RDup :: fst s, RData :: filter (fun x => negb (res_eqb RDup x)) (snd s))
  end.
Definition run (l : list step) (s : life) : life := fold_left (fun s x => after x s) l s.
Lemma steps_run : forall fail l i s ok s', steps fail l i s = (ok, s') ->
  if ok then s' = run l s else exists k x, nth_error l k = Some x /\ x <> DropPath /\ fail (i + k)%nat = true /\ s' = run (firstn k l) s.
Proof.
  intros fail. induction l as [|x l IH]; intros i s ok s' E; cbn [steps] in E; [injection E as <- <-; reflexivity|].
  destruct (match x with DropPath => false | _ => fail i end) eqn:F.
  - injection E as <- <-. exists 0%nat, x. split; [reflexivity|]. rewrite Nat.add_0_r. destruct x; try discriminate; (split; [discriminate|]); split; auto; reflexivity.
  - apply IH in E. destruct ok; [exact E|]. destruct E as (k & y & E1 & E2 & E3 & E4). exists (S k), y. split; [exact E1|]. split; [exact E2|]. split; [rewrite <- Nat.add_succ_comm; exact E3|exact E4].
Qed.

Definition is_turn (x : option step) : bool := match x with Some Turn => true | _ => false end.
Definition dup_only (b : bool) (r : res) : bool := match r with RDup => b | _ => false end.
(** what is left after a failure of step [k] of _OWPEndpointInit *)
Definition failed (c : want) (k : nat) : life := let s := run (firstn k (init_steps c)) ([], []) in if holds (snd s) RRec then endpoint_free (anon_error s) else s.
Lemma failed_tidy : forall c k, (k < length (init_steps c))%nat -> tidyb (dup_only (is_turn (nth_error (init_steps c) k))) (failed c k) = true.
Proof.
  intros c k L. assert (G : forallb (fun k => tidyb (dup_only (is_turn (nth_error (init_steps c) k))) (failed c k)) (seq 0 (length (init_steps c))) = true)
    by (destruct c as [[] [] [] [] [] []]; vm_compute; reflexivity).
  rewrite forallb_forall in G. apply G, in_seq. lia.
Qed.
Lemma done_tidy : forall c, let s := run (init_steps c) ([], []) in
  tidyb (fun _ => false) (endpoint_free s) = true /\ tidyb (fun _ => false) (endpoint_free (endpoint_clear s)) = true /\
  tidyb (fun _ => false) (endpoint_free (acquire RHmac s)) = true /\ tidyb (fun _ => false) (endpoint_free (endpoint_clear (acquire RHmac s))) = true.
Proof. intros c. destruct c as [[] [] [] [] [] []]; vm_compute; auto. Qed.
Lemma tries : forall fail i s, snd (steps fail hook_steps i s) = s.
Proof. intros. unfold hook_steps. cbn [steps]. repeat (destruct (fail _); [reflexivity|]). reflexivity. Qed.

(** Missing: the claim when fdopen fails, see [C147_descriptor_refuted].  For every role, every point of failure while the endpoint is prepared and while its process is started:
    in the end all that was acquired was given back, once, and nothing else was. *)
Theorem C147_released_partial : forall fail1 fail2 c hooked,
  (forall k, nth_error (init_steps c) k = Some Turn -> fail1 k = false) -> tidy (fun _ => false) (whole fail1 fail2 c hooked).
Proof.
  intros fail1 fail2 c hooked T. unfold whole, init. destruct (steps fail1 (init_steps c) 0 ([], [])) as [ok s] eqn:E. apply steps_run in E. destruct ok.
  - subst s. destruct (done_tidy c) as (D1 & D2 & D3 & D4). apply tidyb_spec in D1, D2, D3, D4. destruct hooked; [|exact D1]. unfold hook. destruct (crypt c) eqn:C; cbn [andb].
    + destruct (fail2 0%nat); [exact D1|]. pose proof (tries fail2 1 (acquire RHmac (run (init_steps c) ([], [])))) as P. destruct (steps fail2 hook_steps 1 _) as [[] s]; cbn [snd] in P; subst s; assumption.
    + pose proof (tries fail2 1 (run (init_steps c) ([], []))) as P. destruct (steps fail2 hook_steps 1 _) as [[] s]; cbn [snd] in P; subst s; assumption.
  - destruct E as (k & x & E1 & E2 & E3 & ->). fold (failed c k). assert (L : (k < length (init_steps c))%nat) by (apply nth_error_Some; congruence). pose proof (failed_tidy c k L) as F.
    rewrite E1 in F. apply tidyb_spec in F. assert (NT : is_turn (Some x) = false) by (destruct x; try reflexivity; cbn [Nat.add] in E3; rewrite (T k E1) in E3; discriminate).
    rewrite NT in F. destruct F as (F1 & F2). split; [exact F1|]. intros r _. apply F2. destruct r; reflexivity.
Qed.

(** the stream of the caller is never closed: a file is only closed if it was opened here *)
Theorem C147_own_file : forall fail1 fail2 c hooked, given c = true -> gone RUser (fst (whole fail1 fail2 c hooked)) = 0%nat.
Proof.
  intros fail1 fail2 c hooked G. unfold whole, init. destruct (steps fail1 (init_steps c) 0 ([], [])) as [ok s] eqn:E. apply steps_run in E. destruct ok.
  - subst s. assert (PP : let s := run (init_steps c) ([], []) in let P s := gone RUser (fst s) = 0%nat in
      P (endpoint_free s) /\ P (endpoint_free (endpoint_clear s)) /\ P (endpoint_free (acquire RHmac s)) /\ P (endpoint_free (endpoint_clear (acquire RHmac s))))
      by (destruct c as [[] [] [] [] [] []]; try discriminate; vm_compute; auto).
    destruct PP as (D1 & D2 & D3 & D4). destruct hooked; [|exact D1]. unfold hook. destruct (crypt c) eqn:C; cbn [andb].
    + destruct (fail2 0%nat); [exact D1|]. pose proof (tries fail2 1 (acquire RHmac (run (init_steps c) ([], [])))) as Q. destruct (steps fail2 hook_steps 1 _) as [[] s]; cbn [snd] in Q; subst s; assumption.
    + pose proof (tries fail2 1 (run (init_steps c) ([], []))) as Q. destruct (steps fail2 hook_steps 1 _) as [[] s]; cbn [snd] in Q; subst s; assumption.
  - destruct E as (k & x & E1 & E2 & E3 & ->). fold (failed c k). assert (L : (k < length (init_steps c))%nat) by (apply nth_error_Some; congruence).
    assert (G2 : forallb (fun k => Nat.eqb (gone RUser (fst (failed c k))) 0) (seq 0 (length (init_steps c))) = true) by (destruct c as [[] [] [] [] [] []]; try discriminate; vm_compute; reflexivity).
    rewrite forallb_forall in G2. apply Nat.eqb_eq, G2, in_seq. lia.
Qed.

(** Refuted when fdopen fails: the duplicated descriptor of the session file is never closed. *)
Theorem C147_descriptor_refuted : exists fail1 fail2 c hooked, let s := whole fail1 fail2 c hooked in got RDup (fst s) = 1%nat /\ gone RDup (fst s) = 0%nat /\ gone RRec (fst s) = 1%nat.
Proof. exists (fun i => Nat.eqb i 14), (fun _ => false), (Want false false true false false false), true. vm_compute. auto. Qed.

(** a receiver in encrypted mode that runs to its end *)
Example C147_witness : rev (fst (whole (fun _ => false) (fun _ => false) (Want false false true false true true) true)) =
  [Got RRec; Got RPayload; Got RSock; Got RLost; Got RHash; Got RUser; Got RDup; Gone RDup; Got RData; Got RFbuff; Got RHmac;
   Gone RSock; Gone RPayload; Gone RHmac; Gone RHash; Gone RLost; Gone RData; Gone RFbuff; Gone RUser; Gone RRec].
Proof. reflexivity. Qed.

(** ** C148: memory for packets in flight *)

Definition sum_of (l : list Z) : Z := fold_right Z.add 0 l.

Lemma trunc_near_gen : forall x n d l1 l2 u1 u2, near x n d l1 l2 u1 u2 -> 2^50 * u1 <= (2^50 + 1) * u2 -> (2^50 - 1) * l2 <= 2^50 * l1 ->
  d_trunc x * d * 2^50 <= n * (2^50 + 1) /\ n * (2^50 - 1) < (d_trunc x + 1) * d * 2^50.
Proof.
  intros [p q] n d l1 l2 u1 u2 (A1 & A2 & A3 & A4 & A5 & A6 & A7 & A8 & A9 & A10) K1 K2. unfold d_trunc. cbn [fst snd] in *.
  pose proof (Z.mul_nonneg_nonneg n q A3 ltac:(lia)) as N1.
  assert (LO : 2^50 * (p * d) <= (2^50 + 1) * (n * q)).
  { set (X := p * d) in *. set (Y := n * q) in *. clearbody X Y. apply (Z.mul_le_mono_pos_l _ _ u2); [lia|]. set (w := 2^50) in *. assert (0 < w) by (unfold w; lia). clearbody w.
    apply Z.le_trans with (w * (u1 * Y)); nia. }
  assert (HI : (2^50 - 1) * (n * q) <= 2^50 * (p * d)).
  { set (X := p * d) in *. set (Y := n * q) in *. clearbody X Y. apply (Z.mul_le_mono_pos_l _ _ l2); [lia|]. set (w := 2^50) in *. assert (0 < w) by (unfold w; lia). clearbody w.
    apply Z.le_trans with (w * (l1 * Y)); nia. }
  pose proof (Z.div_mod p q ltac:(lia)) as DM. pose proof (Z.mod_pos_bound p q A2) as MB. set (t := p / q) in *. set (r := p mod q) in *. clearbody t r. subst p.
  set (w := 2^50) in *. assert (1 < w) by (unfold w; lia). clearbody w. clear A9 A10 A5 A6 A7 A8. split.
  - apply (Z.mul_le_mono_pos_l _ _ q); [lia|]. apply Z.le_trans with (w * ((q * t + r) * d)); [|nia].
    replace (q * (t * d * w)) with (w * ((q * t) * d)) by ring. apply Z.mul_le_mono_nonneg_l; [lia|]. apply Z.mul_le_mono_nonneg_r; lia.
  - apply (Z.mul_lt_mono_pos_l q); [lia|]. apply Z.le_lt_trans with (w * ((q * t + r) * d)); [nia|].
    replace (q * ((t + 1) * d * w)) with (w * ((q * t + q) * d)) by ring. apply Z.mul_lt_mono_pos_l; [lia|]. apply Z.mul_lt_mono_pos_r; lia.
Qed.

Lemma near_records : forall l loss, l <> [] -> Z.of_nat (length l) < M32 -> Forall (fun x => 0 <= x) l -> 0 < zsum l < M64 -> 0 < loss ->
  exists l1 l2 u1 u2, near (d_mul (d_mul (packet_rate l) (num64_double loss)) (d_int 2)) (Z.of_nat (length l) * M32 * loss * 2) (zsum l * M32) l1 l2 u1 u2 /\
    2^50 * u1 <= (2^50 + 1) * u2 /\ (2^50 - 1) * l2 <= 2^50 * l1.
Proof.
  intros l loss NE HL F HS HP. pose proof (near_rate l NE HL F HS) as A. pose proof (near_num64 loss HP) as B. pose proof (near_exact 2 ltac:(lia)) as B2.
  pose proof (near_mul _ _ _ _ _ _ _ _ _ _ _ _ _ _ A B) as C. apply near_rounded in C.
  pose proof (near_mul _ _ _ _ _ _ _ _ _ _ _ _ _ _ C B2) as D. apply near_rounded in D. rewrite (Z.mul_1_r (zsum l * M32)) in D.
  eexists _, _, _, _. split; [exact D|]. split; vm_compute; discriminate.
Qed.

(** Missing: values that do not fit, see [C148_overflow_refuted].  With N slots of mean delays of sum S, and a loss timeout T (both in units of 2^-32 s), the receiver allocates records
    for the packets of twice the loss timeout, 2 T N / S, up to 2^-50 of it and to cutting off the fraction; and at least 100. *)
Theorem C148_records_partial : forall delays loss n, delays <> [] -> Z.of_nat (length delays) < 2^32 -> Forall (fun x => 0 <= x) delays -> 0 < sum_of delays < 2^64 -> 0 < loss ->
  num_records delays loss = Some n ->
  100 <= n < 2^32 /\
  let want := 2 * loss * Z.of_nat (length delays) in
  want * (2^50 - 1) < (n + 1) * sum_of delays * 2^50 /\ (100 < n -> n * sum_of delays * 2^50 <= want * (2^50 + 1)).
Proof.
  intros delays loss n NE L F HS LP E. assert (ZS : zsum delays = sum_of delays) by (clear; induction delays; cbn [zsum sum_of fold_right] in *; auto; unfold sum_of in IHdelays; lia).
  rewrite <- ZS in *. destruct (near_records delays loss NE L F HS LP) as (l1 & l2 & u1 & u2 & N & K1 & K2). destruct (trunc_near_gen _ _ _ _ _ _ _ N K1 K2) as (T1 & T2). clear N K1 K2.
  unfold num_records in E. set (v := d_trunc _) in *. clearbody v. destruct (Z.ltb_spec v M32) as [V|V]; [|discriminate]. assert (n = Z.max v 100) by congruence. subst n.
  split; [lia|]. cbv zeta. set (N := Z.of_nat (length delays)) in *. clearbody N. set (S := zsum delays) in *. clearbody S.
  assert (T1' : v * S * 2^50 <= 2 * loss * N * (2^50 + 1)).
  { apply (Z.mul_le_mono_pos_l _ _ M32); [lia|]. replace (M32 * (v * S * 2^50)) with (v * (S * M32) * 2^50) by ring. replace (M32 * (2 * loss * N * (2^50 + 1))) with (N * M32 * loss * 2 * (2^50 + 1)) by ring. exact T1. }
  assert (T2' : 2 * loss * N * (2^50 - 1) < (v + 1) * S * 2^50).
  { apply (Z.mul_lt_mono_pos_l M32); [lia|]. replace (M32 * ((v + 1) * S * 2^50)) with ((v + 1) * (S * M32) * 2^50) by ring. replace (M32 * (2 * loss * N * (2^50 - 1))) with (N * M32 * loss * 2 * (2^50 - 1)) by ring. exact T2. }
  split.
  - eapply Z.lt_le_trans; [exact T2'|]. apply Z.mul_le_mono_nonneg_r; [lia|]. apply Z.mul_le_mono_nonneg_r; lia.
  - intros G. replace (Z.max v 100) with v by lia. exact T1'.
Qed.

(** Refuted for long loss timeouts: with 1000 packets per second and a loss timeout of 30 days the number does not fit in its 32 bits, which is undefined; the client chooses both. *)
Theorem C148_overflow_refuted : exists delays loss, Forall (fun x => 0 < x < 2^64) delays /\ 0 < loss < 2^64 /\ num_records delays loss = None.
Proof. exists [4294967], (2592000 * 2^32). split; [repeat constructor; lia|]. split; [lia|]. vm_compute. reflexivity. Qed.

(** the first block of records for skips is for a tenth of the packets, at least 100 *)
Theorem C148_skips : forall np, 0 <= np < 2^32 -> 100 <= num_skips np <= Z.max 100 (np / 10 + 1) /\ np / 10 <= num_skips np.
Proof.
  intros np H. unfold num_skips. unfold d_mul, d_trunc. cbn [fst snd]. pose proof (b64_int np ltac:(lia)) as E. pose proof (b64_den np 1) as D. unfold d_int. destruct (b64 np 1) as [p q]. cbn [fst snd] in *. subst p.
  assert (LO : np / 10 * (2^55 * q) <= 3602879701896397 * (np * q)) by (pose proof (Z.mul_div_le np 10 ltac:(lia)); nia).
  assert (HI : 3602879701896397 * (np * q) <= (np / 10 + 1) * (2^55 * q)) by (pose proof (Z.mul_succ_div_gt np 10 ltac:(lia)); nia).
  assert (NN : 0 <= np / 10 < 2^32) by (split; [apply Z.div_pos; lia|apply Z.div_lt_upper_bound; lia]).
  pose proof (b64_ge_int (3602879701896397 * (np * q)) (2^55 * q) (np / 10) ltac:(lia) ltac:(lia) LO) as B1.
  pose proof (b64_le_int (3602879701896397 * (np * q)) (2^55 * q) (np / 10 + 1) ltac:(lia) ltac:(nia) ltac:(lia) HI) as B2.
  pose proof (b64_den (3602879701896397 * (np * q)) (2^55 * q)) as B3. destruct (b64 _ (2^55 * q)) as [a b]. cbn [fst snd] in *.
  assert (np / 10 <= a / b) by (apply Z.div_le_lower_bound; lia). assert (a / b <= np / 10 + 1) by (apply Z.div_le_upper_bound; lia). lia.
Qed.

Example C148_witness : num_records [429496730] (10 * 2^32) = Some 199 /\ num_skips 100000 = 10000.
Proof. split; vm_compute; reflexivity. Qed.

(** ** C149: the delay at the end *)

(** Missing: numbers that do not fit, see [C149_huge_refuted].  A delay x below 2^53 seconds becomes seconds and nanoseconds in their range, within one nanosecond of it
    (all in units of 2^-k s). *)
Theorem C149_end_delay_partial : forall n k, is_dbl (Frac n k) ->
  exists s ns, end_delay (Frac n k) = Some (s, ns) /\ 0 <= s /\ 0 <= ns < 10^9 /\ (s * 10^9 + ns - 1) * 2^k <= n * 10^9 < (s * 10^9 + ns + 1) * 2^k.
Proof.
  intros n k (HN & HK). cbn [end_delay]. eexists _, _. split; [reflexivity|]. assert (P : 0 < 2^k) by (apply Z.pow_pos_nonneg; lia).
  split; [apply Z.div_pos; lia|]. pose proof (Z.div_mod n (2^k) ltac:(lia)) as DM. pose proof (Z.mod_pos_bound n (2^k) P) as MB. set (r := n mod 2^k) in *. set (s := n / 2^k) in *. clearbody s.
  assert (RB : r * 2^53 <= (2^53 - 1) * 2^k).
  { destruct (Z.le_gt_cases k 53) as [K|K].
    - assert (2^k <= 2^53) by (apply Z.pow_le_mono_r; lia). nia.
    - assert (2^54 <= 2^k) by (apply Z.pow_le_mono_r; lia). assert (r <= n) by (apply Z.mod_le; lia). nia. }
  clearbody r. unfold d_mul, d_trunc. cbn [fst snd]. pose proof (b64_int 1000000000 ltac:(lia)) as E. pose proof (b64_den 1000000000 1) as D. unfold d_int. destruct (b64 1000000000 1) as [p q]. cbn [fst snd]. subst p.
  set (N := r * (1000000000 * q)). set (M := 2^k * q). assert (MP : 0 < M) by (unfold M; apply Z.mul_pos_pos; assumption). assert (NP : 0 <= N) by (unfold N; nia).
  pose proof (b64_den N M) as BD. pose proof (b64_nonneg N M NP MP) as BN.
  assert (UP : N * 2^53 <= (1000000000 * (2^53 - 1)) * M) by (unfold N, M; nia).
  pose proof (b64_mono N M (1000000000 * (2^53 - 1)) (2^53) NP ltac:(lia) MP ltac:(lia) UP) as BM.
  pose proof (b64_err N M NP MP) as BE.
  set (t := N / M). pose proof (Z.div_mod N M ltac:(lia)) as TM. fold t in TM. pose proof (Z.mod_pos_bound N M MP) as TB.
  assert (MT : t * M <= N <= (t + 1) * M) by (clear - TM TB; set (x := N mod M) in *; clearbody x; rewrite TM; split; lia).
  assert (T1 : 0 <= t < 10^9) by (split; [apply Z.div_pos; lia|apply Z.div_lt_upper_bound; [lia|]; change (2^53) with 9007199254740992 in UP; lia]).
  pose proof (b64_ge_int N M t ltac:(lia) MP (proj1 MT)) as G1. pose proof (b64_le_int N M (t + 1) ltac:(lia) NP MP (proj2 MT)) as G2.
  destruct (b64 N M) as [a b]. cbn [fst snd] in *.
  assert (V : b64 (1000000000 * (2^53 - 1)) (2^53) = (8388607999999999, 2^23)) by (vm_compute; reflexivity).
  rewrite V in BM. cbn [fst snd] in BM. change (2^23) with 8388608 in BM.
  assert (A1 : t <= a / b) by (apply Z.div_le_lower_bound; lia). assert (A2 : a / b <= t + 1) by (apply Z.div_le_upper_bound; lia).
  assert (A3 : a / b < 10^9) by (apply Z.div_lt_upper_bound; lia). set (ns := a / b) in *. clearbody ns. split; [lia|].
  assert (R1 : t * 2^k <= r * 1000000000 < (t + 1) * 2^k).
  { unfold N, M in *. split; [apply (Z.mul_le_mono_pos_r _ _ q); [lia|]; nia|apply (Z.mul_lt_mono_pos_r q); [lia|]; nia]. }
  change (10^9) with 1000000000 in *. clear - DM R1 A1 A2 P. set (w := 2^k) in *. clearbody w. subst n. split; nia.
Qed.

(** a whole number of seconds stays one *)
Theorem C149_whole_partial : forall n k, is_dbl (Whole n k) -> n * 2^k < 2^63 -> end_delay (Whole n k) = Some (n * 2^k, 0).
Proof. intros n k _ H. cbn [end_delay]. destruct (Z.ltb_spec (n * 2^k) (2^63)); [reflexivity|lia]. Qed.

(** Refuted for huge numbers: the configuration file may say "enddelay inf" or "enddelay 1e30"; the conversion to seconds is then undefined. *)
Theorem C149_huge_refuted : (delay_accepted Inf = true /\ end_delay Inf = None) /\ exists x, is_dbl x /\ x <> Inf /\ delay_accepted x = true /\ end_delay x = None.
Proof. split; [split; reflexivity|]. exists (Whole 1 100). split; [split; lia|]. split; [discriminate|]. split; reflexivity. Qed.

(** 0.1 s: the double is 7205759403792794 / 2^56 *)
Example C149_witness : is_dbl (Frac 7205759403792794 56) /\ end_delay (Frac 7205759403792794 56) = Some (0, 100000000).
Proof. split; [split; lia|]. vm_compute. reflexivity. Qed.

Print Assumptions C147_released_partial.
Print Assumptions C147_own_file.
Print Assumptions C147_descriptor_refuted.
Print Assumptions C148_records_partial.
Print Assumptions C148_overflow_refuted.
Print Assumptions C148_skips.
Print Assumptions C149_end_delay_partial.
Print Assumptions C149_whole_partial.
Print Assumptions C149_huge_refuted.
