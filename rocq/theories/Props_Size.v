(** C74, C75: the properties on sizes of test packets and bandwidth. *)
From Coq Require Import ZArith List Bool Lia ZifyBool ZifyNat.
From Verif Require Import Base Arith_Model Double Double_Proofs Clean_Model Control_Model Packet_Model Size_Model Size_Spec Size_Proofs.
Import ListNotations.
Open Scope Z_scope.
Ltac Zify.zify_post_hook ::= Z.div_mod_to_equations.

Lemma modes_of : forall mode h, test_header mode h ->
  pad_offset mode = h /\ reply_pad_offset mode = (if h =? 14 then 41 else 112) /\
  (forall p, payload_size mode p = u32 (h + p)) /\ (forall p, tw_payload_size mode p = u32 ((if h =? 14 then 41 else 112) + p)) /\ (h = 14 \/ h = 48).
Proof.
  intros mode h [[[-> | ->] ->] | [[-> | ->] ->]]; repeat split; auto.
Qed.

(** ** C74: test packets stay inside the buffer allocated for them *)

(** Missing from the full claim: large paddings (see C74_packets_fit_refuted).  If header and padding together are fewer than 2^32 octets, all four processes
    (sender and receiver of one-way, reflector and client of two-way sessions) touch only octets of the buffer. *)
Theorem C74_packets_fit_partial : forall r mode h padding,
  test_header mode h -> 0 <= padding -> h + padding < 2^32 ->
  Forall (inside (buffer_size (is_twoway r) mode padding)) (accesses r mode padding).
Proof.
  intros r mode h padding T P B. destruct (modes_of mode h T) as (E1 & E2 & E3 & E4 & E5). unfold buffer_size, accesses. rewrite !E1, !E2, !E3, !E4, Z.add_0_r.
  change (2^32) with M32 in B. unfold u32, u64, inside. rewrite (Z.mod_small (h + padding)) by lia.
  destruct r; cbn [is_twoway app]; destruct E5 as [-> | ->]; cbn [Z.eqb Pos.eqb]; rewrite ?Z.add_0_r;
    repeat match goal with |- context [if ?b then _ else _] => destruct b eqn:? end;
    repeat (apply Forall_cons || apply Forall_nil); cbn [fst snd]; lia.
Qed.

(** For a sending process the condition is exact: it stays inside the buffer only if header and padding are fewer than 2^32 octets *)
Theorem C74_sender_exact_partial : forall r mode h padding,
  r = Sender \/ r = TwClient -> test_header mode h -> 0 <= padding < 2^32 ->
  (Forall (inside (buffer_size (is_twoway r) mode padding)) (accesses r mode padding) <-> h + padding < 2^32).
Proof.
  intros r mode h padding R T P. split; [|intro; eapply C74_packets_fit_partial; eauto; lia].
  intros F. destruct (Z.lt_ge_cases (h + padding) (2^32)) as [L | L]; [exact L|exfalso].
  destruct (modes_of mode h T) as (E1 & E2 & E3 & E4 & E5). unfold buffer_size, accesses in F. rewrite !E1, !E2, !E3, !E4, Z.add_0_r in F.
  change (2^32) with M32 in *. unfold u32, u64, inside in F.
  destruct R as [-> | ->]; cbn [is_twoway app] in F; apply Forall_cons_iff in F; destruct F as [_ F]; apply Forall_cons_iff in F; destruct F as [F _];
    cbn [fst snd] in F; destruct E5 as [-> | ->]; cbn [Z.eqb Pos.eqb] in F; lia.
Qed.

(** The check made before the buffer is allocated never refuses a session *)
Theorem C74_check_partial : forall twoway af mode padding, size_check twoway af mode padding = true.
Proof.
  intros. unfold size_check. set (x := if twoway then _ else _). clearbody x. unfold to_int, u32. destruct (Z.ltb_spec ((x + 128) mod M32) 2147483648); lia.
Qed.

(** A session with a padding of 2^32-1 octets passes the check; 13 octets are allocated, and the sender writes 2^32-1 octets from octet 14 on *)
Theorem C74_packets_fit_refuted : exists r af mode h padding,
  test_header mode h /\ ip_header af 20 /\ 0 <= padding < 2^32 /\ size_check (is_twoway r) af mode padding = true /\
  buffer_size (is_twoway r) mode padding = 13 /\ In (14, 4294967295) (accesses r mode padding) /\
  ~ Forall (inside (buffer_size (is_twoway r) mode padding)) (accesses r mode padding).
Proof.
  exists Sender, 2, 1, 14, 4294967295. split; [left; lia|]. split; [left; lia|]. split; [lia|]. split; [reflexivity|]. split; [reflexivity|]. split; [cbn; auto|].
  rewrite (C74_sender_exact_partial Sender 1 14 4294967295); [lia|left; reflexivity|left; lia|lia].
Qed.

Example C74_case : test_header 4 48 /\ 48 + 1000 < 2^32 /\ buffer_size true 4 1000 = 1112 /\
  accesses Reflector 4 1000 = [(0, 1048); (0, 48); (48, 936); (112, 936); (0, 112); (0, 1048)].
Proof. split; [right; lia|]. split; [lia|]. split; reflexivity. Qed.

(** ** C75: the bandwidth asked of the broker is what the test needs on average *)

(** Missing from the full claim: see C75_bandwidth_refuted.  If neither the size of a packet nor the sum of the mean delays overflows and this sum is not zero, the amount demanded
    (bits per second) is the average rate of the test, up to 2^-50 of it and up to cutting off the fraction: with N delays of sum S (in units of 2^-32 s),
    8 * (whole packet) * N / (S / 2^32). *)
Theorem C75_bandwidth_partial : forall af ip mode h padding delays b,
  ip_header af ip -> test_header mode h -> 0 <= padding -> ip + 8 + h + padding < 2^32 ->
  delays <> [] -> Z.of_nat (length delays) < 2^32 -> Forall (fun x => 0 <= x) delays -> 0 < sum_of delays < 2^64 ->
  demanded_bandwidth af mode padding delays = Some b ->
  let bits := 8 * (ip + 8 + h + padding) * Z.of_nat (length delays) * 2^32 in
  b * sum_of delays * 2^50 <= bits * (2^50 + 1) /\ bits * (2^50 - 1) < (b + 1) * sum_of delays * 2^50.
Proof.
  intros af ip mode h padding delays b IP T P B NE L F Hs R bits. destruct (modes_of mode h T) as (_ & _ & E3 & _ & E5).
  assert (SZ : packet_size af mode padding = ip + 8 + h + padding).
  { unfold packet_size. rewrite E3. change (2^32) with M32 in B. unfold u32. destruct E5 as [-> | ->]; rewrite (Z.mod_small (_ + padding) M32) by (destruct IP; lia);
    destruct IP as [[-> ->] | [-> ->]]; cbn [header_size Z.eqb AF_INET AF_INET6 Pos.eqb]; match goal with |- context [?x =? 0] => destruct (Z.eqb_spec x 0) end; lia. }
  assert (ZS : zsum delays = sum_of delays) by (clear; induction delays; cbn [zsum sum_of fold_right] in *; auto; unfold sum_of in IHdelays; lia).
  assert (R' : b = d_trunc (packet_bandwidth af mode padding delays)) by (unfold demanded_bandwidth in R; destruct (_ <? _); congruence).
  assert (IPpos : 0 < ip) by (destruct IP; lia).
  pose proof (near_bandwidth delays (packet_size af mode padding) NE L F ltac:(rewrite ZS; exact Hs) ltac:(rewrite SZ; lia)) as N.
  apply trunc_near in N. fold (packet_bandwidth af mode padding delays) in N. rewrite <- R', ZS, SZ in N.
  replace (Z.of_nat (length delays) * M32 * (ip + 8 + h + padding) * 8) with bits in N by (unfold bits; ring). exact N.
Qed.

(** The size of a packet is computed right in this case *)
Theorem C75_size_partial : forall af ip mode h padding,
  ip_header af ip -> test_header mode h -> 0 <= padding -> ip + 8 + h + padding < 2^32 -> packet_size af mode padding = ip + 8 + h + padding.
Proof.
  intros af ip mode h padding IP T P B. destruct (modes_of mode h T) as (_ & _ & E3 & _ & E5).
  unfold packet_size. rewrite E3. change (2^32) with M32 in B. unfold u32. destruct E5 as [-> | ->]; rewrite (Z.mod_small (_ + padding) M32) by (destruct IP; lia);
    destruct IP as [[-> ->] | [-> ->]]; cbn [header_size Z.eqb AF_INET AF_INET6 Pos.eqb]; match goal with |- context [?x =? 0] => destruct (Z.eqb_spec x 0) end; lia.
Qed.

(** Nothing is demanded for a test whose packets are all sent at once (mean delays 0), nor for packets of a size that wraps around; and a test with
    a packet every (2^31 + 2^-33) seconds is charged for 2^33 packets per second *)
Theorem C75_bandwidth_refuted :
  demanded_bandwidth 2 1 1000 [0] = Some 0 /\
  demanded_bandwidth 2 1 (2^32 - 14) [1] = Some 0 /\
  demanded_bandwidth 2 1 0 [2^63; 2^63 + 1] = Some (2^33 * 42 * 8).
Proof. repeat split; vm_compute; reflexivity. Qed.

Example C75_case : ip_header 2 20 /\ test_header 1 14 /\ 20 + 8 + 14 + 1000 < 2^32 /\ 0 < sum_of [429496730; 429496729] < 2^64 /\
  demanded_bandwidth 2 1 1000 [429496730; 429496729] = Some 83360.
Proof. split; [left; lia|]. split; [left; lia|]. split; [lia|]. split; [vm_compute; split; reflexivity|]. vm_compute. reflexivity. Qed.

Print Assumptions C74_packets_fit_partial.
Print Assumptions C74_sender_exact_partial.
Print Assumptions C74_check_partial.
Print Assumptions C74_packets_fit_refuted.
Print Assumptions C75_bandwidth_partial.
Print Assumptions C75_size_partial.
Print Assumptions C75_bandwidth_refuted.
