(** C51, C64, C65: the limits file. *)
From Coq Require Import ZArith List Bool Lia Permutation.
From Coq Require Import ZifyBool ZifyNat.
From Verif Require Import Base BaseLemmas Double Policy_Model Policy_Spec Policy_Proofs Policy_Class Policy_Net Limits_Model Limits_Spec Limits_Proofs.
Import ListNotations.
Open Scope Z_scope.

Section PROPS.
(** the library functions: numbers fit into 64 bits, numeric addresses have 4 or 16 octets *)
Variable strtonum : list Z -> option Z.

Lemma items_fold : forall t its lt, NoDup (map fst (lt_lims lt ++ limits_of its)) ->
  (parents_of its = [] -> apply_items t lt its = Some (mkLt (lt_parent lt) (lt_lims lt ++ limits_of its))) /\
  (forall pname p, parents_of its = [pname] -> lt_parent lt = None -> find_class pname t = Some p -> apply_items t lt its = Some (mkLt (Some p) (lt_lims lt ++ limits_of its))).
Proof.
  intros t. induction its as [|[n|lim v] its IH]; intros lt N; cbn [limits_of parents_of apply_items] in *.
  - rewrite app_nil_r. split; [destruct lt; reflexivity|discriminate].
  - split; [discriminate|]. intros pname p Q Lp F. injection Q as -> Q. cbn [apply_item]. rewrite Lp, F.
    destruct (IH (mkLt (Some p) (lt_lims lt)) N) as (A & _). cbn [lt_parent lt_lims] in A. apply A. exact Q.
  - assert (Ni: ~ In lim (map fst (lt_lims lt))).
    { rewrite map_app in N. cbn [map fst] in N. apply NoDup_remove_2 in N. intros I. apply N. apply in_or_app. auto. }
    assert (X: existsb (Z.eqb lim) (map fst (lt_lims lt)) = false).
    { apply not_true_iff_false. intros X. apply existsb_exists in X as (y & I & Ey). apply Z.eqb_eq in Ey. subst y. auto. }
    cbn [apply_item]. rewrite X. destruct (IH (mkLt (lt_parent lt) (lt_lims lt ++ [(lim, v)]))) as (A & B); cbn [lt_parent lt_lims] in *.
    { rewrite <- app_assoc. exact N. }
    rewrite <- app_assoc in A, B. split; [exact A|exact B].
Qed.
Lemma room_of : forall its n, (forall pre it post, its = pre ++ it :: post -> (n + length (limits_of pre) < 5)%nat) -> room n its.
Proof.
  induction its as [|it its IH]; intros n H; cbn [room]; auto. split; [pose proof (H [] it its eq_refl); cbn in *; lia|].
  apply IH. intros pre x post E. pose proof (H (it :: pre) x post ltac:(rewrite E; reflexivity)) as Q. destruct it; cbn [limits_of length] in Q; lia.
Qed.
Lemma line_start : forall t name ws1 wd ws2 ps, name <> [] -> Forall (fun c => ~ is_blank c) name -> (length name <= 80)%nat -> ~ In name (map nd_name t) ->
  ws1 <> [] -> Forall is_blank ws1 -> lower wd = w_with -> is_blank ws2 ->
  parse_limit_line strtonum t (render_line name ws1 wd ws2 ps) =
  match parse_pairs strtonum (length (render_pairs ps)) t (mkLt None []) (render_pairs ps) with
  | PErr => PErr | POver => POver
  | POk lt => let done lims := POk (t ++ [mkNode name (lt_parent lt) lims (repeat 0 (length lims))]) in
      match lt_parent lt with
      | Some p => match nth_error t p with Some pn => done (inherit (nd_lims pn) (lt_lims lt)) | None => PErr end
      | None => match t with [] => done (lt_lims lt) | _ => PErr end
      end
  end.
Proof.
  intros t name ws1 wd ws2 ps N1 N2 N3 N4 S1 S2 W1 S3. unfold parse_limit_line, render_line.
  assert (Bl: forall c, is_blank c -> wspace c = true) by (unfold is_blank, wspace; lia).
  destruct ws1 as [|c0 ws1]; [congruence|]. inversion S2; subst. cbn [app].
  assert (Nb: Forall (fun c => wspace c = false) name) by (eapply fimp; [|exact N2]; unfold is_blank, wspace; lia).
  pose proof (strtok_app wspace [] name c0 (ws1 ++ wd ++ ws2 :: render_pairs ps) ltac:(constructor) N1 Nb (Bl c0 H1)) as Q. cbn [app] in Q. rewrite Q. clear Q.
  destruct (Z.ltb_spec 80 (Z.of_nat (length name))); [lia|].
  destruct (find_class name t) as [j|] eqn:F.
  { exfalso. destruct (find_class_some _ _ _ F) as (m & A & <-). apply N4. apply in_map. eapply nth_error_In; eauto. }
  assert (Wd: wd <> [] /\ Forall (fun c => wspace c = false) wd).
  { unfold lower, w_with in W1. do 4 (destruct wd as [|? wd]; [discriminate|]). destruct wd; [|discriminate]. injection W1 as E1 E2 E3 E4. split; [discriminate|].
    repeat constructor; unfold wspace; match goal with |- context [?x =? 32] => revert dependent x; intros x; destruct ((65 <=? x) && (x <=? 90)) eqn:Q; lia end. }
  destruct Wd as (Wd1 & Wd2). rewrite strtok_app; auto; [|eapply fimp; [|exact H2]; exact Bl].
  rewrite (proj2 (same_word_spec wd w_with) W1). reflexivity.
Qed.

(** a line "NAME with PAIRS" in any spelling: the new class has the limits of its line, and those of its parent that the line does not give *)
Theorem C51_line : forall t name ws1 wd ws2 ps its p pn, conf_ok t -> name <> [] -> Forall (fun c => ~ is_blank c) name -> (length name <= 80)%nat -> ~ In name (map nd_name t) ->
  ws1 <> [] -> Forall is_blank ws1 -> lower wd = w_with -> is_blank ws2 ->
  Forall pair_wf ps -> Forall2 (says strtonum) ps its ->
  nth_error t p = Some pn -> parents_of its = [nd_name pn] -> NoDup (map fst (limits_of its)) ->
  (forall pre it post, its = pre ++ it :: post -> (length (limits_of pre) < 5)%nat) ->
  exists lims, parse_limit_line strtonum t (render_line name ws1 wd ws2 ps) = POk (t ++ [mkNode name (Some p) lims (repeat 0 (length lims))]) /\
    effective (limits_of its) (nd_lims pn) lims.
Proof.
  intros t name ws1 wd ws2 ps its p pn C N1 N2 N3 N4 S1 S2 W1 S3 Wf Sy Ep Pa Nd Rm. rewrite line_start by auto.
  assert (C' := C). destruct C' as (T & _ & (Nn & _) & _).
  destruct (items_fold t its (mkLt None [])) as (_ & I2); [exact Nd|]. specialize (I2 (nd_name pn) p Pa eq_refl (find_class_complete t p pn Nn Ep)).
  rewrite (parse_pairs_spec strtonum t ps its) with (lt' := mkLt (Some p) (limits_of its)); auto.
  2: { left. intros ->. destruct p; discriminate. }
  2: { apply room_of. exact Rm. }
  cbv zeta. cbn [lt_parent lt_lims]. rewrite Ep. eexists. split; [reflexivity|].
  destruct (T p pn Ep) as (_ & Np & _). destruct (inherit_spec (nd_lims pn) (limits_of its) Np Nd) as (A & B & _). split; auto.
Qed.
Theorem C51_first_line : forall name ws1 wd ws2 ps its, name <> [] -> Forall (fun c => ~ is_blank c) name -> (length name <= 80)%nat ->
  ws1 <> [] -> Forall is_blank ws1 -> lower wd = w_with -> is_blank ws2 ->
  Forall pair_wf ps -> Forall2 (says strtonum) ps its -> parents_of its = [] -> NoDup (map fst (limits_of its)) ->
  (forall pre it post, its = pre ++ it :: post -> (length (limits_of pre) < 5)%nat) ->
  parse_limit_line strtonum [] (render_line name ws1 wd ws2 ps) = POk [mkNode name None (limits_of its) (repeat 0 (length (limits_of its)))].
Proof.
  intros name ws1 wd ws2 ps its N1 N2 N3 S1 S2 W1 S3 Wf Sy Pa Nd Rm. rewrite line_start by auto.
  destruct (items_fold [] its (mkLt None [])) as (I1 & _); [exact Nd|]. specialize (I1 Pa).
  rewrite (parse_pairs_spec strtonum [] ps its) with (lt' := mkLt None (limits_of its)); auto.
  apply room_of. exact Rm.
Qed.
Variable numhost : list Z -> option (list Z).
Variable strtoul : list Z -> option Z.
Hypothesis strtonum_u64 : forall s v, strtonum s = Some v -> 0 <= v < 2^64.
Hypothesis numhost_len : forall s a, numhost s = Some a -> octets a /\ (length a = 4 \/ length a = 16)%nat.

(** every accepted file: every class limits whatever its parent limits, and parents are defined before *)
Theorem C51_inherit : forall known lines t l i n p, parse_conf strtonum numhost strtoul known lines = POk (t, l) -> nth_error t i = Some n -> nd_parent n = Some p ->
  (p < i)%nat /\ exists pn, nth_error t p = Some pn /\ forall lim, In lim (map fst (nd_lims pn)) -> In lim (map fst (nd_lims n)).
Proof.
  intros known lines t l i n p E En Ep. destruct (parse_conf_ok _ _ _ strtonum_u64 numhost_len _ _ _ _ E) as ((T & _) & _).
  destruct (T i n En) as (_ & _ & _ & _ & K). rewrite Ep in K. destruct K as (K1 & pn & K2 & K3). split; auto. exists pn. split; auto.
Qed.

(** every accepted file: there is a first class, and only that has no parent; limits are given once, fit into 64 bits and nothing is used
    yet; class names are distinct and fit into messages; networks are proper; connections are assigned to existing classes *)
Theorem C51_file : forall known lines t l, parse_conf strtonum numhost strtoul known lines = POk (t, l) ->
  tree_ok t /\ (forall a lim v u, entry t a lim v u -> u = 0) /\
  (exists n, nth_error t 0 = Some n) /\ (forall i n, nth_error t i = Some n -> (nd_parent n = None <-> i = 0%nat)) /\
  NoDup (map nd_name t) /\ (forall n, In n t -> (1 <= length (nd_name n) <= 80)%nat) /\
  idents_ok l /\ (forall k c, In (k, c) l -> (c < length t)%nat).
Proof.
  intros known lines t l E. destruct (parse_conf_ok _ _ _ strtonum_u64 numhost_len _ _ _ _ E) as ((T & F & (N1 & N2) & R) & (A1 & A2) & Ne).
  split; auto. split.
  { intros a lim v u (n & k & E1 & _ & E3). apply nth_error_In in E1, E3. rewrite (F n E1) in E3. apply repeat_spec in E3. exact E3. }
  split; [destruct t; [congruence|eexists; reflexivity]|]. split; [exact R|]. split; auto. split.
  { intros n I. apply (proj1 (Forall_forall _ _) N2) in I as (X & Y). destruct (nd_name n); [congruence|cbn [length] in *; lia]. }
  split; auto. intros k c I. apply (proj1 (Forall_forall _ _) A2) in I. exact I.
Qed.

(** ... so that histories of requests can start (C48) *)
Theorem C51_start : forall known lines t l fudge, 0 < snd fudge -> 0 <= fst fudge -> parse_conf strtonum numhost strtoul known lines = POk (t, l) ->
  within fudge (fun _ _ => 0) t /\ zero_unlimited t /\ start_ok (fun _ _ => 0).
Proof.
  intros known lines t l fudge F1 F2 E. destruct (C51_file _ _ _ _ E) as (T & U & _). split; [|split].
  - intros a lim v u _ En _. rewrite (U a lim v u En). lia.
  - intros a lim u _ En. exact (U a lim 0 u En).
  - intros a lim. lia.
Qed.

End PROPS.

(** *** Cases *)
(** decimal numbers, as far as the examples need them *)
Definition ex_num (s : list Z) : option Z := if forallb (fun c => (48 <=? c) && (c <=? 57)) s then Some (fold_left (fun a c => a * 10 + (c - 48)) s 0 mod 2^64) else None.
Definition ex_host (s : list Z) : option (list Z) := if eqb_octets s [49; 48; 46; 49; 46; 48; 46; 48] then Some [10; 1; 0; 0] else None.
Definition s_root : list Z := [114; 111; 111; 116].
Definition s_jail : list Z := [106; 97; 105; 108].
(** "limit root with bandwidth=500,disk=1000" *)
Definition ex_l1 : list Z := w_limit ++ [32] ++ s_root ++ [32] ++ w_with ++ [32] ++ w_bandwidth ++ [61; 53; 48; 48; 44] ++ w_disk ++ [61; 49; 48; 48; 48].
(** "limit jail with parent=root, Disk = 0" *)
Definition ex_l2 : list Z := w_limit ++ [32] ++ s_jail ++ [32] ++ w_with ++ [32] ++ w_parent ++ [61] ++ s_root ++ [44; 32; 68; 105; 115; 107; 32; 61; 32; 48].
(** "assign net 10.1.0.0/16 jail" *)
Definition ex_l3 : list Z := w_assign ++ [32] ++ w_net ++ [32; 49; 48; 46; 49; 46; 48; 46; 48; 47; 49; 54; 32] ++ s_jail.
Example C51_case : (forall s v, ex_num s = Some v -> 0 <= v < 2^64) /\ (forall s a, ex_host s = Some a -> octets a /\ (length a = 4 \/ length a = 16)%nat) /\
  parse_conf ex_num ex_host ex_num (fun _ => false) [ex_l1; ex_l2; ex_l3] =
  POk ([mkNode s_root None [(LimBandwidth, 500); (LimDisk, 1000)] [0; 0]; mkNode s_jail (Some 0%nat) [(LimDisk, 0); (LimBandwidth, 500)] [0; 0]],
       [(PidNet 16 4 ([10; 1] ++ zeros 14), 1%nat)]).
Proof.
  split; [|split].
  - intros s v E. unfold ex_num in E. destruct (forallb _ s); [|discriminate]. injection E as <-. apply Z.mod_pos_bound. reflexivity.
  - intros s a E. unfold ex_host in E. destruct (eqb_octets s _); [|discriminate]. injection E as <-. split; [repeat constructor; discriminate|left; reflexivity].
  - vm_compute. reflexivity.
Qed.
Ltac wfp := repeat (apply Forall_cons; [unfold pair_wf; cbn [px_pre px_key px_sep px_val px_post hd];
  repeat (split; [first [discriminate | (repeat (apply Forall_cons; [unfold is_space; lia|]); apply Forall_nil)]|]); (vm_compute; discriminate)|]); apply Forall_nil.
Definition px (k v : list Z) : pairtxt := mkTxt [32] k [61] v [].
Example C51_line_case : Forall pair_wf [px w_parent s_root; px w_disk [48]] /\ Forall2 (says ex_num) [px w_parent s_root; px w_disk [48]] [IParent s_root; ILimit LimDisk 0] /\
  parents_of [IParent s_root; ILimit LimDisk 0] = [s_root] /\ lower [87; 105; 116; 104] = w_with /\
  (forall pre it post, [IParent s_root; ILimit LimDisk 0] = pre ++ it :: post -> (length (limits_of pre) < 5)%nat).
Proof.
  split; [|split; [|split; [reflexivity|split; [reflexivity|]]]].
  - unfold px; wfp.
  - constructor; [split; reflexivity|]. constructor; [|constructor]. left. split; [right; left; split; reflexivity|reflexivity].
  - intros pre it post E. destruct pre as [|a [|b [|c pre]]]; cbn in E; try discriminate; injection E as <- <-; cbn; try lia.
Qed.

(** C64: the order of the pairs matters: with all five limits given, parent must not come last *)
Definition five : list pairtxt := [px w_bandwidth [49]; px w_disk [49]; px w_delete_on_fetch w_on; px w_allow_open_mode w_off; px w_test_sessions [49]].
Theorem C64_order_refuted : exists t name ps ps' t', Permutation ps ps' /\ Forall pair_wf ps /\
  parse_limit_line ex_num t (render_line name [32] w_with 32 ps) = POk t' /\ parse_limit_line ex_num t (render_line name [32] w_with 32 ps') = PErr.
Proof.
  exists [mkNode s_root None [] []], s_jail, (px w_parent s_root :: five), (five ++ [px w_parent s_root]). eexists. split; [apply Permutation_cons_append|].
  split; [unfold five, px; cbn [app]; wfp|]. split; vm_compute; reflexivity.
Qed.
(** ... and nothing else does: any order in which at most four limits come before the parent gives the same limits *)
Theorem C64_order_partial : forall strtonum t name ws1 wd ws2 ps its ps' its' p pn, conf_ok t -> name <> [] -> Forall (fun c => ~ is_blank c) name -> (length name <= 80)%nat -> ~ In name (map nd_name t) ->
  ws1 <> [] -> Forall is_blank ws1 -> lower wd = w_with -> is_blank ws2 ->
  Forall pair_wf ps -> Forall2 (says strtonum) ps its -> Forall pair_wf ps' -> Forall2 (says strtonum) ps' its' -> Permutation its its' ->
  nth_error t p = Some pn -> parents_of its = [nd_name pn] -> NoDup (map fst (limits_of its)) ->
  (forall pre it post, its = pre ++ it :: post \/ its' = pre ++ it :: post -> (length (limits_of pre) < 5)%nat) ->
  exists lims lims', parse_limit_line strtonum t (render_line name ws1 wd ws2 ps) = POk (t ++ [mkNode name (Some p) lims (repeat 0 (length lims))]) /\
    parse_limit_line strtonum t (render_line name ws1 wd ws2 ps') = POk (t ++ [mkNode name (Some p) lims' (repeat 0 (length lims'))]) /\ forall e, In e lims <-> In e lims'.
Proof.
  intros strtonum t name ws1 wd ws2 ps its ps' its' p pn C N1 N2 N3 N4 S1 S2 W1 S3 Wf Sy Wf' Sy' Pm Ep Pa Nd Rm.
  assert (Pl: Permutation (limits_of its) (limits_of its') /\ Permutation (parents_of its) (parents_of its')).
  { clear -Pm. induction Pm as [|[n|l v] a b _ (A & B)|[n|l v] [n'|l' v'] a|a b c _ (A & B) _ (A' & B')]; cbn [limits_of parents_of]; split; auto; try (constructor; auto); eauto using Permutation_trans. }
  destruct Pl as (Pl & Pp). rewrite Pa in Pp. apply Permutation_length_1_inv in Pp.
  assert (Nd': NoDup (map fst (limits_of its'))) by (eapply Permutation_NoDup; [apply Permutation_map; exact Pl|exact Nd]).
  destruct (C51_line strtonum t name ws1 wd ws2 ps its p pn) as (lims & E1 & (_ & F1)); auto; [intros; eapply Rm; left; eauto|].
  destruct (C51_line strtonum t name ws1 wd ws2 ps' its' p pn) as (lims' & E2 & (_ & F2)); auto; [intros; eapply Rm; right; eauto|].
  exists lims, lims'. split; auto. split; auto. intros [lim v]. rewrite F1, F2.
  assert (M: forall x, In x (map fst (limits_of its)) <-> In x (map fst (limits_of its'))).
  { intros x. split; apply Permutation_in; [|symmetry]; apply Permutation_map; exact Pl. }
  rewrite M. assert (K: In (lim, v) (limits_of its) <-> In (lim, v) (limits_of its')) by (split; apply Permutation_in; [|symmetry]; exact Pl). rewrite K. reflexivity.
Qed.

(** C65: a parameter without value makes the parser read over the end of the line *)
Theorem C65_overrun_refuted : exists line, Forall (fun c => 32 <= c < 127) line /\ parse_conf ex_num ex_host ex_num (fun _ => false) [line] = POver.
Proof.
  exists (w_limit ++ [32] ++ s_root ++ [32] ++ w_with ++ [32] ++ w_disk). split; [repeat constructor; discriminate|]. vm_compute. reflexivity.
Qed.
(** it happens only if a pair has neither white space nor '=' after its name *)
Theorem C65_bounds_partial : forall s, split_pair s = POver -> forall a b, s = a ++ b -> Forall is_space a -> Forall (fun c => ~ is_space c /\ c <> 61) b \/ exists c d, b = c ++ d /\ c <> [] /\ Forall is_space c /\ Forall (fun c => ~ is_space c /\ c <> 61) d.
Proof.
  intros s E a b -> Fa. unfold split_pair in E. rewrite skip_while_all in E by (eapply fimp; [|exact Fa]; intros c; apply isspace_spec).
  destruct (span_not _ _) as [name r] eqn:S. destruct r as [|? ?]; [|discriminate]. apply span_not_len in S as (S1 & S2). rewrite app_nil_r in S1.
  assert (Q: Forall (fun c => ~ is_space c /\ c <> 61) (skip_while isspace b)).
  { rewrite S1. eapply fimp; [|exact S2]. intros c H. apply orb_false_iff in H as (H1 & H2). unfold equals in H2. split; [intros X; apply isspace_spec in X; congruence|lia]. }
  clear - Q. assert (G: exists c, b = c ++ skip_while isspace b /\ Forall is_space c).
  { clear Q. induction b as [|x b (c & IH & F)]; cbn [skip_while]; [exists []; auto|]. destruct (isspace x) eqn:X; [|exists []; auto]. exists (x :: c). cbn [app]. split; [congruence|]. constructor; auto. apply isspace_spec. exact X. }
  destruct G as (c & G1 & G2). destruct c as [|x c]; [left; cbn [app] in G1; rewrite G1; exact Q|right]. exists (x :: c), (skip_while isspace b). repeat split; auto. discriminate.
Qed.
Print Assumptions C51_inherit.
Print Assumptions C51_file.
Print Assumptions C51_line.
Print Assumptions C64_order_partial.
