(** C48, C49, C50, C52, C53, C54, C63: the limit tree, the resource broker and the choice of classes. *)
From Coq Require Import ZArith List Bool Lia.
From Coq Require Import ZifyBool ZifyNat.
From Verif Require Import Base BaseLemmas Double Policy_Model Policy_Spec Policy_Proofs Policy_Class Policy_Net.
Import ListNotations.
Open Scope Z_scope.
Ltac Zify.zify_post_hook ::= Z.div_mod_to_equations.

(** ** A configuration used in the examples: two classes
    limit root with bandwidth=500, disk=1000
    limit jail with parent=root, bandwidth=100, disk=0 *)
Definition s_root : list Z := [114; 111; 111; 116].
Definition s_jail : list Z := [106; 97; 105; 108].
Definition ex_tree : tree :=
  [mkNode s_root None [(LimBandwidth, 500); (LimDisk, 1000)] [0; 0];
   mkNode s_jail (Some 0%nat) [(LimBandwidth, 100); (LimDisk, 0)] [0; 0]].
Lemma ex_tree_ok : tree_ok ex_tree.
Proof.
  assert (NoDup [1; 3]) by (constructor; [intros [|[]]; discriminate|constructor; [intros []|constructor]]).
  intros [|[|i]] n E; cbn in E; [injection E as <-|injection E as <-|destruct i; discriminate];
    (split; [reflexivity|split; [exact H|split; [repeat constructor; cbn; lia|split; [repeat constructor; lia|]]]]); [exact I|].
  split; [cbn; lia|]. eexists. split; [reflexivity|]. apply incl_refl.
Qed.

Section PROPS.
Variable fudge : Z * Z.
Hypothesis F1 : 0 < snd fudge.
Hypothesis F2 : 0 <= fst fudge.

(** C49 *)
Theorem C49_request : forall t c lim val, tree_ok t -> (c < length t)%nat -> counted lim -> 0 <= val < 2^63 ->
  (forall a v u, entry t a lim v u -> u < 2^63 /\ v < 2^53) ->
  exists ok t', resource_demand fudge t c MESGREQUEST lim val = Some (ok, t') /\
    (ok = true <-> forall a v u, In a (ancestors t c) -> entry t a lim v u -> v <> 0 -> u + val <= v) /\
    (ok = false -> t' = t) /\ (ok = true -> charged (ancestors t c) lim val t t').
Proof.
  intros t c lim val W Hc Cn Hv Hb. destruct (nth_error t c) as [n|] eqn:E; [|apply nth_error_None in E; lia].
  unfold resource_demand. rewrite (proj2 (counted_type lim) Cn).
  destruct (int_demand_spec fudge MESGREQUEST lim val F1 F2 Hv (counted_def _ Cn) ltac:(auto) t W (fun a v u En => proj1 (Hb a v u En)) c n E) with (fuel := S c) as (b & t' & D1 & D2 & D3 & D4); [|lia|].
  - intros a v u _ En. pose proof (Hb a v u En). unfold cap. cbn [Z.eqb Pos.eqb]. lia.
  - exists b, t'. split; [exact D1|]. split; [exact D2|]. split; [exact D3|exact D4].
Qed.

Theorem C49_claim : forall t c val, tree_ok t -> (c < length t)%nat -> 0 <= val < 2^63 ->
  (forall a v u, entry t a LimDisk v u -> u < 2^63 /\ v < 2^53 /\ d_trunc (d_mul (d_int v) fudge) < 2^53) ->
  exists ok t', resource_demand fudge t c MESGCLAIM LimDisk val = Some (ok, t') /\
    (ok = true <-> forall a v u, In a (ancestors t c) -> entry t a LimDisk v u -> v <> 0 -> u + val <= d_trunc (d_mul (d_int v) fudge)) /\
    (ok = false -> t' = t) /\ (ok = true -> charged (ancestors t c) LimDisk val t t').
Proof.
  intros t c val W Hc Hv Hb. destruct (nth_error t c) as [n|] eqn:E; [|apply nth_error_None in E; lia].
  unfold resource_demand. cbn [lim_type Z.eqb Pos.eqb orb].
  destruct (int_demand_spec fudge MESGCLAIM LimDisk val F1 F2 Hv eq_refl ltac:(auto) t W (fun a v u En => proj1 (Hb a v u En)) c n E) with (fuel := S c) as (b & t' & D1 & D2 & D3 & D4); [|lia|].
  - intros a v u _ En. pose proof (Hb a v u En). unfold cap. cbn [Z.eqb Pos.eqb]. lia.
  - exists b, t'. split; [exact D1|]. split; [exact D2|]. split; [exact D3|exact D4].
Qed.

Theorem C49_release : forall t c lim val, tree_ok t -> (c < length t)%nat -> counted lim -> 0 <= val < 2^63 ->
  (forall a v u, entry t a lim v u -> u < 2^63 /\ v < 2^53) ->
  exists ok t', resource_demand fudge t c MESGRELEASE lim val = Some (ok, t') /\
    (ok = true <-> forall a v u, In a (ancestors t c) -> entry t a lim v u -> v <> 0 -> val <= u) /\
    (ok = false -> t' = t) /\ (ok = true -> charged (ancestors t c) lim (- val) t t').
Proof.
  intros t c lim val W Hc Cn Hv Hb. destruct (nth_error t c) as [n|] eqn:E; [|apply nth_error_None in E; lia].
  unfold resource_demand. rewrite (proj2 (counted_type lim) Cn).
  destruct (int_demand_spec fudge MESGRELEASE lim val F1 F2 Hv (counted_def _ Cn) ltac:(auto) t W (fun a v u En => proj1 (Hb a v u En)) c n E) with (fuel := S c) as (b & t' & D1 & D2 & D3 & D4); [|lia|].
  - intros a v u _ En. pose proof (Hb a v u En). unfold cap. cbn [Z.eqb Pos.eqb]. lia.
  - exists b, t'. split; [exact D1|]. split; [exact D2|]. split; [exact D3|exact D4].
Qed.

(** C48: the usage of every limiting class is what it was plus what has been granted to it and its descendants and not been
    released, and at most the limit (for disk space: the limit times the fudge factor), or what it was at the start, if that was more *)
Theorem C48_limits : forall B t l t', start_ok B -> tree_ok t -> limits_exact fudge t -> within fudge B t -> zero_unlimited t ->
  Forall (fun h => hop_ok t (h_class h) (h_query h) (h_val h)) l -> broker fudge t l t' ->
  forall a lim v u', counted lim -> entry t' a lim v u' -> v <> 0 ->
    0 <= u' <= Z.max (bound fudge lim v) (B a lim) /\ exists u, entry t a lim v u /\ u' = u + net t a lim l.
Proof.
  intros B t l t' HB W Ex Wi Zu Ho Br a lim v u' Cn En V.
  destruct (broker_inv fudge B HB F1 F2 t l t' Br W Ex Wi Zu Ho) as (W' & _ & _ & Wi' & _ & N).
  split; [|apply N; auto]. split; [|eapply Wi'; eauto]. apply (entry_u64 t' a lim v u' W' En).
Qed.

(** every sequence of queries is answered: no assertion fails, no walk up the tree is endless *)
Theorem C48_answered : forall B t ops, start_ok B -> tree_ok t -> limits_exact fudge t -> within fudge B t -> zero_unlimited t ->
  Forall (fun o : nat * Z * Z * Z => let '(c, q, lim, val) := o in hop_ok t c q val) ops ->
  exists l t', broker fudge t l t' /\ map (fun h => (h_class h, h_query h, h_lim h, h_val h)) l = ops.
Proof. intros B t ops HB W Ex Wi Zu Ho. exact (broker_total fudge B HB F1 F2 ops t W Ex Wi Zu Ho). Qed.

(** C53, the part that holds: if every class has only released what it had been granted, then the release of anything that a class
    still holds is granted, and takes the amount off the class and all its ancestors *)
Theorem C53_release_partial : forall B t l t' c lim val, start_ok B -> tree_ok t -> limits_exact fudge t -> within fudge B t -> zero_unlimited t ->
  Forall (fun h => hop_ok t (h_class h) (h_query h) (h_val h)) l -> broker fudge t l t' -> counted lim -> (c < length t)%nat ->
  (forall i, 0 <= own i lim l) -> 0 <= val <= own c lim l -> val < 2^63 ->
  exists t'', resource_demand fudge t' c MESGRELEASE lim val = Some (true, t'') /\ charged (ancestors t c) lim (- val) t' t''.
Proof.
  intros B t l t' c lim val HB W Ex Wi Zu Ho Br Cn Hc Po Hv Hv'.
  destruct (broker_inv fudge B HB F1 F2 t l t' Br W Ex Wi Zu Ho) as (W' & Sh & Ex' & Wi' & Zu' & N).
  assert (Ea: ancestors t' c = ancestors t c) by (unfold ancestors; symmetry; apply anc_same; exact Sh).
  destruct (C49_release t' c lim val W') as (ok & t'' & D1 & D2 & D3 & D4); auto.
  - destruct Sh as (<- & _). exact Hc.
  - lia.
  - intros a v u En. pose proof (Ex' a lim v u Cn En) as [X1 X2]. split; auto. destruct (Z.eq_dec v 0) as [->|V]; [rewrite (Zu' a lim u Cn En); lia|].
    pose proof (Wi' a lim v u Cn En V). pose proof (HB a lim). lia.
  - assert (ok = true).
    { apply D2. intros a v u I En V. rewrite Ea in I. destruct (N a lim v u Cn En V) as (u0 & E0 & ->).
      pose proof (release_fits t l c lim val) as R.
      pose proof (entry_u64 t a lim v u0 W E0).
      assert (val <= net t a lim l) by (apply R; auto; [eapply Forall_impl; [|exact Ho]; intros h (X & _); exact X|lia]). lia. }
    subst ok. exists t''. split; auto. rewrite <- Ea. auto.
Qed.
End PROPS.

(** the hypotheses are met by the example configuration; in this history the second request is refused because of the class's own
    limit and the fourth because of the parent's *)
Definition ex_ops : list (nat * Z * Z * Z) :=
  [(1%nat, MESGREQUEST, LimBandwidth, 60); (1%nat, MESGREQUEST, LimBandwidth, 60); (0%nat, MESGREQUEST, LimBandwidth, 410);
   (1%nat, MESGREQUEST, LimBandwidth, 35); (1%nat, MESGRELEASE, LimBandwidth, 20); (1%nat, MESGREQUEST, LimDisk, 900)].
Fixpoint run_ops (f : Z * Z) (t : tree) (ops : list (nat * Z * Z * Z)) : option (list bool * tree) :=
  match ops with
  | [] => Some ([], t)
  | (c, q, lim, v) :: r => match resource_demand f t c q lim v with
      | Some (b, t') => match run_ops f t' r with Some (bs, t'') => Some (b :: bs, t'') | None => None end
      | None => None
      end
  end.
Example C48_case : start_ok (fun _ _ => 0) /\ limits_exact (1, 1) ex_tree /\ within (1, 1) (fun _ _ => 0) ex_tree /\ zero_unlimited ex_tree /\
  Forall (fun o : nat * Z * Z * Z => let '(c, q, lim, val) := o in hop_ok ex_tree c q val) ex_ops /\
  run_ops (1, 1) ex_tree ex_ops = Some ([true; false; true; false; true; true],
    [mkNode s_root None [(LimBandwidth, 500); (LimDisk, 1000)] [450; 900]; mkNode s_jail (Some 0%nat) [(LimBandwidth, 100); (LimDisk, 0)] [40; 0]]).
Proof.
  assert (Inv: forall a lim v u, entry ex_tree a lim v u -> u = 0 /\ (v = 500 \/ v = 1000 \/ v = 100 \/ v = 0)).
  { intros a lim v u (n & k & A & B & C). destruct a as [|[|a]]; cbn in A; [injection A as <-|injection A as <-|destruct a; discriminate];
      destruct k as [|[|k]]; cbn in B, C; try (injection B as <- <-; injection C as <-; auto); destruct k; discriminate. }
  split; [intros a lim; lia|]. split.
  { intros a lim v u _ En. destruct (Inv _ _ _ _ En) as (-> & V). unfold bound, cap. cbn [Z.eqb Pos.eqb].
    destruct V as [-> | [-> | [-> | ->]]]; split; try lia; destruct (lim =? LimDisk); vm_compute; reflexivity. }
  split.
  { intros a lim v u _ En V. destruct (Inv _ _ _ _ En) as (-> & _). lia. }
  split; [intros a lim u _ En; apply (Inv _ _ _ _ En)|].
  split; [unfold ex_ops; repeat (apply Forall_cons; [split; [cbn; lia|split; [lia|auto]]|]); apply Forall_nil|].
  vm_compute. reflexivity.
Qed.

(** C63 is refuted: the sum of the amount asked for and the usage is computed modulo 2^64 ... *)
Theorem C63_wrap_refuted : exists t c val t', tree_ok t /\ 0 <= val < 2^64 /\ resource_demand (1, 1) t c MESGREQUEST LimBandwidth val = Some (true, t') /\
  (exists v u, entry t c LimBandwidth v u /\ v <> 0 /\ v < u + val).
Proof.
  exists [mkNode s_root None [(LimBandwidth, 500)] [10]], 0%nat, (2^64 - 5). eexists. split.
  { intros [|i] n E; cbn in E; [injection E as <-|destruct i; discriminate].
    split; [reflexivity|split; [constructor; [intros []|constructor]|split; [repeat constructor; cbn; lia|split; [repeat constructor; lia|exact I]]]]. }
  split; [lia|]. split; [vm_compute; reflexivity|]. exists 500, 10. split; [|lia].
  eexists. exists 0%nat. repeat split.
Qed.
(** ... and limit and sum are compared as doubles, which cannot tell 2^60 from 2^60 + 1 *)
Theorem C63_rounding_refuted : exists t c val t', tree_ok t /\ 0 <= val < 2^64 /\ resource_demand (1, 1) t c MESGREQUEST LimBandwidth val = Some (true, t') /\
  (exists v u, entry t' c LimBandwidth v u /\ v <> 0 /\ v < u).
Proof.
  exists [mkNode s_root None [(LimBandwidth, 2^60)] [0]], 0%nat, (2^60 + 1). eexists. split.
  { intros [|i] n E; cbn in E; [injection E as <-|destruct i; discriminate].
    split; [reflexivity|split; [constructor; [intros []|constructor]|split; [repeat constructor; cbn; lia|split; [repeat constructor; lia|exact I]]]]. }
  split; [lia|]. split; [vm_compute; reflexivity|]. exists (2^60), (2^60 + 1). split; [|lia]. eexists. exists 0%nat. repeat split.
Qed.

(** What does hold for amounts, usages and limits of any size, as long as the sum of amount and usage is less than 2^64: a request is
    granted only if the sum exceeds no limit by more than 1/2^51 of the limit.  Below 2^51 this is the exact property (second theorem);
    missing are sums of 2^64 and more and the exact comparison of limits above 2^51, which are refuted above. *)
Theorem C63_rounding_partial : forall fudge t c lim val t', tree_ok t -> counted lim -> 0 <= val ->
  resource_demand fudge t c MESGREQUEST lim val = Some (true, t') ->
  forall a v u, In a (ancestors t c) -> entry t a lim v u -> v <> 0 -> u + val < 2^64 -> 2^51 * (u + val - v) <= v.
Proof.
  intros fudge t c lim val t' W Cn Hv R. unfold resource_demand in R. rewrite (proj2 (counted_type lim) Cn) in R.
  exact (int_demand_large fudge lim val t W Hv (counted_def _ Cn) (S c) c t' R).
Qed.
(** The property for limits below 2^51 and sums below 2^64; larger ones are missing. *)
Theorem C63_exact_partial : forall fudge t c lim val t', tree_ok t -> counted lim -> 0 <= val ->
  resource_demand fudge t c MESGREQUEST lim val = Some (true, t') ->
  forall a v u, In a (ancestors t c) -> entry t a lim v u -> v <> 0 -> v < 2^51 -> u + val < 2^64 -> u + val <= v.
Proof.
  intros fudge t c lim val t' W Cn Hv R a v u I En V Vb Nw.
  pose proof (C63_rounding_partial fudge t c lim val t' W Cn Hv R a v u I En V Nw). lia.
Qed.
(** the hypotheses are met, with a limit of a class and of its parent *)
Example C63_case : exists t', resource_demand (1, 1) ex_tree 1 MESGREQUEST LimBandwidth 60 = Some (true, t') /\
  ancestors ex_tree 1 = [1%nat; 0%nat] /\ entry ex_tree 1 LimBandwidth 100 0 /\ entry ex_tree 0 LimBandwidth 500 0.
Proof.
  eexists. split; [vm_compute; reflexivity|]. split; [reflexivity|]. split; eexists; exists 0%nat; repeat split.
Qed.
Print Assumptions C63_rounding_partial.
Print Assumptions C63_exact_partial.

(** ** C54: messages between a connection process and the parent *)
Theorem C54_response : forall m, 0 <= m < 2^32 -> read_response (send_response m) = m.
Proof. exact read_send_response. Qed.
Theorem C54_response_only : forall buf, octets buf -> read_response buf <> MESGINVALID -> buf = send_response (read_response buf).
Proof. exact read_response_inv. Qed.
Theorem C54_query : forall q lim v, q = MESGREQUEST \/ q = MESGRELEASE \/ q = MESGCLAIM -> 0 <= lim < 2^32 -> 0 <= v < 2^64 ->
  read_query (send_query q lim v) = (Some (q, lim, v), false).
Proof. exact read_send_query. Qed.
Theorem C54_query_only : forall buf q lim v e, octets buf -> read_query buf = (Some (q, lim, v), e) ->
  buf = send_query q lim v /\ e = false /\ (q = MESGREQUEST \/ q = MESGRELEASE \/ q = MESGCLAIM).
Proof. exact read_query_inv. Qed.
Theorem C54_class : forall t i n rest, NoDup (map nd_name t) -> nth_error t i = Some n -> ~ In 0 (nd_name n) -> (length (nd_name n) <= 80)%nat ->
  exists m, send_class (nd_name n) = Some m /\ read_class (m ++ rest) = Some (nd_name n, rest) /\ find_class (nd_name n) t = Some i.
Proof.
  intros t i n rest N E Z L. destruct (read_send_class (nd_name n) rest Z L) as (m & A & B). exists m. split; auto. split; auto. apply find_class_complete; auto.
Qed.
Theorem C54_class_only : forall buf name rest, read_class buf = Some (name, rest) ->
  ~ In 0 name /\ (length name <= 80)%nat /\ exists m, send_class name = Some m /\ buf = m ++ rest.
Proof. exact read_class_inv. Qed.
(** the parent's reaction to what a connection process writes: the class announced is the class charged for the queries *)
Theorem C54_announced : forall f p fd c i n m, find (fun c => ch_fd c =? fd) (pa_children p) = Some c -> ch_node c = None ->
  NoDup (map nd_name (pa_tree p)) -> nth_error (pa_tree p) i = Some n -> ~ In 0 (nd_name n) -> (length (nd_name n) <= 80)%nat ->
  send_class (nd_name n) = Some m ->
  exists p', check_fd f p fd m = Some (mkReact p' (send_response MESGOK) false) /\ pa_tree p' = pa_tree p /\
    find (fun c => ch_fd c =? fd) (pa_children p') = Some (mkChild (ch_pid c) fd (Some i)) /\
    forall q lim v ok t', q = MESGREQUEST \/ q = MESGRELEASE \/ q = MESGCLAIM -> 0 <= lim < 2^32 -> 0 <= v < 2^64 ->
      resource_demand f (pa_tree p) i q lim v = Some (ok, t') ->
      exists p'', check_fd f p' fd (send_query q lim v) = Some (mkReact p'' (send_response (if ok then MESGOK else MESGDENIED)) false) /\ pa_tree p'' = t'.
Proof.
  intros f p fd c i n m Fc Nc Nd E Z L Sm.
  assert (Hf: ch_fd c = fd) by (apply find_some in Fc as (_ & Q); lia).
  assert (Fs: forall l, find (fun c => ch_fd c =? fd) l = Some c -> find (fun c => ch_fd c =? fd) (set_node fd i l) = Some (mkChild (ch_pid c) fd (Some i))).
  { induction l as [|x l IH]; intros H; cbn [find set_node map] in *; [discriminate|]. destruct (Z.eqb_spec (ch_fd x) fd) as [Ex|Ex]; cbn [ch_fd].
    - injection H as ->. rewrite Ex, Z.eqb_refl. reflexivity.
    - destruct (Z.eqb_spec (ch_fd x) fd); [contradiction|]. apply IH. exact H. }
  unfold check_fd at 1. rewrite Fc, Nc.
  destruct (C54_class (pa_tree p) i n [] Nd E Z L) as (m' & A & R & Fi). rewrite Sm in A. injection A as <-. rewrite app_nil_r in R.
  rewrite R, Fi. eexists. split; [reflexivity|]. cbn [pa_tree pa_children]. split; [reflexivity|]. split; [apply Fs; exact Fc|].
  intros q lim v ok t' Hq Hl Hv D. unfold check_fd. cbn [pa_children pa_tree]. rewrite (Fs _ Fc). cbn [ch_node].
  rewrite C54_query by auto. rewrite D. eexists. split; reflexivity.
Qed.
Example C54_case : exists m, send_class s_jail = Some m /\ read_class (m ++ [1; 2]) = Some (s_jail, [1; 2]) /\ find_class s_jail ex_tree = Some 1%nat /\
  read_query (send_query MESGREQUEST LimDisk 12345678901234) = (Some (MESGREQUEST, LimDisk, 12345678901234), false) /\
  NoDup (map nd_name ex_tree).
Proof. eexists. repeat split; try (vm_compute; reflexivity). constructor; [intros [|[]]; discriminate|constructor; [intros []|constructor]]. Qed.

(** ** C50 *)
Theorem C50_longest : forall l sa c w A, idents_ok l -> sa_wf sa -> seen_as sa = Some (w, A) -> node_from_addr l sa = Some c ->
  (exists m P, assigned l w m P c /\ contains w m P A /\ forall m' P' c', assigned l w m' P' c' -> contains w m' P' A -> m' <= m) \/
  (c = node_default l /\ forall m' P' c', assigned l w m' P' c' -> ~ contains w m' P' A).
Proof. exact node_from_addr_spec. Qed.
(** the class is the one of the assign line, which is unique *)
Theorem C50_unique : forall l w m P c P' c' A, idents_ok l -> assigned l w m P c -> assigned l w m P' c' -> contains w m P A -> contains w m P' A -> c = c'.
Proof.
  intros l w m P c P' c' A (Nd & Ok) (s & a & I & Ew & ->) (s' & a' & I' & Ew' & ->) C C'.
  assert (s' = s) by lia. subst s'.
  destruct (Ok _ _ _ _ I) as (x & Ex & Hs & Hm & Oa & La & Za & Md). apply Nat2Z.inj in Ex. subst x.
  destruct (Ok _ _ _ _ I') as (x & Ex & _ & _ & Oa' & La' & Za' & Md'). apply Nat2Z.inj in Ex. subst x.
  assert (E: be_dec (firstn s a) = be_dec (firstn s a')).
  { unfold contains in *. rewrite <- Ew in *. set (g := 2 ^ (w - m)) in *. assert (0 < g) by (apply Z.pow_pos_nonneg; lia).
    pose proof (Z.div_mod (be_dec (firstn s a)) g ltac:(lia)) as D1. pose proof (Z.div_mod (be_dec (firstn s a')) g ltac:(lia)) as D2.
    rewrite Md in D1. rewrite Md' in D2. rewrite D1, D2. f_equal. f_equal. congruence. }
  assert (a = a').
  { rewrite <- (firstn_skipn s a), <- (firstn_skipn s a'), Za, Za'. f_equal. apply be_dec_inj; auto.
    - exact (sub_octets 0 s a Oa). - exact (sub_octets 0 s a' Oa'). - rewrite !firstn_length. lia. }
  subst a'. assert (F := fetch_in l _ c Nd I). rewrite (fetch_in l _ c' Nd I') in F. congruence.
Qed.
(** every IPv4 and IPv6 address gets a class; without assign default it is the root *)
Theorem C50_total : forall l sa w A, seen_as sa = Some (w, A) -> exists c, node_from_addr l sa = Some c.
Proof.
  intros l sa w A S. unfold node_from_addr. destruct sa as [a|a|]; cbn [seen_as] in S; [| |discriminate].
  - destruct (net_loop _ _ _ _); eauto.
  - destruct (v4mapped a); destruct (net_loop _ _ _ _); eauto.
Qed.
Theorem C50_default : forall l c, idents_ok l -> In (PidDefault, c) l -> node_default l = c.
Proof. intros l c (Nd & _) I. unfold node_default. rewrite (fetch_in l _ c Nd I). reflexivity. Qed.
(** 10.0.0.0/8 -> 1, 10.1.0.0/16 -> 2, 2001:db8::/32 -> 3 *)
Definition ex_idents : idents :=
  [(PidNet 8 4 ([10] ++ zeros 15), 1%nat); (PidNet 16 4 ([10; 1] ++ zeros 14), 2%nat); (PidNet 32 16 ([32; 1; 13; 184] ++ zeros 12), 3%nat); (PidDefault, 4%nat)].
Lemma ex_idents_ok : idents_ok ex_idents.
Proof.
  split.
  - repeat (constructor; [cbn; intros H; repeat (destruct H as [H|H]; [discriminate|]); exact H|]). constructor.
  - intros m sz a c I. cbn in I. repeat (destruct I as [I|I]; [injection I as <- <- <- <-|]); try discriminate; try contradiction.
    + exists 4%nat. split; [reflexivity|]. split; [auto|]. split; [lia|]. split; [repeat constructor; lia|]. repeat split.
    + exists 4%nat. split; [reflexivity|]. split; [auto|]. split; [lia|]. split; [repeat constructor; lia|]. repeat split.
    + exists 16%nat. split; [reflexivity|]. split; [auto|]. split; [lia|]. split; [repeat constructor; lia|]. repeat split.
    + destruct I as [I|[]]. discriminate.
Qed.
Example C50_case : node_from_addr ex_idents (SA4 [10; 1; 2; 3]) = Some 2%nat /\ node_from_addr ex_idents (SA4 [10; 2; 2; 3]) = Some 1%nat /\
  node_from_addr ex_idents (SA4 [11; 2; 2; 3]) = Some 4%nat /\ node_from_addr ex_idents (SA6 (zeros 10 ++ [255; 255; 10; 1; 2; 3])) = Some 2%nat /\
  node_from_addr ex_idents (SA6 ([32; 1; 13; 184] ++ zeros 11 ++ [1])) = Some 3%nat /\
  seen_as (SA6 (zeros 10 ++ [255; 255; 10; 1; 2; 3])) = Some (32, be_dec [10; 1; 2; 3]).
Proof. vm_compute. repeat split. Qed.

(** ** C52: only if no class has the name of the user and the client fills its user field with zeros *)
Definition user81 (u : list Z) : list Z := u ++ zeros (81 - length u).
Theorem C52_user_partial : forall t l u c sa, idents_ok l -> In (PidUser (user81 u), c) l -> ~ In 0 u -> (length u <= 80)%nat ->
  (forall n, In n t -> nd_name n <> u) -> control_class t l true (Some (user81 u)) sa = Some c.
Proof.
  intros t l u c sa (Nd & _) I Z L Nn. unfold control_class.
  assert (C: forall r, cstr (u ++ 0 :: r) = u).
  { clear -Z. induction u as [|x u IH]; intros r; cbn [app cstr]; auto. destruct (Z.eqb_spec x 0) as [->|]; [exfalso; apply Z; left; auto|]. rewrite IH; auto. intros H. apply Z. right. auto. }
  assert (E: user81 u = u ++ 0 :: zeros (80 - length u)) by (unfold user81; replace (81 - length u)%nat with (S (80 - length u)) by lia; reflexivity).
  rewrite E at 1. rewrite C. destruct (find_class u t) as [j|] eqn:F.
  - exfalso. destruct (find_class_some t u j F) as (n & A & B). apply (Nn n); auto. eapply nth_error_In; eauto.
  - unfold node_from_userid. rewrite (fetch_in l _ c Nd I). reflexivity.
Qed.
(** without authentication, or for a user who has neither an assign line nor a class of that name, the address decides *)
Theorem C52_by_address : forall t l userid sa,
  control_class t l false userid sa = node_from_addr l sa /\ control_class t l true None sa = node_from_addr l sa /\
  forall u, (forall c, ~ In (PidUser u, c) l) -> (forall n, In n t -> nd_name n <> cstr u) -> control_class t l true (Some u) sa = node_from_addr l sa.
Proof.
  intros t l userid sa. split; [destruct userid; reflexivity|]. split; [reflexivity|]. intros u NU NC. unfold control_class.
  destruct (find_class (cstr u) t) as [j|] eqn:F.
  - exfalso. destruct (find_class_some t _ j F) as (n & A & B). apply (NC n); auto. eapply nth_error_In; eauto.
  - destruct (node_from_userid l u) as [c|] eqn:N; [|reflexivity]. exfalso. unfold node_from_userid in N. apply fetch_some in N. exact (NU c N).
Qed.
Print Assumptions C52_by_address.
(** a user whose name is that of a class gets that class, whatever the assign line says *)
Theorem C52_class_name_refuted : exists t l u c sa, idents_ok l /\ In (PidUser (user81 u), c) l /\ control_class t l true (Some (user81 u)) sa <> Some c.
Proof.
  exists ex_tree, [(PidUser (user81 s_jail), 0%nat)], s_jail, 0%nat, (SA4 [10; 1; 2; 3]). split.
  - split; [constructor; [intros []|constructor]|]. intros m sz a c [I|[]]. discriminate.
  - split; [left; reflexivity|]. vm_compute. discriminate.
Qed.
(** the same user, with the same key, leaves its class by writing something after the end of its name: here the field is
    "bob\0x", for which the key of bob is used, but not the class of bob *)
Definition s_bob : list Z := [98; 111; 98].
Theorem C52_padding_refuted : exists t l pfs field c sa key, idents_ok l /\ In (PidUser (user81 s_bob), c) l /\ length field = 81%nat /\ byte 80 field = 0 /\
  get_pf pfs field = Some key /\ get_pf pfs (user81 s_bob) = Some key /\
  control_class t l true (Some (user81 s_bob)) sa = Some c /\ control_class t l true (Some field) sa <> Some c.
Proof.
  exists ex_tree, [(PidUser (user81 s_bob), 1%nat)], [(s_bob, [1; 2; 3])], (s_bob ++ [0; 120] ++ zeros 76), 1%nat, (SA4 [10; 1; 2; 3]), [1; 2; 3]. split.
  - split; [constructor; [intros []|constructor]|]. intros m sz a c [I|[]]. discriminate.
  - split; [left; reflexivity|]. vm_compute. repeat split; discriminate.
Qed.
Example C52_case : idents_ok [(PidUser (user81 s_bob), 1%nat)] /\ ~ In 0 s_bob /\ (forall n, In n ex_tree -> nd_name n <> s_bob) /\
  control_class ex_tree [(PidUser (user81 s_bob), 1%nat)] true (Some (user81 s_bob)) (SA4 [10; 1; 2; 3]) = Some 1%nat.
Proof.
  split; [split; [constructor; [intros []|constructor]|]; intros m sz a c [I|[]]; discriminate|].
  split; [cbn; lia|]. split; [intros n [<-|[<-|[]]]; discriminate|]. vm_compute. reflexivity.
Qed.

(** ** C53: what a connection that has ended held is never returned *)
Theorem C53_kept : forall pid p, pa_tree (free_child pid p) = pa_tree p.
Proof. reflexivity. Qed.
Definition ex_parent : parent := alloc_child 42 7 (mkParent [] 0 ex_tree).
Theorem C53_exit_refuted : exists p1 p2 m r1 r2 u,
  send_class s_jail = Some m /\ check_fd (1, 1) ex_parent 7 m = Some (mkReact p1 r1 false) /\
  check_fd (1, 1) p1 7 (send_query MESGREQUEST LimBandwidth 100) = Some (mkReact p2 r2 false) /\ read_response r2 = MESGOK /\
  pa_children (free_child 42 p2) = [] /\ u <> 0 /\ entry (pa_tree (free_child 42 p2)) 1 LimBandwidth 100 u /\
  resource_demand (1, 1) (pa_tree (free_child 42 p2)) 1 MESGREQUEST LimBandwidth 1 = Some (false, pa_tree (free_child 42 p2)).
Proof.
  do 6 eexists. split; [vm_compute; reflexivity|]. split; [vm_compute; reflexivity|]. split; [vm_compute; reflexivity|]. split; [vm_compute; reflexivity|].
  split; [reflexivity|]. split; [|split; [|vm_compute; reflexivity]].
  2: { eexists. exists 0%nat. repeat split. }
  discriminate.
Qed.
(** the number of connections is right *)
Theorem C53_sessions : forall p pid fd, pa_sessions p = Z.of_nat (length (pa_children p)) ->
  pa_sessions (alloc_child pid fd p) = Z.of_nat (length (pa_children (alloc_child pid fd p))) /\
  (NoDup (map ch_pid (pa_children p)) -> In pid (map ch_pid (pa_children p)) -> pa_sessions (free_child pid p) = Z.of_nat (length (pa_children (free_child pid p)))).
Proof.
  intros p pid fd E. cbn [alloc_child free_child pa_sessions pa_children length]. split; [lia|]. intros N I. rewrite E.
  assert (G: forall l, NoDup (map ch_pid l) -> ~ In pid (map ch_pid l) -> length (filter (fun c => negb (ch_pid c =? pid)) l) = length l).
  { induction l as [|x l IH]; intros N' I'; cbn [filter]; auto. cbn [map In] in *. inversion N'; subst. destruct (Z.eqb_spec (ch_pid x) pid); [tauto|]. cbn [negb length]. rewrite IH; tauto. }
  revert N I. generalize (pa_children p). induction l as [|x l IH]; intros N I; cbn [map In] in *; [destruct I|]. inversion N; subst. cbn [filter length].
  destruct (Z.eqb_spec (ch_pid x) pid) as [Ex|Ex]; cbn [negb].
  - subst pid. rewrite G by auto. lia.
  - destruct I as [I|I]; [congruence|]. specialize (IH H2 I). cbn [length]. lia.
Qed.

Print Assumptions C49_request.
Print Assumptions C49_claim.
Print Assumptions C49_release.
Print Assumptions C48_limits.
Print Assumptions C48_answered.
Print Assumptions C53_release_partial.
Print Assumptions C50_longest.
Print Assumptions C54_announced.
