(** Proofs about the limit tree. *)
From Coq Require Import ZArith List Bool Lia ZifyBool ZifyNat.
From Verif Require Import Base BaseLemmas Double Double_Proofs Policy_Model Policy_Spec.
Import ListNotations.
Open Scope Z_scope.
Ltac Zify.zify_post_hook ::= Z.div_mod_to_equations.

(** ** Comparison in double precision *)
Lemma cmp_ok : forall p q s, 0 < q -> 0 <= p -> p / q < 2^53 -> 0 <= s -> d_lt (p, q) (d_int s) = (p / q <? s).
Proof.
  intros p q s Hq Hp Hc Hs. unfold d_lt, d_int. cbn [fst snd].
  pose proof (b64_den s 1) as D.
  pose proof (Z.div_mod p q ltac:(lia)) as DM. pose proof (Z.mod_pos_bound p q Hq) as MB. set (c := p / q) in *.
  assert (C0: 0 <= c) by (apply Z.div_pos; lia). set (m := p mod q) in *. clearbody c m. subst p.
  destruct (Z.ltb_spec c s).
  - pose proof (b64_ge_int s 1 (c + 1) ltac:(lia) ltac:(lia) ltac:(lia)) as G. destruct (b64 s 1) as [x y]. cbn [fst snd] in *. apply Z.ltb_lt. assert (A: (c + 1) * y * q <= x * q) by nia. nia.
  - pose proof (b64_int s ltac:(lia)) as G. destruct (b64 s 1) as [x y]. cbn [fst snd] in *. apply Z.ltb_ge. subst x. assert (A: s * q <= q * c + m) by nia. apply (Z.mul_le_mono_nonneg_r _ _ y) in A; lia.
Qed.

Lemma mul_one : forall v, 0 <= v < 2^53 -> 0 < snd (d_mul (d_int v) (1, 1)) /\ 0 <= fst (d_mul (d_int v) (1, 1)) /\ d_trunc (d_mul (d_int v) (1, 1)) = v.
Proof.
  intros v Hv. pose proof (b64_int v ltac:(lia)) as E. pose proof (b64_den v 1) as D. unfold d_mul, d_int. destruct (b64 v 1) as [x y]. cbn [fst snd] in *.
  rewrite !Z.mul_1_r. subst x.
  pose proof (b64_ge_int (v * y) y v ltac:(lia) D ltac:(lia)) as G. pose proof (b64_le_int (v * y) y v ltac:(lia) ltac:(nia) D ltac:(lia)) as L.
  pose proof (b64_den (v * y) y) as D2. unfold d_trunc. destruct (b64 (v * y) y) as [a b]. cbn [fst snd] in *.
  assert (a = v * b) by lia. subst a. split; [lia|]. split; [nia|]. apply Z.div_mul. lia.
Qed.

(** ** Lists *)
Lemma find_lim_some : forall lim l k, find_lim lim l = Some k -> exists v, nth_error l k = Some (lim, v) /\ nth k l (0, 0) = (lim, v).
Proof.
  induction l as [|[k0 v0] l IH]; intros k E; cbn [find_lim] in E; [discriminate|].
  destruct (Z.eqb_spec k0 lim) as [->|].
  - injection E as <-. exists v0. auto.
  - destruct (find_lim lim l) as [k'|]; [|discriminate]. injection E as <-. destruct (IH k' eq_refl) as (v & A & B). exists v. auto.
Qed.

Lemma find_lim_none : forall lim l, find_lim lim l = None -> ~ In lim (map fst l).
Proof.
  induction l as [|[k0 v0] l IH]; intros E C; cbn [find_lim map fst In] in *; [auto|].
  destruct (Z.eqb_spec k0 lim); [discriminate|]. destruct (find_lim lim l); [discriminate|]. destruct C as [C|C]; [auto|]. apply IH; auto.
Qed.

Lemma nodup_key : forall (l : list (Z * Z)) k k' x v v', NoDup (map fst l) -> nth_error l k = Some (x, v) -> nth_error l k' = Some (x, v') -> k = k' /\ v = v'.
Proof.
  intros l k k' x v v' N A B.
  assert (k = k').
  { apply (proj1 (NoDup_nth_error (map fst l)) N).
    - rewrite map_length. apply nth_error_Some. congruence.
    - rewrite !nth_error_map, A, B. reflexivity. }
  subst k'. split; auto. congruence.
Qed.

Lemma modify_nth : forall f t i j, nth_error (modify i f t) j = if (j =? i)%nat then option_map f (nth_error t j) else nth_error t j.
Proof.
  induction t as [|n t IH]; intros i j; cbn [modify].
  - destruct i, j; cbn [modify nth_error]; destruct (_ =? _)%nat; reflexivity.
  - destruct i as [|i], j as [|j]; cbn [modify nth_error Nat.eqb]; auto.
Qed.

Lemma modify_length : forall f t i, length (modify i f t) = length t.
Proof. induction t as [|n t IH]; intros [|i]; cbn [modify length]; auto. Qed.

Lemma upd_nth_error : forall k x (l : list Z) j, (k < length l)%nat -> nth_error (upd k x l) j = if (j =? k)%nat then Some x else nth_error l j.
Proof.
  induction k as [|k IH]; intros x l j H; destruct l as [|y l]; cbn [length] in H; try lia; destruct j as [|j]; cbn [upd nth_error Nat.eqb]; auto.
  apply IH. lia.
Qed.

Lemma upd_len : forall k x (l : list Z), length (upd k x l) = length l.
Proof. induction k as [|k IH]; intros x [|y l]; cbn [upd length]; auto. Qed.

(** ** Shape *)
Lemma same_refl : forall t, same_shape t t.
Proof. intros t. split; auto. intros i n n' A B. rewrite A in B. injection B as <-. auto. Qed.

Lemma same_trans : forall a b c, same_shape a b -> same_shape b c -> same_shape a c.
Proof.
  intros a b c (L1 & S1) (L2 & S2). split; [congruence|]. intros i n n' A C.
  destruct (nth_error b i) as [m|] eqn:B.
  - destruct (S1 i n m A B) as (X1 & X2 & X3 & X4). destruct (S2 i m n' B C) as (Y1 & Y2 & Y3 & Y4). repeat split; congruence.
  - apply nth_error_None in B. assert (i < length a)%nat by (apply nth_error_Some; congruence). lia.
Qed.

Lemma same_some : forall a b i n, same_shape a b -> nth_error a i = Some n -> exists n', nth_error b i = Some n' /\ nd_name n = nd_name n' /\ nd_parent n = nd_parent n' /\ nd_lims n = nd_lims n'.
Proof.
  intros a b i n (L & S) A. destruct (nth_error b i) as [m|] eqn:B.
  - exists m. split; auto. destruct (S i n m A B) as (X & Y & Z & _). auto.
  - apply nth_error_None in B. assert (i < length a)%nat by (apply nth_error_Some; congruence). lia.
Qed.

Lemma same_sym : forall a b, same_shape a b -> same_shape b a.
Proof. intros a b (L & S). split; auto. intros i n n' A B. destruct (S i n' n B A) as (X & Y & Z & U). auto. Qed.

Lemma anc_same : forall a b, same_shape a b -> forall f i, ancestors_from f a i = ancestors_from f b i.
Proof.
  intros a b S. induction f as [|f IH]; intros i; cbn [ancestors_from]; auto.
  destruct (nth_error a i) as [n|] eqn:A.
  - destruct (same_some a b i n S A) as (n' & B & _ & P & _). rewrite B, P. destruct (nd_parent n'); [rewrite IH|]; auto.
  - destruct (nth_error b i) as [n'|] eqn:B; auto. destruct (same_some b a i n' (same_sym _ _ S) B) as (m & C & _). congruence.
Qed.

Lemma anc_fuel : forall t, tree_ok t -> forall f i, (i < f)%nat -> ancestors_from f t i = ancestors t i.
Proof.
  intros t W. unfold ancestors. induction f as [f IH] using lt_wf_ind. intros i Hi.
  destruct f as [|f]; [lia|]. cbn [ancestors_from]. destruct (nth_error t i) as [n|] eqn:E; auto.
  destruct (nd_parent n) as [p|] eqn:P; auto. pose proof (W i n E) as K. unfold node_ok in K. rewrite P in K. destruct K as (_ & _ & _ & _ & K & _).
  f_equal. destruct (Nat.eq_dec f i) as [->|].
  - reflexivity.
  - rewrite (IH f ltac:(lia) p ltac:(lia)). symmetry. apply (IH i ltac:(lia) p). lia.
Qed.

Lemma anc_le : forall t, tree_ok t -> forall f i a, In a (ancestors_from f t i) -> (a <= i)%nat.
Proof.
  intros t W. induction f as [|f IH]; intros i a I; cbn [ancestors_from] in I; [destruct I|].
  destruct (nth_error t i) as [n|] eqn:E; [|destruct I]. destruct I as [->|I]; [lia|].
  destruct (nd_parent n) as [p|] eqn:P; [|destruct I]. pose proof (W i n E) as K. unfold node_ok in K. rewrite P in K. destruct K as (_ & _ & _ & _ & K & _).
  apply IH in I. lia.
Qed.

Lemma anc_step : forall t i n, tree_ok t -> nth_error t i = Some n ->
  ancestors t i = i :: match nd_parent n with Some p => ancestors t p | None => [] end.
Proof.
  intros t i n W E. unfold ancestors at 1. cbn [ancestors_from]. rewrite E. destruct (nd_parent n) as [p|] eqn:P; auto. f_equal.
  apply anc_fuel; auto. pose proof (W i n E) as K. unfold node_ok in K. rewrite P in K. apply K.
Qed.

Lemma entry_fun : forall t a lim v u v' u', tree_ok t -> entry t a lim v u -> entry t a lim v' u' -> v = v' /\ u = u'.
Proof.
  intros t a lim v u v' u' W (n & k & A & B & C) (n' & k' & A' & B' & C'). rewrite A in A'. injection A' as <-.
  destruct (W a n A) as (_ & N & _). destruct (nodup_key _ _ _ _ _ _ N B B') as (<- & ->). split; congruence.
Qed.

Lemma entry_exists : forall t i n lim k v, tree_ok t -> nth_error t i = Some n -> nth_error (nd_lims n) k = Some (lim, v) -> exists u, entry t i lim v u /\ nth k (nd_used n) 0 = u /\ nth_error (nd_used n) k = Some u.
Proof.
  intros t i n lim k v W A B. destruct (W i n A) as (L & _).
  assert (H: (k < length (nd_used n))%nat) by (rewrite L; apply nth_error_Some; congruence).
  destruct (nth_error (nd_used n) k) as [u|] eqn:C; [|apply nth_error_None in C; lia].
  exists u. split; [exists n, k; auto|]. split; auto. apply nth_error_nth. exact C.
Qed.

(** no ancestor has a record for lim if the class has none *)
Lemma no_entry_above : forall t lim, tree_ok t -> forall i n, nth_error t i = Some n -> ~ In lim (map fst (nd_lims n)) -> forall a v u, In a (ancestors t i) -> ~ entry t a lim v u.
Proof.
  intros t lim W. induction i as [i IH] using lt_wf_ind. intros n E N a v u I C.
  rewrite (anc_step t i n W E) in I. destruct I as [<-|I].
  - destruct C as (m & k & A & B & _). rewrite E in A. injection A as <-. apply N. apply nth_error_In in B. apply (in_map fst) in B. exact B.
  - destruct (nd_parent n) as [p|] eqn:P; [|destruct I]. pose proof (W i n E) as K. unfold node_ok in K. rewrite P in K.
    destruct K as (_ & _ & _ & _ & K & pn & Pn & Inc). apply (IH p K pn Pn) with (a := a) (v := v) (u := u); auto.
Qed.

(** ** One step of charging *)
Lemma charged_nil : forall lim d t, charged [] lim d t t.
Proof. intros. split; [apply same_refl|]. intros a l' v u H. split; [intros ([] & _)|auto]. Qed.

Lemma charged_irrelevant : forall l lim d t, tree_ok t -> (forall a v u, In a l -> v <> 0 -> ~ entry t a lim v u) -> charged l lim d t t.
Proof.
  intros l lim d t W N. split; [apply same_refl|]. intros a l' v u H. split; [|auto]. intros (I & -> & V). exfalso. eapply N; eauto.
Qed.

Lemma charged_zero : forall l i lim d t t' u, tree_ok t -> entry t i lim 0 u -> charged l lim d t t' -> charged (i :: l) lim d t t'.
Proof.
  intros l i lim d t t' u W E (S & C). split; auto. intros a l' v u' H. destruct (C a l' v u' H) as (C1 & C2). split.
  - intros ([<-|I] & -> & V); [|apply C1; auto]. destruct (entry_fun _ _ _ _ _ _ _ W E H). congruence.
  - intros N. apply C2. intros (I & J). apply N. split; [right; auto|auto].
Qed.

Lemma charged_add : forall l i lim d t t' v u n k, tree_ok t -> charged l lim d t t' -> ~ In i l -> nth_error t i = Some n -> find_lim lim (nd_lims n) = Some k ->
  entry t i lim v u -> v <> 0 -> 0 <= u + d < 2^64 -> charged (i :: l) lim d t (modify i (add_used k d) t').
Proof.
  intros l i lim d t t' v u n k W (S & C) NI E F En V R.
  destruct (same_some t t' i n S E) as (n' & E' & Nm & Pr & Lm).
  destruct (find_lim_some _ _ _ F) as (v' & Fk & _).
  (* the entry in t' is unchanged so far *)
  destruct (C i lim v u En) as (_ & C2). specialize (C2 ltac:(intros (I & _); apply NI; exact I)).
  destruct C2 as (m & k' & M1 & M2 & M3). rewrite E' in M1. injection M1 as <-.
  destruct (W i n E) as (_ & ND & _). rewrite <- Lm in M2. destruct (nodup_key _ _ _ _ _ _ ND Fk M2) as (<- & ->).
  assert (Lk: (k < length (nd_used n'))%nat) by (apply nth_error_Some; congruence).
  assert (Val: nth k (nd_used n') 0 = u) by (apply nth_error_nth; auto).
  assert (Au: nd_used (add_used k d n') = upd k (u + d) (nd_used n')).
  { unfold add_used. cbn [nd_used]. rewrite Val. unfold u64. rewrite Z.mod_small by lia. reflexivity. }
  split.
  - apply same_trans with (b := t'); auto. split; [rewrite modify_length; auto|].
    intros j x x' X X'. rewrite modify_nth in X'. destruct (Nat.eqb_spec j i) as [->|].
    + rewrite X in X'. cbn [option_map] in X'. injection X' as <-. unfold add_used. cbn [nd_name nd_parent nd_lims nd_used]. rewrite upd_len. auto.
    + rewrite X in X'. injection X' as <-. auto.
  - intros a l' va ua Ea. destruct (C a l' va ua Ea) as (Ca & Cb).
    destruct (Nat.eq_dec a i) as [->|Na].
    + specialize (Cb ltac:(intros (I & _); auto)). destruct Cb as (m & ka & K1 & K2 & K3). rewrite E' in K1. injection K1 as <-.
      assert (Nx: nth_error (modify i (add_used k d) t') i = Some (add_used k d n')) by (rewrite modify_nth, Nat.eqb_refl, E'; reflexivity).
      split.
      * intros (_ & -> & _). rewrite <- Lm in K2. destruct (nodup_key _ _ _ _ _ _ ND Fk K2) as (<- & <-). exists (add_used k d n'), k.
        split; [exact Nx|]. split; [unfold add_used; cbn [nd_lims]; rewrite <- Lm; exact Fk|]. rewrite Au, upd_nth_error, Nat.eqb_refl by auto. congruence.
      * intros N. exists (add_used k d n'), ka. split; [exact Nx|]. split; [unfold add_used; cbn [nd_lims]; exact K2|].
        rewrite Au, upd_nth_error by auto. destruct (Nat.eqb_spec ka k) as [->|]; [|exact K3].
        rewrite <- Lm in K2. assert (l' = lim /\ va = v) as (-> & ->) by (rewrite Fk in K2; split; congruence). exfalso. apply N. split; [left|]; auto.
    + split.
      * intros ([I|I] & J); [congruence|]. destruct (Ca (conj I J)) as (m & ka & K1 & K2). exists m, ka. split; [|exact K2].
        rewrite modify_nth. destruct (Nat.eqb_spec a i); [congruence|exact K1].
      * intros N. destruct (Cb ltac:(intros (I & J); apply N; split; [right|]; auto)) as (m & ka & K1 & K2). exists m, ka. split; [|exact K2].
        rewrite modify_nth. destruct (Nat.eqb_spec a i); [congruence|exact K1].
Qed.

(** ** The recursion *)
Definition fudge_of (fudge : Z * Z) (query : Z) : Z * Z := if query =? MESGCLAIM then fudge else (1, 1).

Lemma cmp_cap : forall fudge query v s, 0 < snd fudge -> 0 <= fst fudge -> 0 <= v < 2^53 -> cap fudge query v < 2^53 -> 0 <= s ->
  d_lt (d_mul (d_int v) (fudge_of fudge query)) (d_int s) = (cap fudge query v <? s).
Proof.
  intros fudge query v s F1 F2 Hv Hc Hs. unfold fudge_of, cap in *. destruct (query =? MESGCLAIM).
  - pose proof (b64_den v 1) as D. pose proof (b64_nonneg v 1 ltac:(lia) ltac:(lia)) as N.
    unfold d_trunc in *. destruct fudge as [fp fq]. unfold d_mul, d_int in *. destruct (b64 v 1) as [x y]. cbn [fst snd] in *.
    pose proof (b64_den (x * fp) (y * fq)) as D2. pose proof (b64_nonneg (x * fp) (y * fq) ltac:(nia) ltac:(nia)) as N2.
    destruct (b64 (x * fp) (y * fq)) as [p q]. cbn [fst snd] in *. apply (cmp_ok p q s); auto.
  - destruct (mul_one v Hv) as (A & B & C). unfold d_trunc in C. destruct (d_mul (d_int v) (1, 1)) as [p q]. cbn [fst snd] in *. rewrite (cmp_ok p q s); auto; [|lia]. rewrite C. reflexivity.
Qed.

(** limits small enough for exact comparisons *)
Definition small (fudge : Z * Z) (query lim : Z) (t : tree) (l : list nat) : Prop :=
  forall a v u, In a l -> entry t a lim v u -> v < 2^53 /\ cap fudge query v < 2^53.

Lemma int_demand_spec : forall fudge query lim val, 0 < snd fudge -> 0 <= fst fudge -> 0 <= val < 2^63 -> def_limit lim = 0 ->
  query = MESGREQUEST \/ query = MESGRELEASE \/ (query = MESGCLAIM /\ lim = LimDisk) ->
  forall t, tree_ok t -> (forall a v u, entry t a lim v u -> u < 2^63) -> forall i n, nth_error t i = Some n -> small fudge query lim t (ancestors t i) -> forall fuel, (i < fuel)%nat ->
  exists b t', int_demand fudge fuel t (Some i) query lim val = Some (b, t') /\
    (b = true <-> forall a v u, In a (ancestors t i) -> entry t a lim v u -> v <> 0 ->
       if query =? MESGRELEASE then val <= u else u + val <= cap fudge query v) /\
    (b = false -> t' = t) /\ (b = true -> charged (ancestors t i) lim (if query =? MESGRELEASE then - val else val) t t').
Proof.
  intros fudge query lim val F1 F2 Hval Hd Hq t W Hu. induction i as [i IH] using lt_wf_ind. intros n E Sm fuel Hf.
  destruct fuel as [|fuel]; [lia|]. cbn [int_demand]. rewrite E.
  pose proof (W i n E) as K. destruct K as (K1 & K2 & K3 & K4 & K5).
  set (P := fun v u => if query =? MESGRELEASE then val <= u else u + val <= cap fudge query v).
  set (d := if query =? MESGRELEASE then - val else val).
  destruct (find_lim lim (nd_lims n)) as [k|] eqn:Fk.
  2:{ rewrite Hd. cbn [Z.eqb]. exists true, t. split; auto. pose proof (find_lim_none _ _ Fk) as NI.
      pose proof (no_entry_above t lim W i n E NI) as NE. 
      split; [split; [intros _ a v u I En; exfalso; eapply NE; eauto|auto]|]. split; [discriminate|]. intros _. apply charged_irrelevant; auto. }
  destruct (find_lim_some _ _ _ Fk) as (v & Kv & Nv). rewrite Nv. cbn [snd].
  destruct (entry_exists t i n lim k v W E Kv) as (u & En & Nu & Nue). rewrite Nu.
  assert (Hu0: 0 <= u < 2^63).
  { split; [|eapply Hu; eauto]. apply nth_error_In in Nue. apply (proj1 (Forall_forall _ _) K4) in Nue. lia. }
  assert (Hv0: 0 <= v). { apply nth_error_In in Kv. apply (proj1 (Forall_forall _ _) K3) in Kv. cbn [snd] in Kv. lia. }
  assert (Anc: ancestors t i = i :: match nd_parent n with Some p => ancestors t p | None => [] end) by (apply anc_step; auto).
  assert (Sv: v < 2^53 /\ cap fudge query v < 2^53) by (apply (Sm i v u); auto; rewrite Anc; left; auto).
  (* the parent *)
  assert (Par: exists b t', int_demand fudge fuel t (nd_parent n) query lim val = Some (b, t') /\
     let l := match nd_parent n with Some p => ancestors t p | None => [] end in
     (b = true <-> forall a v u, In a l -> entry t a lim v u -> v <> 0 -> P v u) /\ (b = false -> t' = t) /\ (b = true -> charged l lim d t t') /\ ~ In i l).
  { destruct (nd_parent n) as [p|] eqn:Pn.
    - destruct K5 as (K5 & pn & K6 & _).
      destruct (IH p K5 pn K6 ltac:(intros a v' u' I; apply Sm; rewrite Anc; right; auto) fuel ltac:(lia)) as (b & t' & I1 & I2 & I3 & I4).
      exists b, t'. split; [exact I1|]. split; [exact I2|]. split; [exact I3|]. split; [exact I4|]. intros C. apply anc_le in C; auto. lia.
    - exists true, t. destruct fuel; cbn [int_demand]; (split; [reflexivity|]; split; [split; [intros _ a v' u' []|auto]|]; split; [discriminate|]; split; [intros _; apply charged_nil|intros []]). }
  destruct Par as (b & t' & Pe & Pb & Pf & Pc & NI). cbv zeta in *.
  set (l := match nd_parent n with Some p => ancestors t p | None => [] end) in *. rewrite Anc.
  assert (All: (forall a v u, In a (i :: l) -> entry t a lim v u -> v <> 0 -> P v u) <-> (v <> 0 -> P v u) /\ (forall a v u, In a l -> entry t a lim v u -> v <> 0 -> P v u)).
  { split.
    - intros H. split; [intros; apply (H i v u); auto; left; auto|]. intros a v' u' I. apply H. right. auto.
    - intros (H1 & H2) a v' u' [<-|I] En' V; [|eapply H2; eauto]. destruct (entry_fun _ _ _ _ _ _ _ W En En') as (<- & <-). auto. }
  destruct (Z.eqb_spec v 0) as [V0|V0].
  { exists b, t'. split; [exact Pe|]. subst v. split; [|split; [exact Pf|intros Hb; apply (charged_zero l i lim d t t' u); auto]].
    rewrite Pb. split; [intros H; apply All; split; [congruence|exact H]|intros H; apply All in H; apply H]. }
  destruct (Z.eqb_spec query MESGRELEASE) as [Q|Q].
  - assert (Pvu: P v u <-> val <= u) by (unfold P; tauto).
    assert (Dd: d = - val) by reflexivity.
    destruct (Z.ltb_spec u val).
    + exists false, t. split; auto. split; [|split; [auto|discriminate]]. split; [discriminate|]. intros H'. exfalso.
      specialize (H' i v u ltac:(left; auto) En V0). lia.
    + rewrite Pe. destruct b.
      * exists true, (modify i (add_used k (- val)) t'). split; auto. split; [|split; [discriminate|intros _; rewrite <- Dd; apply (charged_add l i lim d t t' v u n k); auto; lia]].
        split; auto. intros _. assert (H': forall a v u, In a (i :: l) -> entry t a lim v u -> v <> 0 -> P v u) by (apply All; split; [intros _; apply Pvu; auto|apply Pb; auto]).
        intros a v' u' I Ea Va. specialize (H' a v' u' I Ea Va). exact H'.
      * exists false, t'. split; auto. rewrite (Pf eq_refl). split; [|split; [auto|discriminate]]. split; [discriminate|]. intros H'. apply Pb. intros a v' u' I Ea Va.
        apply (H' a v' u'); auto. right. auto.
  - assert (Pvu: P v u <-> u + val <= cap fudge query v) by (unfold P; tauto).
    assert (Dd: d = val) by reflexivity.
    assert (Fu: (if query =? MESGCLAIM then if lim =? LimDisk then Some fudge else None else if query =? MESGREQUEST then Some (1, 1) else None) = Some (fudge_of fudge query)).
    { unfold fudge_of. destruct Hq as [->|[->|(-> & ->)]]; [reflexivity|contradiction|reflexivity]. }
    rewrite Fu. assert (U: u64 (val + u) = val + u) by (unfold u64; apply Z.mod_small; lia). rewrite U.
    rewrite (cmp_cap fudge query v (val + u)) by (auto; lia).
    destruct (Z.ltb_spec (cap fudge query v) (val + u)).
    + exists false, t. split; auto. split; [|split; [auto|discriminate]]. split; [discriminate|]. intros H'. exfalso. specialize (H' i v u ltac:(left; auto) En V0). lia.
    + rewrite Pe. destruct b.
      * exists true, (modify i (add_used k val) t'). split; auto. split; [|split; [discriminate|intros _; rewrite <- Dd; apply (charged_add l i lim d t t' v u n k); auto; lia]].
        split; auto. intros _. assert (H': forall a v u, In a (i :: l) -> entry t a lim v u -> v <> 0 -> P v u) by (apply All; split; [intros _; apply Pvu; lia|apply Pb; auto]).
        intros a v' u' I Ea Va. specialize (H' a v' u' I Ea Va). exact H'.
      * exists false, t'. split; auto. rewrite (Pf eq_refl). split; [|split; [auto|discriminate]]. split; [discriminate|]. intros H'. apply Pb. intros a v' u' I Ea Va.
        apply (H' a v' u'); auto. right. auto.
Qed.

(** the shape is kept, so the tree stays well formed *)
Lemma charged_ok : forall l lim d t t', tree_ok t -> charged l lim d t t' ->
  (forall a v u, In a l -> v <> 0 -> entry t a lim v u -> 0 <= u + d < 2^64) -> tree_ok t'.
Proof.
  intros l lim d t t' W (S & C) R.
  assert (Len: forall i n, nth_error t' i = Some n -> length (nd_used n) = length (nd_lims n)).
  { intros i n' E'. destruct (same_some t' t i n' (same_sym _ _ S) E') as (n & E & _). destruct S as (_ & S). destruct (S i n n' E E') as (_ & _ & X & Y).
    destruct (W i n E) as (K & _). congruence. }
  intros i n' E'.
  destruct (same_some t' t i n' (same_sym _ _ S) E') as (n & E & _ & Pr & Lm).
  destruct (W i n E) as (K1 & K2 & K3 & K4 & K5). unfold node_ok. rewrite Lm, Pr. split; [rewrite (Len i n' E'), Lm; reflexivity|]. split; [exact K2|]. split; [exact K3|]. split.
  - apply Forall_forall. intros u' I. apply In_nth_error in I. destruct I as (k & Ik).
    assert (Hk: (k < length (nd_lims n))%nat) by (rewrite <- Lm, <- (Len i n' E'); apply nth_error_Some; congruence).
    destruct (nth_error (nd_lims n) k) as [[lm v]|] eqn:Nk; [|apply nth_error_None in Nk; lia].
    destruct (entry_exists t i n lm k v W E Nk) as (u & En & _ & Nu).
    assert (U: 0 <= u < 2^64) by (apply nth_error_In in Nu; apply (proj1 (Forall_forall _ _) K4) in Nu; exact Nu).
    destruct (C i lm v u En) as (C1 & C2).
    assert (Dec: {In i l /\ lm = lim /\ v <> 0} + {~ (In i l /\ lm = lim /\ v <> 0)}).
    { destruct (in_dec Nat.eq_dec i l); [|right; tauto]. destruct (Z.eq_dec lm lim); [|right; tauto]. destruct (Z.eq_dec v 0); [right; tauto|left; auto]. }
    destruct Dec as [Y|N].
    + destruct (C1 Y) as (m & k' & A & B & D). rewrite E' in A. injection A as <-. rewrite Lm in B.
      destruct (nodup_key _ _ _ _ _ _ K2 Nk B) as (<- & _). rewrite Ik in D. injection D as ->. destruct Y as (Y1 & -> & Y2). eapply R; eauto.
    + destruct (C2 N) as (m & k' & A & B & D). rewrite E' in A. injection A as <-. rewrite Lm in B.
      destruct (nodup_key _ _ _ _ _ _ K2 Nk B) as (<- & _). rewrite Ik in D. injection D as ->. exact U.
  - destruct (nd_parent n) as [p|]; auto. destruct K5 as (K5 & pn & K6 & K7). split; auto.
    destruct (same_some t t' p pn S K6) as (pn' & P1 & _ & _ & P2). exists pn'. split; auto. rewrite <- P2. exact K7.
Qed.

(** a claim for something else than disk space *)
Lemma int_demand_claim : forall fudge query lim val, query = MESGCLAIM -> lim <> LimDisk -> def_limit lim = 0 ->
  forall t, tree_ok t -> forall i n, nth_error t i = Some n -> forall fuel, (i < fuel)%nat ->
  exists b, int_demand fudge fuel t (Some i) query lim val = Some (b, t) /\ (b = true -> forall a v u, In a (ancestors t i) -> entry t a lim v u -> v = 0).
Proof.
  intros fudge query lim val Q L Hd t W. induction i as [i IH] using lt_wf_ind. intros n E fuel Hf.
  destruct fuel as [|fuel]; [lia|]. cbn [int_demand]. rewrite E. destruct (W i n E) as (K1 & K2 & K3 & K4 & K5).
  destruct (find_lim lim (nd_lims n)) as [k|] eqn:Fk.
  2:{ rewrite Hd. exists true. split; auto. intros _ a v u I En. exfalso. pose proof (find_lim_none _ _ Fk) as NI. exact (no_entry_above t lim W i n E NI a v u I En). }
  destruct (find_lim_some _ _ _ Fk) as (v & Kv & Nv). rewrite Nv. cbn [snd]. destruct (Z.eqb_spec v 0) as [->|].
  - rewrite (anc_step t i n W E).
    destruct (entry_exists t i n lim k 0 W E Kv) as (u & En & _).
    destruct (nd_parent n) as [p|] eqn:P.
    + destruct K5 as (K5 & pn & K6 & _). destruct (IH p K5 pn K6 fuel ltac:(lia)) as (b & B1 & B2). exists b. split; auto.
      intros Hb a v' u' [<-|I] Ea; [|eapply B2; eauto]. destruct (entry_fun _ _ _ _ _ _ _ W En Ea). auto.
    + exists true. split; [destruct fuel; reflexivity|]. intros _ a v' u' [<-|[]] Ea. destruct (entry_fun _ _ _ _ _ _ _ W En Ea). auto.
  - rewrite Q. cbn [Z.eqb Pos.eqb]. destruct (Z.eqb_spec lim LimDisk); [contradiction|]. exists false. split; auto. discriminate.
Qed.

Lemma counted_type : forall lim, lim_type lim = LimInt <-> counted lim.
Proof.
  intros lim. unfold lim_type, counted. destruct (Z.eqb_spec lim 1), (Z.eqb_spec lim 3), (Z.eqb_spec lim 6), (Z.eqb_spec lim 4), (Z.eqb_spec lim 5); cbn [orb]; split; intros; try discriminate; auto; lia.
Qed.

Lemma counted_def : forall lim, counted lim -> def_limit lim = 0.
Proof. intros lim [->|[-> | ->]]; reflexivity. Qed.

(** ** Histories *)
Lemma entry_back : forall t t' l lim d a lim' v u', tree_ok t -> tree_ok t' -> charged l lim d t t' -> entry t' a lim' v u' ->
  exists u, entry t a lim' v u /\ ((In a l /\ lim' = lim /\ v <> 0) /\ u' = u + d \/ ~ (In a l /\ lim' = lim /\ v <> 0) /\ u' = u).
Proof.
  intros t t' l lim d a lim' v u' W W' (S & C) (n' & k & E' & A & B).
  destruct (same_some t' t a n' (same_sym _ _ S) E') as (n & E & _ & _ & Lm). rewrite Lm in A.
  destruct (entry_exists t a n lim' k v W E A) as (u & En & _). exists u. split; auto.
  assert (En': entry t' a lim' v u') by (exists n', k; rewrite Lm; auto).
  destruct (C a lim' v u En) as (C1 & C2).
  assert (Dec: {In a l /\ lim' = lim /\ v <> 0} + {~ (In a l /\ lim' = lim /\ v <> 0)}).
  { destruct (in_dec Nat.eq_dec a l); [|right; tauto]. destruct (Z.eq_dec lim' lim); [|right; tauto]. destruct (Z.eq_dec v 0); [right; tauto|left; auto]. }
  destruct Dec as [Y|N]; [left|right]; split; auto.
  - destruct (entry_fun _ _ _ _ _ _ _ W' En' (C1 Y)). auto.
  - destruct (entry_fun _ _ _ _ _ _ _ W' En' (C2 N)). auto.
Qed.

Lemma entry_u64 : forall t a lim v u, tree_ok t -> entry t a lim v u -> 0 <= u < 2^64 /\ 0 <= v < 2^64.
Proof.
  intros t a lim v u W (n & k & E & A & B). destruct (W a n E) as (_ & _ & K3 & K4 & _). apply nth_error_In in A, B.
  apply (proj1 (Forall_forall _ _) K3) in A. apply (proj1 (Forall_forall _ _) K4) in B. cbn [snd] in A. auto.
Qed.

(** one query *)
Lemma demand_step : forall fudge B, start_ok B -> forall t c query lim val, 0 < snd fudge -> 0 <= fst fudge -> tree_ok t -> limits_exact fudge t -> within fudge B t -> zero_unlimited t -> hop_ok t c query val ->
  exists b t', resource_demand fudge t c query lim val = Some (b, t') /\ tree_ok t' /\ same_shape t t' /\ limits_exact fudge t' /\ within fudge B t' /\ zero_unlimited t' /\
    (b = false -> t' = t) /\
    forall a lim' v u', counted lim' -> entry t' a lim' v u' -> v <> 0 -> exists u, entry t a lim' v u /\ u' = u + net1 t a lim' (mkHop c query lim val b).
Proof.
  intros fudge B HB t c query lim val F1 F2 W Ex Wi Zu (Hc & Hv & Hq).
  (* the tree is unchanged and the query does not count *)
  assert (Same: forall b, (b = true -> forall a lim' v u, counted lim' -> entry t a lim' v u -> v <> 0 -> net1 t a lim' (mkHop c query lim val b) = 0) ->
     exists t', t' = t /\ tree_ok t' /\ same_shape t t' /\ limits_exact fudge t' /\ within fudge B t' /\ zero_unlimited t' /\ (b = false -> t' = t) /\
     forall a lim' v u', counted lim' -> entry t' a lim' v u' -> v <> 0 -> exists u, entry t a lim' v u /\ u' = u + net1 t a lim' (mkHop c query lim val b)).
  { intros b Hb. exists t. repeat (split; [solve [auto | apply same_refl]|]). intros a lim' v u' Cn En V. exists u'. split; auto. destruct b.
    - rewrite (Hb eq_refl a lim' v u'); auto. lia.
    - unfold net1. cbn [h_ok andb]. lia. }
  destruct (nth_error t c) as [n|] eqn:E; [|apply nth_error_None in E; lia].
  unfold resource_demand. destruct (lim_type lim) eqn:Lt.
  - (* counted *)
    apply counted_type in Lt.
    assert (Case: (query = MESGREQUEST \/ query = MESGRELEASE \/ (query = MESGCLAIM /\ lim = LimDisk)) \/ (query = MESGCLAIM /\ lim <> LimDisk)).
    { destruct (Z.eq_dec lim LimDisk); tauto. }
    destruct Case as [Case|(Q & L)].
    + assert (Hu: forall a v u, entry t a lim v u -> u < 2^63).
      { intros a v u En. destruct (Ex a lim v u Lt En) as (X1 & X2). destruct (Z.eq_dec v 0) as [->|V].
        - rewrite (Zu a lim u Lt En). lia.
        - pose proof (Wi a lim v u Lt En V). pose proof (HB a lim). lia. }
      assert (Sm: small fudge query lim t (ancestors t c)).
      { intros a v u _ En. destruct (Ex a lim v u Lt En) as (X1 & X2). split; auto. unfold bound in X2.
        destruct Case as [->|[->|(-> & ->)]]; unfold cap; cbn [Z.eqb Pos.eqb]; try lia. cbn [Z.eqb Pos.eqb] in X2. unfold cap in X2. cbn [Z.eqb Pos.eqb] in X2. lia. }
      destruct (int_demand_spec fudge query lim val F1 F2 Hv (counted_def _ Lt) Case t W Hu c n E Sm (S c) ltac:(lia)) as (b & t' & D1 & D2 & D3 & D4).
      exists b, t'. split; [exact D1|]. destruct b.
      * specialize (D4 eq_refl). pose proof (proj1 D2 eq_refl) as Fit.
        assert (W': tree_ok t').
        { eapply charged_ok; eauto. intros a v u I V En. specialize (Fit a v u I En V). pose proof (entry_u64 _ _ _ _ _ W En). pose proof (Hu a v u En).
          destruct (query =? MESGRELEASE); lia. }
        destruct D4 as (Sh & Ch). assert (D4: charged (ancestors t c) lim (if query =? MESGRELEASE then - val else val) t t') by (split; auto).
        split; [exact W'|]. split; [exact Sh|].
        assert (Bk: forall a lim' v u', counted lim' -> entry t' a lim' v u' -> exists u, entry t a lim' v u /\ ((In a (ancestors t c) /\ lim' = lim /\ v <> 0) /\ u' = u + (if query =? MESGRELEASE then - val else val) \/ ~ (In a (ancestors t c) /\ lim' = lim /\ v <> 0) /\ u' = u)).
        { intros a lim' v u' Cn En. eapply entry_back; eauto. }
        split. { intros a lim' v u' Cn En. destruct (Bk a lim' v u' Cn En) as (u & Eu & _). eapply Ex; eauto. }
        split. { intros a lim' v u' Cn En V. destruct (Bk a lim' v u' Cn En) as (u & Eu & [((I & -> & _) & ->)|(_ & ->)]); [|eapply Wi; eauto].
          specialize (Fit a v u I Eu V). pose proof (Wi a lim v u Cn Eu V). destruct (Z.eqb_spec query MESGRELEASE); [lia|].
          unfold bound in *. destruct Case as [->|[->|(-> & ->)]]; unfold cap in *; cbn [Z.eqb Pos.eqb] in *; try lia. destruct (Z.eqb_spec lim LimDisk); lia. }
        split. { intros a lim' u' Cn En. destruct (Bk a lim' 0 u' Cn En) as (u & Eu & [((_ & _ & X) & _)|(_ & ->)]); [congruence|]. eapply Zu; eauto. }
        split; [discriminate|]. intros a lim' v u' Cn En V. destruct (Bk a lim' v u' Cn En) as (u & Eu & [((I & -> & _) & ->)|(N & ->)]); exists u; (split; [exact Eu|]).
        -- unfold net1. cbn [h_ok h_lim h_class h_query h_val andb]. rewrite Z.eqb_refl. cbn [andb]. unfold mem.
           assert (existsb (Nat.eqb a) (ancestors t c) = true) as -> by (apply existsb_exists; exists a; split; auto; apply Nat.eqb_refl). reflexivity.
        -- unfold net1. cbn [h_ok h_lim h_class h_query h_val andb]. destruct (Z.eqb_spec lim lim') as [->|]; cbn [andb]; [|lia].
           destruct (mem a (ancestors t c)) eqn:M; [|lia]. exfalso. apply N. unfold mem in M. apply existsb_exists in M. destruct M as (x & M1 & M2). apply Nat.eqb_eq in M2. subst x. auto.
      * rewrite (D3 eq_refl). destruct (Same false ltac:(discriminate)) as (t'' & -> & S1). exact S1.
    + destruct (int_demand_claim fudge query lim val Q L (counted_def _ Lt) t W c n E (S c) ltac:(lia)) as (b & D1 & D2).
      exists b, t. split; [exact D1|]. destruct (Same b) as (t'' & -> & S1); [|exact S1].
      intros Hb a lim' v u Cn En V. unfold net1. cbn [h_ok h_lim h_class h_query h_val]. rewrite Hb. cbn [andb].
      destruct (Z.eqb_spec lim lim') as [->|]; cbn [andb]; auto. destruct (mem a (ancestors t c)) eqn:M; auto. exfalso. apply V.
      unfold mem in M. apply existsb_exists in M. destruct M as (x & M1 & M2). apply Nat.eqb_eq in M2. subst x. eapply D2; eauto.
  - (* boolean *)
    assert (NC: forall lim', counted lim' -> lim <> lim').
    { intros lim' Cn ->. apply counted_type in Cn. congruence. }
    assert (S0: forall b, b = true -> forall a lim' v u, counted lim' -> entry t a lim' v u -> v <> 0 -> net1 t a lim' (mkHop c query lim val b) = 0).
    { intros b Hb a lim' v u Cn En V. unfold net1. cbn [h_ok h_lim]. destruct (Z.eqb_spec lim lim'); [exfalso; eapply NC; eauto|]. rewrite andb_false_r. reflexivity. }
    destruct (query =? MESGRELEASE).
    + exists true, t. split; auto. destruct (Same true (S0 true)) as (t'' & -> & S1). exact S1.
    + rewrite E. exists (get_limit n lim =? val), t. split; auto. destruct (Same _ (S0 (get_limit n lim =? val))) as (t'' & -> & S1). exact S1.
  - exists false, t. split; auto. destruct (Same false ltac:(discriminate)) as (t'' & -> & S1). exact S1.
Qed.

Lemma net1_same : forall a b, same_shape a b -> forall x lim h, net1 a x lim h = net1 b x lim h.
Proof. intros a b S x lim h. unfold net1, ancestors. rewrite (anc_same a b S). reflexivity. Qed.
Lemma net_same : forall a b, same_shape a b -> forall x lim l, net a x lim l = net b x lim l.
Proof. intros a b S x lim. induction l as [|h l IH]; cbn [net fold_right]; auto. rewrite (net1_same a b S). unfold net in IH. rewrite IH. reflexivity. Qed.

Lemma broker_inv : forall fudge B, start_ok B -> 0 < snd fudge -> 0 <= fst fudge -> forall t l t', broker fudge t l t' -> tree_ok t -> limits_exact fudge t -> within fudge B t -> zero_unlimited t ->
  Forall (fun h => hop_ok t (h_class h) (h_query h) (h_val h)) l ->
  tree_ok t' /\ same_shape t t' /\ limits_exact fudge t' /\ within fudge B t' /\ zero_unlimited t' /\
  forall a lim v u', counted lim -> entry t' a lim v u' -> v <> 0 -> exists u, entry t a lim v u /\ u' = u + net t a lim l.
Proof.
  intros fudge B HB F1 F2 t l t' Br. induction Br as [t|t h t1 l t2 D Br IH]; intros W Ex Wi Zu Ho.
  - repeat (split; [solve [auto | apply same_refl]|]). intros a lim v u' _ En _. exists u'. split; auto. cbn [net fold_right]. lia.
  - inversion Ho as [|? ? O1 O2]; subst. destruct (demand_step fudge B HB t (h_class h) (h_query h) (h_lim h) (h_val h) F1 F2 W Ex Wi Zu O1) as (b & t1' & E & W1 & S1 & Ex1 & Wi1 & Zu1 & _ & N1).
    rewrite D in E. injection E as <- <-.
    destruct IH as (W2 & S2 & Ex2 & Wi2 & Zu2 & N2); auto.
    { eapply Forall_impl; [|exact O2]. intros x (X1 & X2). split; auto. destruct S1 as (<- & _). exact X1. }
    split; [exact W2|]. split; [eapply same_trans; eauto|]. repeat (split; [assumption|]).
    intros a lim v u' Cn En V. destruct (N2 a lim v u' Cn En V) as (u1 & En1 & ->). destruct (N1 a lim v u1 Cn En1 V) as (u & En0 & ->).
    exists u. split; auto. cbn [net fold_right]. fold (net t a lim l). rewrite <- (net_same t t1 S1).
    replace {| h_class := h_class h; h_query := h_query h; h_lim := h_lim h; h_val := h_val h; h_ok := h_ok h |} with h by (destruct h; reflexivity). lia.
Qed.

Lemma broker_total : forall fudge B, start_ok B -> 0 < snd fudge -> 0 <= fst fudge -> forall ops t, tree_ok t -> limits_exact fudge t -> within fudge B t -> zero_unlimited t ->
  Forall (fun o : nat * Z * Z * Z => let '(c, q, lim, val) := o in hop_ok t c q val) ops ->
  exists l t', broker fudge t l t' /\ map (fun h => (h_class h, h_query h, h_lim h, h_val h)) l = ops.
Proof.
  intros fudge B HB F1 F2. induction ops as [|[[[c q] lim] val] ops IH]; intros t W Ex Wi Zu Ho.
  - exists [], t. split; [constructor|reflexivity].
  - inversion Ho as [|? ? O1 O2]; subst.
    destruct (demand_step fudge B HB t c q lim val F1 F2 W Ex Wi Zu O1) as (b & t1 & E & W1 & S1 & Ex1 & Wi1 & Zu1 & _).
    destruct (IH t1 W1 Ex1 Wi1 Zu1) as (l & t' & Br & M).
    { eapply Forall_impl; [|exact O2]. intros [[[c' q'] l'] v'] (X1 & X2). split; auto. destruct S1 as (<- & _). exact X1. }
    exists (mkHop c q lim val b :: l), t'. split; [econstructor; [exact E|exact Br]|]. cbn [map h_class h_query h_lim h_val]. rewrite M. reflexivity.
Qed.

(** usage of a class is the sum of what the classes below it hold *)
Definition zsum (f : nat -> Z) (l : list nat) : Z := fold_right (fun i s => f i + s) 0 l.
Lemma zsum_add : forall f g l, zsum (fun i => f i + g i) l = zsum f l + zsum g l.
Proof. induction l; cbn [zsum fold_right] in *; [lia|]. unfold zsum in *. lia. Qed.
Lemma zsum_ge : forall f l i, (forall j, 0 <= f j) -> In i l -> f i <= zsum f l.
Proof.
  induction l as [|x l IH]; intros i P I; [destruct I|]. cbn [zsum fold_right]. assert (0 <= zsum f l) by (clear -P; induction l; cbn [zsum fold_right] in *; [lia|]; specialize (P a); unfold zsum in *; lia).
  destruct I as [->|I]; [unfold zsum in *; lia|]. specialize (IH i P I). specialize (P x). unfold zsum in *. lia.
Qed.
Lemma zsum_single : forall l c x, NoDup l -> In c l -> zsum (fun i => if (c =? i)%nat then x else 0) l = x.
Proof.
  induction l as [|y l IH]; intros c x N I; [destruct I|]. inversion N; subst. cbn [zsum fold_right]. destruct (Nat.eqb_spec c y) as [->|].
  - assert (Z0: zsum (fun i => if (y =? i)%nat then x else 0) l = 0).
    { clear -H1. induction l as [|z l IH]; cbn [zsum fold_right]; auto. cbn [In] in H1. destruct (Nat.eqb_spec y z) as [->|]; [tauto|]. unfold zsum in IH. rewrite IH by tauto. lia. }
    unfold zsum in Z0. rewrite Z0. lia.
  - destruct I as [->|I]; [congruence|]. unfold zsum in IH. rewrite IH; auto.
Qed.

Lemma zsum_ext : forall f g l, (forall i, f i = g i) -> zsum f l = zsum g l.
Proof. intros f g l E. induction l; cbn [zsum fold_right]; auto. unfold zsum in IHl. rewrite IHl, E. reflexivity. Qed.

Lemma net_own : forall t a lim l, Forall (fun h => (h_class h < length t)%nat) l ->
  net t a lim l = zsum (fun i => if mem a (ancestors t i) then own i lim l else 0) (seq 0 (length t)).
Proof.
  intros t a lim. induction l as [|h l IH]; intros F.
  - cbn [net own fold_right]. assert (Z: forall k, zsum (fun i => if mem a (ancestors t i) then 0 else 0) k = 0).
    { induction k as [|x k K]; cbn [zsum fold_right]; auto. unfold zsum in K. rewrite K. destruct (mem a (ancestors t x)); reflexivity. } symmetry. apply Z.
  - inversion F; subst. cbn [net fold_right]. fold (net t a lim l). rewrite IH by auto.
    rewrite (zsum_ext (fun i => if mem a (ancestors t i) then own i lim (h :: l) else 0) (fun i => (if (h_class h =? i)%nat then net1 t a lim h else 0) + (if mem a (ancestors t i) then own i lim l else 0))).
    + rewrite zsum_add. rewrite zsum_single; auto; [apply seq_NoDup|apply in_seq; lia].
    + intros i. cbn [own fold_right]. fold (own i lim l). unfold own1, net1. destruct (Nat.eqb_spec (h_class h) i) as [->|]; [|rewrite andb_false_r; destruct (mem a (ancestors t i)); lia].
      rewrite andb_true_r. destruct (mem a (ancestors t i)); [rewrite andb_true_r|rewrite andb_false_r]; lia.
Qed.

(** no class holds less than nothing: then a release of at most what the class holds is granted *)
Lemma release_fits : forall t l c lim val, Forall (fun h => (h_class h < length t)%nat) l -> (c < length t)%nat -> (forall i, 0 <= own i lim l) -> val <= own c lim l ->
  forall a, In a (ancestors t c) -> val <= net t a lim l.
Proof.
  intros t l c lim val F Hc Po Hv a I. rewrite net_own by auto.
  pose proof (zsum_ge (fun i => if mem a (ancestors t i) then own i lim l else 0) (seq 0 (length t)) c) as G.
  assert (M: mem a (ancestors t c) = true) by (unfold mem; apply existsb_exists; exists a; split; auto; apply Nat.eqb_refl).
  cbv beta in G. rewrite M in G. etransitivity; [exact Hv|]. apply G.
  - intros j. destruct (mem a (ancestors t j)); auto. lia.
  - apply in_seq. lia.
Qed.

(** ** Comparison of large numbers: the error is less than 2^-51 of the limit *)
Lemma cmp_large : forall v s, 0 <= v -> 0 <= s -> d_lt (d_mul (d_int v) (1, 1)) (d_int s) = false -> 2^51 * (s - v) <= v.
Proof.
  intros v s Hv Hs H. unfold d_lt, d_mul, d_int in H. apply Z.ltb_ge in H.
  pose proof (b64_err v 1 Hv ltac:(lia)) as E1. pose proof (b64_den v 1) as D1. pose proof (b64_nonneg v 1 Hv ltac:(lia)) as N1.
  destruct (b64 v 1) as [x y]. cbn [fst snd] in *. rewrite !Z.mul_1_r in H.
  pose proof (b64_err x y N1 D1) as E2. pose proof (b64_den x y) as D2. pose proof (b64_nonneg x y N1 D1) as N2.
  destruct (b64 x y) as [p q]. cbn [fst snd] in *.
  pose proof (b64_err s 1 Hs ltac:(lia)) as E3. pose proof (b64_den s 1) as D3.
  destruct (b64 s 1) as [a b]. cbn [fst snd] in *. rewrite !Z.mul_1_r in *.
  assert (A1: 2^53 * x <= (2^53 + 1) * (v * y)) by lia.
  assert (A2: 2^53 * (p * y) <= (2^53 + 1) * (x * q)) by lia.
  assert (A3: (2^53 - 1) * (s * b) <= 2^53 * a) by lia.
  assert (B1: 2^53 * (2^53 * (p * y)) <= (2^53 + 1) * (2^53 + 1) * (v * y * q)).
  { apply (Z.mul_le_mono_nonneg_r _ _ q) in A1; [|lia]. lia. }
  assert (B2: 2^53 * 2^53 * p <= (2^53 + 1) * (2^53 + 1) * (v * q)).
  { apply (Z.mul_le_mono_pos_r _ _ y); [exact D1|]. lia. }
  assert (B3: 2^53 * 2^53 * (p * b) <= (2^53 + 1) * (2^53 + 1) * (v * q * b)).
  { apply (Z.mul_le_mono_nonneg_r _ _ b) in B2; lia. }
  assert (B4: (2^53 - 1) * (s * b * q) <= 2^53 * (a * q)).
  { apply (Z.mul_le_mono_nonneg_r _ _ q) in A3; lia. }
  assert (B5: 2^53 * ((2^53 - 1) * (s * (b * q))) <= (2^53 + 1) * (2^53 + 1) * (v * (b * q))) by lia.
  assert (B6: 2^53 * ((2^53 - 1) * s) <= (2^53 + 1) * (2^53 + 1) * v).
  { apply (Z.mul_le_mono_pos_r _ _ (b * q)); [nia|]. lia. }
  lia.
Qed.

Lemma int_demand_large : forall fudge lim val t, tree_ok t -> 0 <= val -> def_limit lim = 0 ->
  forall fuel i t', int_demand fudge fuel t (Some i) MESGREQUEST lim val = Some (true, t') ->
  forall a v u, In a (ancestors t i) -> entry t a lim v u -> v <> 0 -> u + val < 2^64 -> 2^51 * (u + val - v) <= v.
Proof.
  intros fudge lim val t W Hval Hd. induction fuel as [|fuel IH]; intros i t' H a v u I En V Nw; [discriminate|]. cbn [int_demand] in H.
  destruct (nth_error t i) as [n|] eqn:E; [|discriminate].
  destruct (find_lim lim (nd_lims n)) as [k|] eqn:Fk.
  2:{ exfalso. eapply (no_entry_above t lim W i n E (find_lim_none _ _ Fk)); eauto. }
  destruct (find_lim_some _ _ _ Fk) as (v0 & Kv & Nv). rewrite Nv in H. cbn [snd] in H.
  destruct (entry_exists t i n lim k v0 W E Kv) as (u0 & En0 & Nu & Nue). rewrite Nu in H.
  rewrite (anc_step t i n W E) in I.
  assert (Par: forall t'', int_demand fudge fuel t (nd_parent n) MESGREQUEST lim val = Some (true, t'') ->
     In a (match nd_parent n with Some p => ancestors t p | None => [] end) -> 2^51 * (u + val - v) <= v).
  { intros t'' H' I'. destruct (nd_parent n) as [p|]; [|destruct I']. eapply IH; eauto. }
  destruct (Z.eqb_spec v0 0) as [V0|V0].
  { destruct I as [<-|I]; [destruct (entry_fun _ _ _ _ _ _ _ W En En0); congruence|]. eapply Par; eauto. }
  cbn [Z.eqb Pos.eqb] in H.
  destruct (d_lt (d_mul (d_int v0) (1, 1)) (d_int (u64 (val + u0)))) eqn:Lt; [discriminate|].
  destruct (int_demand fudge fuel t (nd_parent n) MESGREQUEST lim val) as [[[|] t1]|] eqn:Pe; try discriminate.
  destruct I as [<-|I]; [|eapply Par; eauto].
  destruct (entry_fun _ _ _ _ _ _ _ W En En0) as (-> & ->). pose proof (entry_u64 _ _ _ _ _ W En0).
  rewrite (Z.add_comm u0 val). apply cmp_large; [lia|lia|]. unfold u64 in Lt. rewrite Z.mod_small in Lt by lia. exact Lt.
Qed.
