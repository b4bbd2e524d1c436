(** The broker's books over histories of sessions. *)
From Coq Require Import ZArith List Bool Lia ZifyBool ZifyNat.
From Verif Require Import Base Double Double_Proofs Policy_Model Policy_Spec Policy_Proofs Lifecycle_Model Lifecycle_Spec.
Import ListNotations.
Open Scope Z_scope.

(** ** Sums *)
Lemma total_app : forall A (f : A -> Z) l l', total f (l ++ l') = total f l + total f l'.
Proof. intros A f. induction l as [|x l IH]; intros; cbn [total fold_right app] in *; [reflexivity|]. unfold total in *. rewrite IH. lia. Qed.
Lemma total_nonneg : forall A (f : A -> Z) l, Forall (fun x => 0 <= f x) l -> 0 <= total f l.
Proof. intros A f l F. induction F; cbn [total fold_right]; [lia|]. unfold total in *. lia. Qed.
Lemma total_ext : forall A (f g : A -> Z) l, (forall x, In x l -> f x = g x) -> total f l = total g l.
Proof. intros A f g. induction l as [|x l IH]; intros H; cbn [total fold_right]; auto. unfold total in *. rewrite (H x) by (left; auto). rewrite IH; auto. intros; apply H; right; auto. Qed.
Lemma del_notin : forall A k (l : list (Z * A)), ~ In k (map fst l) -> del k l = l.
Proof.
  intros A k. unfold del. induction l as [|[k' v] l IH]; intros N; cbn [filter fst map] in *; auto. cbn in N. destruct (Z.eqb_spec k' k); [tauto|]. cbn. f_equal. apply IH. tauto.
Qed.
Lemma total_get : forall A (f : Z * A -> Z) k v l, NoDup (map fst l) -> get k l = Some v -> total f l = f (k, v) + total f (del k l).
Proof.
  intros A f k v. unfold del. induction l as [|[k' v'] l IH]; intros N G; cbn [get] in G; [discriminate|]. cbn [map fst] in N. inversion N; subst.
  cbn [total fold_right filter fst]. destruct (Z.eqb_spec k' k) as [->|NE]; cbn [negb].
  - injection G as ->. pose proof (del_notin A k l H1) as D. unfold del in D. rewrite D. reflexivity.
  - cbn [fold_right]. specialize (IH H2 G). unfold total in *. lia.
Qed.
Lemma get_in : forall A k (v : A) l, get k l = Some v -> In (k, v) l.
Proof. intros A k v. induction l as [|[k' v'] l IH]; cbn [get]; intros G; [discriminate|]. destruct (Z.eqb_spec k' k); [left; congruence|right; auto]. Qed.
Lemma get_none : forall A k (l : list (Z * A)), get k l = None -> ~ In k (map fst l).
Proof. intros A k. induction l as [|[k' v'] l IH]; cbn [get map fst]; intros G; [tauto|]. destruct (Z.eqb_spec k' k); [discriminate|]. intros [?|?]; [congruence|]. exact (IH G H). Qed.
Lemma del_sub : forall A k (l : list (Z * A)) x, In x (del k l) -> In x l /\ fst x <> k.
Proof. intros A k l x I. unfold del in I. apply filter_In in I. destruct I as [I J]. split; auto. lia. Qed.
Lemma del_nodup : forall A k (l : list (Z * A)), NoDup (map fst l) -> NoDup (map fst (del k l)).
Proof.
  intros A k. unfold del. induction l as [|[k' v] l IH]; intros N; cbn [filter fst map] in *; auto. inversion N; subst. destruct (negb (k' =? k)); auto. cbn [map fst]. constructor; auto.
  intros I. apply H1. apply in_map_iff in I. destruct I as (x & E & I). apply filter_In in I. apply in_map_iff. exists x. tauto.
Qed.
Lemma del_not_in : forall A k (l : list (Z * A)), ~ In k (map fst (del k l)).
Proof. intros A k l I. apply in_map_iff in I. destruct I as (x & E & I). apply del_sub in I. tauto. Qed.

(** ** Books *)
Section BOOKS.
Variable fudge : Z * Z.
Variable B : nat -> Z -> Z.
Hypothesis HB : start_ok B.
Hypothesis F1 : 0 < snd fudge.
Hypothesis F2 : 0 <= fst fudge.
Variable t0 : tree.

Definition tgood (t : tree) : Prop := tree_ok t /\ limits_exact fudge t /\ within fudge B t /\ zero_unlimited t /\ same_shape t0 t.
Definition acct (t : tree) (h : nat -> Z -> Z) : Prop :=
  forall a lim v u, lim = LimBandwidth \/ lim = LimDisk -> entry t a lim v u -> v <> 0 -> u = h a lim.
Definition plus (h : nat -> Z -> Z) (c : nat) (lim val : Z) (a : nat) (lim' : Z) : Z :=
  h a lim' + (if (lim' =? lim) && mem a (ancestors t0 c) then val else 0).

Lemma acct_ext : forall t h h', (forall a lim, lim = LimBandwidth \/ lim = LimDisk -> h a lim = h' a lim) -> acct t h -> acct t h'.
Proof. intros t h h' E A a lim v u L En V. rewrite <- (E a lim L). exact (A a lim v u L En V). Qed.

Lemma anc0 : forall t, same_shape t0 t -> forall c, ancestors t c = ancestors t0 c.
Proof. intros t Sh c. unfold ancestors. symmetry. apply anc_same. exact Sh. Qed.

Lemma demand_books : forall t h c query lim val, tgood t -> acct t h -> (c < length t0)%nat -> 0 <= val < 2^63 ->
  query = MESGREQUEST \/ query = MESGRELEASE \/ query = MESGCLAIM ->
  exists ok t', resource_demand fudge t c query lim val = Some (ok, t') /\ tgood t' /\ (ok = false -> t' = t) /\
    acct t' (if ok then plus h c lim (if query =? MESGRELEASE then - val else val) else h).
Proof.
  intros t h c query lim val (W & Ex & Wi & Zu & Sh) A Hc Hv Hq. assert (Lt : length t = length t0) by (destruct Sh; auto).
  assert (HO : hop_ok t c query val) by (split; [lia|split; [lia|exact Hq]]).
  destruct (demand_step fudge B HB t c query lim val F1 F2 W Ex Wi Zu HO) as (b & t' & E & W' & Sh' & Ex' & Wi' & Zu' & Nb & N).
  exists b, t'. split; [exact E|]. split; [unfold tgood; repeat (split; [assumption|]); eapply same_trans; eauto|]. split; [exact Nb|].
  intros a lim' v u' L En V. assert (Cn : counted lim') by (unfold counted; tauto).
  destruct (N a lim' v u' Cn En V) as (u & En' & ->). rewrite (A a lim' v u L En' V). unfold net1, plus. cbn [h_ok h_lim h_class h_query h_val].
  rewrite (anc0 t Sh c). destruct b; cbn [andb]; [|lia]. rewrite (Z.eqb_sym lim' lim). destruct (lim =? lim'); cbn [andb]; [|lia]. destruct (mem a (ancestors t0 c)); lia.
Qed.

Lemma demand_release : forall t h c lim val, tgood t -> acct t h -> (c < length t0)%nat -> 0 <= val < 2^63 -> lim = LimBandwidth \/ lim = LimDisk ->
  (forall a, In a (ancestors t0 c) -> val <= h a lim) ->
  exists t', resource_demand fudge t c MESGRELEASE lim val = Some (true, t') /\ tgood t' /\ acct t' (plus h c lim (- val)).
Proof.
  intros t h c lim val G A Hc Hv L Fits. assert (K := G). destruct K as (W & Ex & Wi & Zu & Sh). assert (Lt : length t = length t0) by (destruct Sh; auto).
  destruct (demand_books t h c MESGRELEASE lim val G A Hc Hv ltac:(auto)) as (ok & t' & E & G' & _ & A').
  assert (Cn : counted lim) by (unfold counted; tauto).
  destruct (nth_error t c) as [n|] eqn:En; [|apply nth_error_None in En; lia].
  assert (Ub : forall a v u, entry t a lim v u -> u < 2^63).
  { intros a v u Ea. destruct (Z.eq_dec v 0) as [->|V]; [rewrite (Zu a lim u Cn Ea); lia|]. pose proof (Wi a lim v u Cn Ea V). destruct (Ex a lim v u Cn Ea). pose proof (HB a lim). lia. }
  assert (ok = true).
  { unfold resource_demand in E. rewrite (proj2 (counted_type lim) Cn) in E.
    destruct (int_demand_spec fudge MESGRELEASE lim val F1 F2 Hv (counted_def lim Cn) ltac:(auto) t W Ub c n En) with (fuel := S c) as (b & t2 & E2 & Iff & _); [|lia|].
    - intros a v u _ Ea. destruct (Ex a lim v u Cn Ea) as [X Y]. split; [exact X|]. unfold cap. cbn. exact X.
    - rewrite E in E2. injection E2 as <- <-. apply Iff. intros a v u I Ea V. cbn. rewrite (A a lim v u L Ea V). apply Fits. rewrite <- (anc0 t Sh c). exact I. }
  subst ok. exists t'. cbn in A'. auto.
Qed.

Definition cadd (h : nat -> Z -> Z) (c : nat) (ti : tinfo) (a : nat) (lim : Z) : Z :=
  h a lim + (if mem a (ancestors t0 c) then session_holds lim ti else 0).
Definition hpos (h : nat -> Z -> Z) : Prop := forall a lim, lim = LimBandwidth \/ lim = LimDisk -> 0 <= h a lim.
Definition res_ok (lim : Z) (r : Z * Z) : Prop := r = (0, 0) \/ fst r = lim /\ 0 <= snd r < 2^63.
Definition ti_ok (ti : tinfo) : Prop := res_ok LimBandwidth (ti_res0 ti) /\ res_ok LimDisk (ti_res1 ti) /\ (ti_open ti = true -> fst (ti_res1 ti) = LimDisk).

Ltac sums := unfold cadd, plus, session_holds, res_amount; cbn [ti_res0 ti_res1 fst snd Z.eqb Pos.eqb andb];
  repeat match goal with |- context [mem ?a ?b] => destruct (mem a b) end; lia.

Lemma ev_all : forall evs, answered_all evs -> ev_hd evs = QOk /\ answered_all (tl evs).
Proof. intros [|e r] A; [split; [reflexivity|exact A]|]. inversion A; subst. split; auto. Qed.
Lemma ev_skip : forall n evs, answered_all evs -> answered_all (skipn n evs).
Proof. induction n; intros [|e r] A; cbn [skipn]; auto. inversion A; subst. apply IHn. auto. Qed.

Lemma query_answered : forall t c m lim val ok t', resource_demand fudge t c m lim val = Some (ok, t') ->
  query fudge t c [] QOk m lim val = Some (if ok then MESGOK else MESGDENIED, t', []).
Proof. intros t c m lim val ok t' E. unfold query. rewrite E. destruct ok; reflexivity. Qed.

Lemma local_demand : forall t c q lim val, tgood t -> (c < length t0)%nat -> 0 <= val < 2^63 -> q = MESGREQUEST \/ q = MESGRELEASE \/ q = MESGCLAIM ->
  exists ok t', resource_demand fudge t c q lim val = Some (ok, t') /\ tgood t'.
Proof.
  intros t c query lim val (W & Ex & Wi & Zu & Sh) Hc Hv Hq. assert (Lt : length t = length t0) by (destruct Sh; auto).
  assert (HO : hop_ok t c query val) by (split; [lia|split; [lia|exact Hq]]).
  destruct (demand_step fudge B HB t c query lim val F1 F2 W Ex Wi Zu HO) as (b & t' & E & W' & Sh' & Ex' & Wi' & Zu' & Nb & N).
  exists b, t'. split; [exact E|]. unfold tgood. repeat (split; [assumption|]). eapply same_trans; eauto.
Qed.

Lemma in_mem : forall a l, In a l -> mem a l = true.
Proof. intros a l I. apply existsb_exists. exists a. split; auto. apply Nat.eqb_refl. Qed.

(** one resource of a session is released *)
Lemma complete_one_ok : forall t h c lim r evs, tgood t -> hpos h -> (c < length t0)%nat -> lim = LimBandwidth \/ lim = LimDisk -> res_ok lim r -> answered_all evs ->
  acct t (fun a l => h a l + (if mem a (ancestors t0 c) then res_amount l r else 0)) ->
  exists t' evs', complete_one fudge t c [] r evs = Some (t', [], evs') /\ tgood t' /\ acct t' h /\ answered_all evs'.
Proof.
  intros t h c lim r evs G Hp Hc L R Ev A. unfold complete_one. destruct R as [-> | [E R]].
  - exists t, evs. split; [reflexivity|]. split; [exact G|]. split; [|exact Ev]. revert A. apply acct_ext. intros a l [-> | ->]; sums.
  - destruct r as [l v]. cbn [fst snd] in *. subst l. replace (lim =? 0) with false by (destruct L; lia).
    destruct (ev_all evs Ev) as [-> Ev'].
    destruct (demand_release t _ c lim v G A Hc R L) as (t' & Ed & G' & A').
    { intros a I. rewrite (in_mem a _ I). unfold res_amount. cbn [fst snd]. rewrite Z.eqb_refl. pose proof (Hp a lim L). lia. }
    rewrite (query_answered _ _ _ _ _ _ _ Ed). exists t', (tl evs). split; [reflexivity|]. split; [exact G'|]. split; [|exact Ev'].
    revert A'. apply acct_ext. intros a l Hl. unfold plus, res_amount. cbn [fst snd]. rewrite (Z.eqb_sym lim l). destruct (l =? lim); cbn [andb]; destruct (mem _ _); lia.
Qed.

Lemma test_complete_ok : forall t h c ti evs, tgood t -> hpos h -> (c < length t0)%nat -> ti_ok ti -> answered_all evs -> acct t (cadd h c ti) ->
  exists t', test_complete fudge t c [] ti evs = Some (t', []) /\ tgood t' /\ acct t' h.
Proof.
  intros t h c ti evs G Hp Hc (R0 & R1 & _) Ev A. unfold test_complete.
  set (h1 := fun a l => h a l + (if mem a (ancestors t0 c) then res_amount l (ti_res1 ti) else 0)).
  destruct (complete_one_ok t h1 c LimBandwidth (ti_res0 ti) evs G) as (t1 & e1 & -> & G1 & A1 & Ev1); auto.
  { intros a l Hl. unfold h1. pose proof (Hp a l Hl). destruct (mem _ _); [|lia]. unfold res_amount. destruct R1 as [-> | [E1 E2]]; [cbn [fst snd]; destruct (0 =? l); lia|]. destruct (_ =? _); lia. }
  { revert A. apply acct_ext. intros a l Hl. unfold cadd, h1, session_holds. destruct (mem _ _); lia. }
  destruct (complete_one_ok t1 h c LimDisk (ti_res1 ti) e1 G1) as (t2 & e2 & -> & G2 & A2 & Ev2); auto.
  exists t2. auto.
Qed.

Lemma close_test_ok : forall t h c ti aval size evs, tgood t -> hpos h -> (c < length t0)%nat -> ti_ok ti -> ti_open ti = true -> 0 <= size < 2^63 -> answered_all evs -> acct t (cadd h c ti) ->
  exists t' keep evs', close_test fudge t c [] ti aval (Some size) evs = Some (t', [], mkTI (ti_res0 ti) (0, 0) false, keep, evs') /\ tgood t' /\ answered_all evs' /\
    acct t' (cadd (if keep then plus h c LimDisk size else h) c (mkTI (ti_res0 ti) (0, 0) false)).
Proof.
  intros t h c ti aval size evs G Hp Hc (R0 & R1 & R2) Op Hs Ev A. unfold close_test. specialize (R2 Op). rewrite R2. cbn [negb Z.eqb Pos.eqb].
  destruct R1 as [R1|[_ R1]]; [rewrite R1 in R2; discriminate|].
  destruct (ev_all evs Ev) as [E1 Ev1]. destruct (ev_all _ Ev1) as [E2 Ev2]. rewrite E1.
  assert (P0 : forall l, 0 <= res_amount l (ti_res0 ti)).
  { intros l. unfold res_amount. destruct R0 as [-> | [X Y]]; [cbn [fst snd]; destruct (0 =? l); lia|]. destruct (_ =? l); lia. }
  assert (X0 : res_amount LimDisk (ti_res0 ti) = 0).
  { unfold res_amount. destruct R0 as [-> | [X Y]]; [reflexivity|]. rewrite X. reflexivity. }
  assert (X1 : res_amount LimDisk (ti_res1 ti) = snd (ti_res1 ti)) by (unfold res_amount; rewrite R2; reflexivity).
  assert (X2 : res_amount LimBandwidth (ti_res1 ti) = 0) by (unfold res_amount; rewrite R2; reflexivity).
  assert (Fits : forall a x, In a (ancestors t0 c) -> x <= snd (ti_res1 ti) -> x <= cadd h c ti a LimDisk).
  { intros a x I Hx. unfold cadd, session_holds. rewrite (in_mem a _ I), X0, X1. pose proof (Hp a LimDisk ltac:(auto)). lia. }
  set (est := snd (ti_res1 ti)) in *. clearbody est.
  assert (Zr : forall l, l = LimBandwidth \/ l = LimDisk -> res_amount l (0, 0) = 0) by (intros l [-> | ->]; reflexivity).
  assert (Fin : forall t' d size', acct t' (plus (cadd h c ti) c LimDisk d) -> est + d = size' -> acct t' (cadd (plus h c LimDisk size') c (mkTI (ti_res0 ti) (0, 0) false))).
  { intros t' d size' A' Ed. revert A'. apply acct_ext. intros a l Hl. unfold plus, cadd, session_holds. cbn [ti_res0 ti_res1]. rewrite (Zr l Hl).
    destruct Hl as [-> | ->]; cbn [Z.eqb Pos.eqb andb]; rewrite ?X0, ?X1, ?X2; destruct (mem _ _); lia. }
  assert (Fin0 : forall t', acct t' (plus (cadd h c ti) c LimDisk (- est)) -> acct t' (cadd h c (mkTI (ti_res0 ti) (0, 0) false))).
  { intros t' A'. revert A'. apply acct_ext. intros a l Hl. unfold plus, cadd, session_holds. cbn [ti_res0 ti_res1]. rewrite (Zr l Hl).
    destruct Hl as [-> | ->]; cbn [Z.eqb Pos.eqb andb]; rewrite ?X0, ?X1, ?X2; destruct (mem _ _); lia. }
  destruct (negb (aval =? 0)).
  { destruct (demand_release t _ c LimDisk est G A Hc ltac:(lia) ltac:(auto)) as (t' & Ed & G' & A'); [intros a I; apply Fits; auto; lia|].
    rewrite (query_answered _ _ _ _ _ _ _ Ed). exists t', false, (tl evs). split; [reflexivity|]. split; [exact G'|]. split; [exact Ev1|]. apply Fin0. exact A'. }
  destruct (Z.ltb_spec size est).
  { destruct (demand_release t _ c LimDisk (est - size) G A Hc ltac:(lia) ltac:(auto)) as (t' & Ed & G' & A'); [intros a I; apply Fits; auto; lia|].
    rewrite (query_answered _ _ _ _ _ _ _ Ed). exists t', true, (tl evs). split; [reflexivity|]. split; [exact G'|]. split; [exact Ev1|]. apply (Fin t' _ size A'). lia. }
  destruct (Z.ltb_spec est size).
  - destruct (demand_books t _ c MESGCLAIM LimDisk (size - est) G A Hc ltac:(lia) ltac:(auto)) as (ok & t' & Ed & G' & _ & A').
    rewrite (query_answered _ _ _ _ _ _ _ Ed). destruct ok; cbn [Z.eqb Pos.eqb].
    + exists t', true, (tl evs). split; [reflexivity|]. split; [exact G'|]. split; [exact Ev1|]. apply (Fin t' _ size A'). lia.
    + rewrite E2. destruct (demand_release t' _ c LimDisk est G' A' Hc ltac:(lia) ltac:(auto)) as (t2 & Ed2 & G2 & A2); [intros a I; apply Fits; auto; lia|].
      rewrite (query_answered _ _ _ _ _ _ _ Ed2). exists t2, false, (tl (tl evs)). split; [reflexivity|]. split; [exact G2|]. split; [exact Ev2|]. apply Fin0. exact A2.
  - exists t, true, evs. split; [reflexivity|]. split; [exact G|]. split; [exact Ev|]. apply (Fin t 0 size); [|lia].
    revert A. apply acct_ext. intros a l Hl. unfold plus. destruct (_ && _); lia.
Qed.

Lemma end_session_ok : forall t h c ti aval size evs, tgood t -> hpos h -> (c < length t0)%nat -> ti_ok ti -> 0 <= size < 2^63 -> answered_all evs -> acct t (cadd h c ti) ->
  exists t' keep, end_session fudge t c [] ti aval (Some size) evs = Some (t', [], keep) /\ tgood t' /\ acct t' (if keep then plus h c LimDisk size else h).
Proof.
  intros t h c ti aval size evs G Hp Hc T Hs Ev A. unfold end_session. destruct (ti_open ti) eqn:Op.
  - destruct (close_test_ok t h c ti aval size evs G Hp Hc T Op Hs Ev A) as (t' & keep & evs' & -> & G' & Ev' & A').
    destruct (test_complete_ok t' (if keep then plus h c LimDisk size else h) c (mkTI (ti_res0 ti) (0, 0) false) evs' G') as (t2 & -> & G2 & A2); auto.
    + destruct keep; auto. intros a l Hl. unfold plus. pose proof (Hp a l Hl). destruct (_ && _); lia.
    + split; [apply T|]. split; [left; reflexivity|discriminate].
    + exists t2, keep. auto.
  - destruct (test_complete_ok t h c ti evs G Hp Hc T Ev A) as (t2 & -> & G2 & A2). exists t2, false. auto.
Qed.

Lemma check_test_policy_ok : forall t h c tw ls bw disk evs, tgood t -> acct t h -> hpos h -> tgood (cn_local c) -> (cn_class c < length t0)%nat -> cn_pipe c = [] -> answered_all evs ->
  0 <= bw < 2^63 -> 0 <= disk < 2^63 ->
  exists v t' loc, check_test_policy fudge t c tw ls bw disk evs = Some (v, t', loc, []) /\ tgood t' /\ tgood loc /\ v <> PFatal /\
    match v with
    | PAccepted ti => ti = mkTI (if tw then (0, 0) else (LimBandwidth, bw)) (if ls then (0, 0) else (LimDisk, disk)) false /\ acct t' (cadd h (cn_class c) ti)
    | _ => acct t' h
    end.
Proof.
  intros t h c tw ls bw disk evs G A Hp Gl Hc Pi Ev Hb Hd. unfold check_test_policy. rewrite Pi.
  destruct (local_demand (cn_local c) (cn_class c) MESGREQUEST LimTestSessions 1 Gl Hc ltac:(lia) ltac:(auto)) as (ok & loc & -> & Gloc).
  destruct ok; [|exists PDenied, t, loc; repeat (split; [first [assumption|reflexivity|discriminate]|]); assumption].
  destruct (local_demand loc (cn_class c) MESGRELEASE LimTestSessions 1 Gloc Hc ltac:(lia) ltac:(auto)) as (ok' & loc' & -> & Gloc').
  destruct (ev_all evs Ev) as [E1 Ev1].
  (* bandwidth *)
  assert (BW : exists r t1, (if tw then Some (MESGOK, t, []) else query fudge t (cn_class c) [] (ev_hd evs) MESGREQUEST LimBandwidth bw) = Some (r, t1, []) /\
            tgood t1 /\ (r = MESGDENIED /\ acct t1 h \/ r = MESGOK /\ acct t1 (cadd h (cn_class c) (mkTI (if tw then (0, 0) else (LimBandwidth, bw)) (0, 0) false)))).
  { destruct tw.
    - exists MESGOK, t. split; [reflexivity|]. split; [exact G|]. right. split; [reflexivity|]. revert A. apply acct_ext. intros a l [-> | ->]; sums.
    - rewrite E1. destruct (demand_books t h (cn_class c) MESGREQUEST LimBandwidth bw G A Hc Hb ltac:(auto)) as (okb & t1 & Ed & G1 & _ & A1).
      rewrite (query_answered _ _ _ _ _ _ _ Ed). exists (if okb then MESGOK else MESGDENIED), t1. split; [destruct okb; reflexivity|]. split; [exact G1|].
      destruct okb; [right|left; auto]. split; [reflexivity|]. revert A1. apply acct_ext. intros a l [-> | ->]; sums. }
  destruct BW as (r & t1 & -> & G1 & [[-> A1] | [-> A1]]); cbn [Z.eqb Pos.eqb option_map].
  { exists PDenied, t1, loc'. repeat (split; [first [assumption|reflexivity|discriminate]|]); assumption. }
  set (evs' := if tw then evs else tl evs). assert (Ev' : answered_all evs') by (unfold evs'; destruct tw; auto). clearbody evs'.
  destruct ls.
  { eexists (PAccepted _), t1, loc. split; [reflexivity|]. split; [exact G1|]. split; [exact Gloc|]. split; [discriminate|]. split; [reflexivity|]. exact A1. }
  destruct (ev_all evs' Ev') as [-> Ev2].
  destruct (demand_books t1 _ (cn_class c) MESGREQUEST LimDisk disk G1 A1 Hc Hd ltac:(auto)) as (okd & t2 & Ed & G2 & _ & A2).
  rewrite (query_answered _ _ _ _ _ _ _ Ed). destruct okd; cbn [Z.eqb Pos.eqb].
  { eexists (PAccepted _), t2, loc. split; [reflexivity|]. split; [exact G2|]. split; [exact Gloc|]. split; [discriminate|]. split; [reflexivity|].
    revert A2. apply acct_ext. intros a l [-> | ->]; destruct tw; sums. }
  destruct (ev_all _ Ev2) as [-> Ev3].
  destruct tw; cbn [fst snd].
  - assert (E0 : resource_demand fudge t2 (cn_class c) MESGRELEASE 0 0 = Some (false, t2)) by reflexivity. rewrite (query_answered _ _ _ _ _ _ _ E0).
    exists PDenied, t2, loc'. repeat (split; [first [assumption|reflexivity|discriminate]|]). revert A2. apply acct_ext. intros a l [-> | ->]; sums.
  - destruct (demand_release t2 _ (cn_class c) LimBandwidth bw G2 A2 Hc Hb ltac:(auto)) as (t3 & Ed3 & G3 & A3).
    { intros a I. unfold cadd, plus, session_holds, res_amount. rewrite (in_mem a _ I). cbn [ti_res0 ti_res1 fst snd Z.eqb Pos.eqb andb]. pose proof (Hp a LimBandwidth ltac:(auto)). lia. }
    rewrite (query_answered _ _ _ _ _ _ _ Ed3). exists PDenied, t3, loc'. repeat (split; [first [assumption|reflexivity|discriminate]|]).
    revert A3. apply acct_ext. intros a l [-> | ->]; sums.
Qed.
End BOOKS.
