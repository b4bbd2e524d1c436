(** The books of the whole server, and the number of sessions of a connection. *)
From Coq Require Import ZArith List Bool Lia ZifyBool ZifyNat.
From Verif Require Import Base Double Double_Proofs Policy_Model Policy_Spec Policy_Proofs Lifecycle_Model Lifecycle_Spec Lifecycle_Proofs.
Import ListNotations.
Open Scope Z_scope.

Lemma del_forall : forall A (P : Z * A -> Prop) k l, Forall P l -> Forall P (del k l).
Proof. intros A P k l F. apply Forall_forall. intros x I. apply del_sub in I. apply (proj1 (Forall_forall _ _) F). tauto. Qed.
Lemma get_file_in : forall sid l f, get_file sid l = Some f -> In f l /\ df_sid f = sid.
Proof. intros sid l f G. unfold get_file in G. apply find_some in G. destruct G as [I E]. split; auto. lia. Qed.
Lemma del_file_notin : forall sid l, ~ In sid (map df_sid l) -> del_file sid l = l.
Proof.
  intros sid. unfold del_file. induction l as [|f l IH]; intros N; cbn [filter map] in *; auto. cbn in N. destruct (Z.eqb_spec (df_sid f) sid); [tauto|]. cbn. f_equal. apply IH. tauto.
Qed.
Lemma total_del_file : forall (g : dfile -> Z) f l, NoDup (map df_sid l) -> In f l -> total g l = g f + total g (del_file (df_sid f) l).
Proof.
  intros g f. unfold del_file. induction l as [|x l IH]; intros N I; [destruct I|]. cbn [map] in N. inversion N as [|? ? N1 N2]; subst.
  cbn [total fold_right filter]. destruct I as [->|I].
  - rewrite Z.eqb_refl. cbn [negb]. pose proof (del_file_notin (df_sid f) l N1) as D. unfold del_file in D. rewrite D. reflexivity.
  - destruct (Z.eqb_spec (df_sid x) (df_sid f)) as [E|NE]; cbn [negb].
    + exfalso. apply N1. rewrite E. apply in_map_iff. exists f. auto.
    + cbn [fold_right]. specialize (IH N2 I). unfold total in *. lia.
Qed.
Lemma del_file_nodup : forall sid l, NoDup (map df_sid l) -> NoDup (map df_sid (del_file sid l)).
Proof.
  intros sid. unfold del_file. induction l as [|f l IH]; intros N; cbn [filter map] in *; auto. inversion N; subst. destruct (negb (_ =? _)); auto. cbn [map]. constructor; auto.
  intros I. apply H1. apply in_map_iff in I. destruct I as (x & E & I). apply filter_In in I. apply in_map_iff. exists x. tauto.
Qed.
Lemma del_file_sub : forall sid l x, In x (del_file sid l) -> In x l /\ df_sid x <> sid.
Proof. intros sid l x I. unfold del_file in I. apply filter_In in I. destruct I. split; auto. lia. Qed.
Lemma put_in : forall id c l i x, In (i, x) (put_conn id c l) -> i = id /\ x = c \/ In (i, x) l /\ i <> id.
Proof. intros id c l i x [E|I]; [left; injection E; auto|right; apply del_sub in I; exact I]. Qed.
Lemma replaced_ids : forall l id x, NoDup (map fst l) -> NoDup (map fst (put_conn id x l)).
Proof. intros l id x N. unfold put_conn. cbn [map fst]. constructor; [apply del_not_in|apply del_nodup; auto]. Qed.

(** ** Session numbers *)
Definition in_session (w : world) (sid id : Z) : Prop := exists c ti, In (id, c) (w_conns w) /\ In (sid, ti) (cn_tests c).
Definition in_fetch (w : world) (f : dfile) : Prop := exists id c b e, In (id, c) (w_conns w) /\ cn_fetch c = Some (f, b, e).
Record sinv (w : world) : Prop := {
  s_ids : NoDup (map fst (w_conns w));
  s_tests : forall id c, In (id, c) (w_conns w) -> NoDup (map fst (cn_tests c));
  s_files : NoDup (map df_sid (w_files w));
  s_new : forall sid id, in_session w sid id -> ~ In sid (map df_sid (w_files w));
  s_one : forall sid id id', in_session w sid id -> in_session w sid id' -> id = id';
  s_fetch : forall f f', in_fetch w f -> In f' (w_files w) -> df_sid f' = df_sid f -> f' = f;
  s_fs : forall f id, in_fetch w f -> ~ in_session w (df_sid f) id
}.

Lemma nodup_sid : forall l f f', NoDup (map df_sid l) -> In f l -> In f' l -> df_sid f' = df_sid f -> f' = f.
Proof.
  induction l as [|x l IH]; intros f f' N I I' E; [destruct I|]. cbn [map] in N. inversion N as [|? ? N1 N2]; subst. destruct I as [->|I], I' as [->|I']; auto.
  - exfalso. apply N1. rewrite <- E. apply in_map. exact I'.
  - exfalso. apply N1. rewrite E. apply in_map. exact I.
Qed.

Lemma sinv_mono : forall w w', sinv w -> NoDup (map fst (w_conns w')) -> (forall id c, In (id, c) (w_conns w') -> NoDup (map fst (cn_tests c))) -> NoDup (map df_sid (w_files w')) ->
  (forall s i, in_session w' s i -> in_session w s i) -> (forall f, in_fetch w' f -> in_fetch w f \/ In f (w_files w)) -> (forall f, In f (w_files w') -> In f (w_files w)) -> sinv w'.
Proof.
  intros w w' [I1 I2 I3 I4 I5 I6 I7] N1 N2 N3 S1 S2 S3. constructor; auto.
  - intros sid id H I. apply (I4 sid id (S1 _ _ H)). apply in_map_iff in I. destruct I as (f & E & I). apply in_map_iff. exists f. auto.
  - intros sid id id' H H'. eauto.
  - intros f f' H I E. destruct (S2 f H) as [X|X]; [eauto|]. apply (nodup_sid (w_files w)); auto.
  - intros f id H H'. destruct (S2 f H) as [X|X]; [eapply I7; eauto|]. eapply I4; [apply S1; exact H'|]. apply in_map. exact X.
Qed.

Lemma sid_free_spec : forall w sid, sid_free w sid = true -> ~ In sid (map df_sid (w_files w)) /\ (forall id, ~ in_session w sid id) /\ (forall f, in_fetch w f -> df_sid f <> sid).
Proof.
  intros w sid E. unfold sid_free in E. apply andb_prop in E. destruct E as [E1 E2]. rewrite forallb_forall in E1, E2. split; [|split].
  - intros I. apply in_map_iff in I. destruct I as (f & X & I). specialize (E1 f I). lia.
  - intros id (c & ti & I & J). specialize (E2 (id, c) I). apply andb_prop in E2. destruct E2 as [E2 _]. cbn [snd] in E2. rewrite forallb_forall in E2. specialize (E2 _ J). cbn [fst] in E2. lia.
  - intros f (id & c & b & e & I & J). specialize (E2 (id, c) I). cbn [snd] in E2. rewrite J in E2. lia.
Qed.

(** a connection is replaced by one with the same sessions or fewer and the same open file or none *)
Lemma sinv_put : forall w id c c' t files, sinv w -> get id (w_conns w) = Some c -> NoDup (map fst (cn_tests c')) -> NoDup (map df_sid files) ->
  (forall s ti, In (s, ti) (cn_tests c') -> In (s, ti) (cn_tests c)) -> (forall f b e, cn_fetch c' = Some (f, b, e) -> (exists b e, cn_fetch c = Some (f, b, e)) \/ In f (w_files w)) ->
  (forall f, In f files -> In f (w_files w)) -> sinv (mkWorld t files (put_conn id c' (w_conns w))).
Proof.
  intros w id c c' t files S G N Nf St Sf Sg. apply sinv_mono with (w := w); cbn [w_files w_conns]; auto.
  - apply replaced_ids. apply S.
  - intros i x I. apply put_in in I. destruct I as [[-> ->]|[I _]]; auto. eapply s_tests; eauto.
  - intros s i (x & ti & I & J). cbn [w_conns] in I. apply put_in in I. destruct I as [[-> ->]|[I _]]; [exists c, ti; split; [apply get_in; auto|auto]|exists x, ti; auto].
  - intros f (i & x & b & e & I & J). cbn [w_conns] in I. apply put_in in I. destruct I as [[-> ->]|[I _]]; [|left; exists i, x, b, e; auto].
    destruct (Sf f b e J) as [(b' & e' & K)|K]; [left; exists id, c, b', e'; split; [apply get_in; auto|auto]|right; auto].
Qed.

Section WORLD.
Variable fudge : Z * Z.

Lemma sinv_step : forall w e w' a, sinv w -> step fudge w e = Some (w', a) -> sinv w'.
Proof.
  intros w e w' a Si St. assert (Fi := s_files w Si). destruct e as [id cl|id sid tw ls bw disk opens evs|id sid aval st evs|id sid b e|id aval st evs|id|id]; cbn [step] in St.
  - destruct (get id (w_conns w)) eqn:G; [discriminate|]. destruct (_ <? _)%nat; [|discriminate]. injection St as <- <-.
    apply sinv_mono with (w := w); cbn [w_files w_conns]; auto.
    + apply replaced_ids, Si.
    + intros i x I. apply put_in in I. destruct I as [[-> ->]|[I _]]; [constructor|]. eapply s_tests; eauto.
    + intros s i (x & ti & I & J). cbn [w_conns] in I. apply put_in in I. destruct I as [[-> ->]|[I _]]; [destruct J|exists x, ti; auto].
    + intros f (i & x & b & e & I & J). cbn [w_conns] in I. apply put_in in I. destruct I as [[-> ->]|[I _]]; [discriminate|left; exists i, x, b, e; auto].
  - destruct (get id (w_conns w)) as [c|] eqn:G; [|discriminate]. destruct (sid_free w sid) eqn:Fr; [|discriminate].
    assert (Nt : NoDup (map fst (cn_tests c))) by (eapply s_tests; [exact Si|apply get_in; exact G]).
    assert (Same : forall t loc pipe, sinv (mkWorld t (w_files w) (put_conn id (mkConn (cn_class c) loc pipe (cn_tests c) (cn_fetch c)) (w_conns w)))).
    { intros. eapply sinv_put; eauto; cbn [cn_tests cn_fetch]; eauto. }
    destruct (check_test_policy _ _ _ _ _ _ _ _) as [[[[v t] loc] pipe]|]; [|discriminate]. destruct v as [ti| |]; [|injection St as <- <-; apply Same|injection St as <- <-; apply Same].
    destruct (ls || opens).
    2:{ destruct (test_complete _ _ _ _ _ _) as [[t2 p2]|]; [|discriminate]. injection St as <- <-. apply Same. }
    injection St as <- <-. clear Same. destruct (sid_free_spec w sid Fr) as (Fr1 & Fr2 & Fr3).
    match goal with |- sinv ?x => set (w' := x) end.
    assert (IS : forall s i, in_session w' s i -> in_session w s i \/ s = sid /\ i = id).
    { intros s i (x & ti' & I & J). apply put_in in I. destruct I as [[-> ->]|[I _]]; [|left; exists x, ti'; auto].
      cbn [cn_tests] in J. destruct J as [J|J]; [injection J as <- _; right; auto|left; exists c, ti'; split; [apply get_in; auto|auto]]. }
    assert (IF : forall f, in_fetch w' f -> in_fetch w f).
    { intros f (i & x & b & e & I & J). apply put_in in I. destruct I as [[-> ->]|[I _]]; [exists id, c, b, e; split; [apply get_in; auto|auto]|exists i, x, b, e; auto]. }
    constructor; cbn [w' w_files w_conns].
    + apply replaced_ids, Si.
    + intros i x I. apply put_in in I. destruct I as [[-> ->]|[I _]]; [|eapply s_tests; eauto]. cbn [cn_tests map fst]. constructor; auto.
      intros I. apply in_map_iff in I. destruct I as ([s ti'] & E & I). cbn in E. subst s. apply (Fr2 id). exists c, ti'. split; [apply get_in; auto|auto].
    + auto.
    + intros s i H. destruct (IS s i H) as [H'|[-> ->]]; [eapply s_new; eauto|auto].
    + intros s i i' H H'. apply IS in H. apply IS in H'. destruct H as [X|[E1 E2]], H' as [Y|[E3 E4]]; [exact (s_one w Si _ _ _ X Y)| | |congruence]; subst; exfalso; eapply Fr2; eauto.
    + intros f f' H I E. eapply s_fetch; eauto.
    + intros f i H H'. destruct (IS _ _ H') as [X|[E ->]]; [eapply s_fs; eauto|]. eapply Fr3; eauto.
  - destruct (get id (w_conns w)) as [c|] eqn:G; [|discriminate]. destruct (get sid (cn_tests c)) as [ti|] eqn:Gs; [|discriminate].
    destruct (end_session _ _ _ _ _ _ _ _) as [[[t pipe] keep]|]; [|discriminate]. injection St as <- <-.
    assert (Nt : NoDup (map fst (cn_tests c))) by (eapply s_tests; [exact Si|apply get_in; exact G]).
    assert (Me : in_session w sid id) by (exists c, ti; split; apply get_in; auto).
    assert (S0 : sinv (mkWorld t (w_files w) (put_conn id (mkConn (cn_class c) (cn_local c) pipe (del sid (cn_tests c)) (cn_fetch c)) (w_conns w)))).
    { apply sinv_put with (c := c); cbn [cn_tests cn_fetch]; auto; [apply del_nodup; auto| |intros f b e X; left; eauto]. intros s ti' I. apply del_sub in I. tauto. }
    destruct keep; [|exact S0].
    match goal with |- sinv ?x => set (w' := x) end.
    assert (IS : forall s i, in_session w' s i -> in_session w s i /\ s <> sid).
    { intros s i (x & ti' & I & J). apply put_in in I. destruct I as [[-> ->]|[I Ni]].
      - cbn [cn_tests] in J. apply del_sub in J. cbn [fst] in J. split; [exists c, ti'; split; [apply get_in; auto|tauto]|tauto].
      - assert (X : in_session w s i) by (exists x, ti'; auto). split; [exact X|]. intros ->. apply Ni. exact (s_one w Si _ _ _ X Me). }
    assert (IF : forall f, in_fetch w' f -> in_fetch w f).
    { intros f (i & x & b & e & I & J). apply put_in in I. destruct I as [[-> ->]|[I _]]; [exists id, c, b, e; split; [apply get_in; auto|auto]|exists i, x, b, e; auto]. }
    constructor; cbn [w' w_files w_conns].
    + apply replaced_ids, Si.
    + exact (s_tests _ S0).
    + cbn [map df_sid]. constructor; auto. eapply s_new; eauto.
    + intros s i H I. destruct (IS s i H) as [X Ne]. cbn [map df_sid] in I. destruct I as [I|I]; [congruence|]. eapply s_new; eauto.
    + intros s i i' H H'. exact (s_one w Si s i i' (proj1 (IS _ _ H)) (proj1 (IS _ _ H'))).
    + intros f f' H [I|I] E; [|exact (s_fetch w Si f f' (IF f H) I E)]. exfalso. subst f'. cbn [df_sid] in E. subst sid. exact (s_fs w Si f id (IF f H) Me).
    + intros f i H H'. exact (s_fs w Si f i (IF f H) (proj1 (IS _ _ H'))).
  - destruct (get id (w_conns w)) as [c|] eqn:G; [|discriminate]. destruct (get_file sid (w_files w)) as [f|] eqn:Gf; [|discriminate]. destruct (cn_fetch c) eqn:Cf; [discriminate|].
    injection St as <- <-. eapply sinv_put; eauto; cbn [cn_tests cn_fetch]; eauto.
    + eapply s_tests; [exact Si|apply get_in; exact G].
    + intros f' b' e' E. right. replace f' with f by congruence. apply get_file_in in Gf. tauto.
  - destruct (get id (w_conns w)) as [c|] eqn:G; [|discriminate]. destruct (cn_fetch c) as [[[f b] e]|] eqn:Cf; [|discriminate].
    destruct (close_fetch _ _ _ _ _ _ _ _ _ _) as [[[t pipe] keep]|]; [|discriminate]. injection St as <- <-. eapply sinv_put; eauto; cbn [cn_tests cn_fetch]; eauto.
    + eapply s_tests; [exact Si|apply get_in; exact G].
    + destruct keep; auto. apply del_file_nodup; auto.
    + intros f' b' e' E. discriminate.
    + intros f' I. destruct keep; auto. apply del_file_sub in I. tauto.
  - destruct (get id (w_conns w)) as [c|] eqn:G; [|discriminate]. destruct (cn_tests c); [|discriminate]. destruct (cn_fetch c); [discriminate|]. injection St as <- <-.
    apply sinv_mono with (w := w); cbn [w_files w_conns]; auto.
    + apply del_nodup, Si.
    + intros i x I. apply del_sub in I. eapply s_tests; [exact Si|apply I].
    + intros s i (x & ti & I & J). cbn [w_conns] in I. apply del_sub in I. exists x, ti. tauto.
    + intros f (i & x & b & e & I & J). cbn [w_conns] in I. apply del_sub in I. left. exists i, x, b, e. tauto.
  - destruct (get id (w_conns w)) as [c|] eqn:G; [|discriminate]. injection St as <- <-.
    apply sinv_mono with (w := w); cbn [w_files w_conns]; auto.
    + apply del_nodup, Si.
    + intros i x I. apply del_sub in I. eapply s_tests; [exact Si|apply I].
    + intros s i (x & ti & I & J). cbn [w_conns] in I. apply del_sub in I. exists x, ti. tauto.
    + intros f (i & x & b & e & I & J). cbn [w_conns] in I. apply del_sub in I. left. exists i, x, b, e. tauto.
Qed.

(** ** The limit trees, whatever happens *)
Variable B : nat -> Z -> Z.
Hypothesis HB : start_ok B.
Hypothesis F1 : 0 < snd fudge.
Hypothesis F2 : 0 <= fst fudge.
Variable t0 : tree.
Notation tgood := (tgood fudge B t0).
Notation cadd := (cadd t0).
Notation plus := (plus t0).

(** the usage of session slots is as before *)
Definition nosess (t t' : tree) : Prop := forall a v u, entry t' a LimTestSessions v u -> v <> 0 -> entry t a LimTestSessions v u.
Lemma nosess_trans : forall t t' t'', nosess t t' -> nosess t' t'' -> nosess t t''.
Proof. intros t t' t'' H H' a v u En V. auto. Qed.
Lemma nosess_refl : forall t, nosess t t.
Proof. intros t a v u En V. exact En. Qed.

Lemma demand_any : forall t c q lim val, tgood t -> (c < length t0)%nat -> amount val -> q = MESGREQUEST \/ q = MESGRELEASE \/ q = MESGCLAIM ->
  exists ok t', resource_demand fudge t c q lim val = Some (ok, t') /\ tgood t' /\ (lim <> LimTestSessions -> nosess t t') /\ (ok = false -> t' = t) /\
    (lim = LimTestSessions -> forall a v u', entry t' a lim v u' -> v <> 0 -> exists u, entry t a lim v u /\
       u' = u + (if ok && mem a (ancestors t0 c) then if q =? MESGRELEASE then - val else val else 0)).
Proof.
  intros t c query lim val (W & Ex & Wi & Zu & Sh) Hc Hv Hq. assert (Lt : length t = length t0) by (destruct Sh; auto).
  assert (HO : hop_ok t c query val) by (split; [lia|split; [exact Hv|exact Hq]]).
  destruct (demand_step fudge B HB t c query lim val F1 F2 W Ex Wi Zu HO) as (b & t' & E & W' & Sh' & Ex' & Wi' & Zu' & Nb & N).
  exists b, t'. split; [exact E|]. split; [repeat (split; [assumption|]); eapply same_trans; eauto|]. split; [|split; [exact Nb|]].
  - intros Nl a v u En V. destruct (N a LimTestSessions v u) as (u0 & E0 & ->); [unfold counted; auto|exact En|exact V|].
    unfold net1. cbn [h_ok h_lim h_query h_class h_val]. replace (lim =? LimTestSessions) with false by lia. rewrite andb_false_r. cbn [andb]. replace (u0 + 0) with u0 by lia. exact E0.
  - intros -> a v u' En V. destruct (N a LimTestSessions v u') as (u0 & E0 & ->); [unfold counted; auto|exact En|exact V|].
    exists u0. split; [exact E0|]. unfold net1. cbn [h_ok h_lim h_query h_class h_val Z.eqb Pos.eqb]. rewrite (anc0 t0 t Sh c), andb_true_r. reflexivity.
Qed.

Lemma query_any : forall t c pipe ev q lim val, tgood t -> (c < length t0)%nat -> amount val -> lim <> LimTestSessions -> q = MESGREQUEST \/ q = MESGRELEASE \/ q = MESGCLAIM ->
  exists r t' p', query fudge t c pipe ev q lim val = Some (r, t', p') /\ tgood t' /\ nosess t t'.
Proof.
  intros t c pipe ev q lim val G Hc Hv Nl Hq. destruct (demand_any t c q lim val G Hc Hv Hq) as (ok & t' & E & G' & N & _). unfold query. rewrite E. specialize (N Nl).
  destruct ev.
  - destruct pipe as [|x pipe]; cbn [app]; eauto 8.
  - eauto 8.
  - exists MESGINVALID, t, pipe. split; [reflexivity|]. split; [exact G|apply nosess_refl].
Qed.

Lemma res_dec : forall lim r, lim = LimBandwidth \/ lim = LimDisk -> res_ok lim r -> amount (snd r) /\ fst r <> LimTestSessions.
Proof. intros lim r L [-> | [E R]]; [cbn [fst snd]; unfold amount; lia|split; [exact R|lia]]. Qed.

Lemma complete_one_any : forall t c pipe lim r evs, tgood t -> (c < length t0)%nat -> lim = LimBandwidth \/ lim = LimDisk -> res_ok lim r ->
  exists t' p' e', complete_one fudge t c pipe r evs = Some (t', p', e') /\ tgood t' /\ nosess t t'.
Proof.
  intros t c pipe lim r evs G Hc L R. unfold complete_one. destruct (fst r =? 0); [exists t, pipe, evs; split; [reflexivity|split; [exact G|apply nosess_refl]]|].
  destruct (res_dec lim r L R) as [R1 R2]. destruct (query_any t c pipe (ev_hd evs) MESGRELEASE (fst r) (snd r) G Hc R1 R2 ltac:(auto)) as (x & t' & p' & -> & G' & N). eauto 8.
Qed.
Lemma test_complete_any : forall t c pipe ti evs, tgood t -> (c < length t0)%nat -> ti_ok ti -> exists t' p', test_complete fudge t c pipe ti evs = Some (t', p') /\ tgood t' /\ nosess t t'.
Proof.
  intros t c pipe ti evs G Hc (R0 & R1 & _). unfold test_complete.
  destruct (complete_one_any t c pipe LimBandwidth _ evs G Hc ltac:(auto) R0) as (t1 & p1 & e1 & -> & G1 & N1).
  destruct (complete_one_any t1 c p1 LimDisk _ e1 G1 Hc ltac:(auto) R1) as (t2 & p2 & e2 & -> & G2 & N2). exists t2, p2. split; [reflexivity|]. split; [exact G2|]. eapply nosess_trans; eauto.
Qed.

Lemma end_session_any : forall t c pipe ti aval st evs, tgood t -> (c < length t0)%nat -> ti_ok ti -> (forall s, st = Some s -> amount s) ->
  exists t' p' k, end_session fudge t c pipe ti aval st evs = Some (t', p', k) /\ tgood t' /\ nosess t t'.
Proof.
  intros t c pipe ti aval st evs G Hc T Hs. unfold end_session.
  assert (Fin : forall t1 p1 ti1 (k : bool) e1, tgood t1 -> nosess t t1 -> ti_ok ti1 ->
    exists (t' : tree) (p' : list Z) (k' : bool), match test_complete fudge t1 c p1 ti1 e1 with None => None | Some (t, pipe) => Some (t, pipe, k) end = Some (t', p', k') /\ tgood t' /\ nosess t t').
  { intros t1 p1 ti1 k e1 G1 N1 T1. destruct (test_complete_any t1 c p1 ti1 e1 G1 Hc T1) as (t2 & p2 & -> & G2 & N2). exists t2, p2, k. split; [reflexivity|]. split; [exact G2|]. eapply nosess_trans; eauto. }
  destruct (ti_open ti) eqn:Op; [|apply Fin; auto; apply nosess_refl].
  unfold close_test. destruct T as (R0 & R1 & To).
  assert (Td : ti_ok (mkTI (ti_res0 ti) (0, 0) false)) by (split; [exact R0|split; [left; reflexivity|discriminate]]).
  destruct st as [size|]; [|apply Fin; auto; apply nosess_refl].
  rewrite (To Op). cbn [Z.eqb Pos.eqb negb]. specialize (Hs size eq_refl). pose proof (proj1 (res_dec LimDisk _ ltac:(auto) R1)) as R.
  destruct (negb (aval =? 0)).
  { destruct (query_any t c pipe (ev_hd evs) MESGRELEASE LimDisk (snd (ti_res1 ti)) G Hc R ltac:(lia) ltac:(auto)) as (x & t' & p' & -> & G' & N). apply Fin; auto. }
  destruct (Z.ltb_spec size (snd (ti_res1 ti))).
  { destruct (query_any t c pipe (ev_hd evs) MESGRELEASE LimDisk (snd (ti_res1 ti) - size) G Hc ltac:(unfold amount in *; lia) ltac:(lia) ltac:(auto)) as (x & t' & p' & -> & G' & N). apply Fin; auto. }
  destruct (Z.ltb_spec (snd (ti_res1 ti)) size); [|apply Fin; auto; apply nosess_refl].
  destruct (query_any t c pipe (ev_hd evs) MESGCLAIM LimDisk (size - snd (ti_res1 ti)) G Hc ltac:(unfold amount in *; lia) ltac:(lia) ltac:(auto)) as (x & t' & p' & -> & G' & N).
  destruct (x =? 2); [|apply Fin; auto].
  destruct (query_any t' c p' (ev_hd (tl evs)) MESGRELEASE LimDisk (snd (ti_res1 ti)) G' Hc R ltac:(lia) ltac:(auto)) as (y & t2 & p2 & -> & G2 & N2). apply Fin; auto. eapply nosess_trans; eauto.
Qed.

Lemma close_fetch_any : forall t c pipe f b e aval st evs, tgood t -> (c < length t0)%nat -> (df_class f < length t0)%nat -> (forall s, st = Some s -> amount s) ->
  exists t' p' k, close_fetch fudge t c pipe f b e aval st evs = Some (t', p', k) /\ tgood t' /\ nosess t t'.
Proof.
  intros t c pipe f b e aval st evs G Hc Hf Hs. unfold close_fetch. assert (Lt : length t = length t0) by (destruct G as (_ & _ & _ & _ & S & _); auto).
  destruct (nth_error t (df_class f)) as [n|] eqn:En; [|apply nth_error_None in En; lia].
  assert (Keep : forall k : bool, exists t' p' (k' : bool), Some (t, pipe, k) = Some (t', p', k') /\ tgood t' /\ nosess t t') by (intros k; exists t, pipe, k; split; [reflexivity|split; [exact G|apply nosess_refl]]).
  match goal with |- context [if ?b then _ else _] => destruct b end; [|apply Keep]. destruct st as [s|]; [|apply Keep]. destruct (0 <? s); [|apply Keep].
  destruct (query_any t c pipe (ev_hd evs) MESGRELEASE LimDisk s G Hc (Hs s eq_refl) ltac:(lia) ltac:(auto)) as (x & t' & p' & -> & G' & N). eauto 8.
Qed.

(** the usage of session slots in the connection's own tree *)
Definition slots (c : nat) (d : Z) (t t' : tree) : Prop := forall a v u', entry t' a LimTestSessions v u' -> v <> 0 ->
  exists u, entry t a LimTestSessions v u /\ u + (if mem a (ancestors t0 c) then d else 0) <= u'.

Lemma check_any : forall t c tw ls bw disk evs, tgood t -> tgood (cn_local c) -> (cn_class c < length t0)%nat -> amount bw -> amount disk ->
  exists v t' loc p', check_test_policy fudge t c tw ls bw disk evs = Some (v, t', loc, p') /\ tgood t' /\ tgood loc /\ nosess t t' /\
    match v with
    | PAccepted ti => ti = mkTI (if tw then (0, 0) else (LimBandwidth, bw)) (if ls then (0, 0) else (LimDisk, disk)) false /\ slots (cn_class c) 1 (cn_local c) loc
    | _ => slots (cn_class c) 0 (cn_local c) loc
    end.
Proof.
  intros t c tw ls bw disk evs G Gl Hc Hb Hd. unfold check_test_policy.
  destruct (demand_any (cn_local c) (cn_class c) MESGREQUEST LimTestSessions 1 Gl Hc ltac:(unfold amount; lia) ltac:(auto)) as (ok & loc & -> & Gloc & _ & Same & N1). specialize (N1 eq_refl).
  destruct ok.
  2:{ rewrite (Same eq_refl) in *. exists PDenied, t, (cn_local c), (cn_pipe c). repeat (split; [first [assumption|reflexivity|apply nosess_refl]|]). intros a v u' En V. exists u'. split; [exact En|].
      destruct (mem _ _); lia. }
  cbn [andb Z.eqb Pos.eqb] in N1.
  assert (Sl : slots (cn_class c) 1 (cn_local c) loc).
  { intros a v u' En V. destruct (N1 a v u' En V) as (u & En' & ->). exists u. split; [exact En'|]. destruct (mem _ _); lia. }
  assert (Sl0 : slots (cn_class c) 0 (cn_local c) loc).
  { intros a v u' En V. destruct (N1 a v u' En V) as (u & En' & ->). exists u. split; [exact En'|]. destruct (mem _ _); lia. }
  destruct (demand_any loc (cn_class c) MESGRELEASE LimTestSessions 1 Gloc Hc ltac:(unfold amount; lia) ltac:(auto)) as (ok' & loc' & -> & Gloc' & _ & Same' & N2). specialize (N2 eq_refl).
  assert (Sl2 : slots (cn_class c) 0 (cn_local c) loc').
  { intros a v u' En V. destruct (N2 a v u' En V) as (u & En' & ->). destruct (N1 a v u En' V) as (u2 & En2 & ->). exists u2. split; [exact En2|].
    destruct (mem _ _); rewrite ?andb_false_r, ?andb_true_r; cbn [Z.eqb Pos.eqb]; destruct ok'; lia. }
  assert (BW : exists r t1 p1, (if tw then Some (MESGOK, t, cn_pipe c) else query fudge t (cn_class c) (cn_pipe c) (ev_hd evs) MESGREQUEST LimBandwidth bw) = Some (r, t1, p1) /\ tgood t1 /\ nosess t t1).
  { destruct tw; [exists MESGOK, t, (cn_pipe c); split; [reflexivity|split; [exact G|apply nosess_refl]]|]. apply query_any; auto; lia. }
  destruct BW as (r & t1 & p1 & -> & G1 & N3). destruct (r =? 2); [cbn [option_map]; exists PDenied, t1, loc', p1; auto 8|]. destruct (r =? 0); [exists PFatal, t1, loc, p1; auto 8|].
  set (evs' := if tw then evs else tl evs).
  destruct ls; [eexists (PAccepted _), t1, loc, p1; auto 10|].
  destruct (query_any t1 (cn_class c) p1 (ev_hd evs') MESGREQUEST LimDisk disk G1 Hc Hd ltac:(lia) ltac:(auto)) as (x & t2 & p2 & -> & G2 & N4).
  assert (N5 := nosess_trans _ _ _ N3 N4).
  destruct (x =? 2).
  { destruct (query_any t2 (cn_class c) p2 (ev_hd (tl evs')) MESGRELEASE (fst (if tw then (0, 0) else (LimBandwidth, bw))) (snd (if tw then (0, 0) else (LimBandwidth, bw))) G2 Hc) as (y & t3 & p3 & -> & G3 & N6).
    - destruct tw; cbn [snd]; [unfold amount; lia|auto].
    - destruct tw; cbn [fst]; lia.
    - auto.
    - exists PDenied, t3, loc', p3. repeat (split; [first [assumption|reflexivity|eapply nosess_trans; eauto]|]). exact Sl2. }
  destruct (x =? 0); [exists PFatal, t2, loc, p2; auto 8|]. eexists (PAccepted _), t2, loc, p2. auto 10.
Qed.

Definition file_ok (f : dfile) : Prop := (df_class f < length t0)%nat /\ amount (df_size f).
Definition conn_ok (c : conn) : Prop :=
  (cn_class c < length t0)%nat /\ tgood (cn_local c) /\ Forall (fun e => ti_ok (snd e)) (cn_tests c) /\ (forall f b e, cn_fetch c = Some (f, b, e) -> file_ok f).
Record tinv (w : world) : Prop := {
  t_tree : tgood (w_tree w);
  t_sess : forall a v u, entry (w_tree w) a LimTestSessions v u -> v <> 0 -> u = 0;
  t_conns : Forall (fun e => conn_ok (snd e)) (w_conns w);
  t_files : Forall file_ok (w_files w)
}.

(** what becomes of a connection in a step that concerns it *)
Definition fate (e : event) (a : answer) (c : conn) (c' : conn) : Prop :=
  cn_class c' = cn_class c /\ slots (cn_class c) (match a with AAccepted => 1 | _ => 0 end) (cn_local c) (cn_local c').

Lemma slots_same : forall c t, slots c 0 t t.
Proof. intros c t a v u' En V. exists u'. split; [exact En|]. destruct (mem _ _); lia. Qed.

Definition ev_id (e : event) : Z :=
  match e with Connect id _ => id | Request id _ _ _ _ _ _ _ => id | Finish id _ _ _ _ => id | Fetch id _ _ _ => id | Fetched id _ _ _ => id | Quit id => id | Crash id => id end.

Lemma tinv_step : forall w e, tinv w -> in_range e -> possible w e -> exists w' a, step fudge w e = Some (w', a) /\ tinv w' /\
  (forall c, get (ev_id e) (w_conns w) = Some c -> (exists c', w_conns w' = put_conn (ev_id e) c' (w_conns w) /\ fate e a c c') \/ w_conns w' = del (ev_id e) (w_conns w) /\ a = ANone) /\
  (get (ev_id e) (w_conns w) = None -> a = ANone /\ exists cl, e = Connect (ev_id e) cl /\ w_conns w' = put_conn (ev_id e) (mkConn cl (w_tree w) [] [] None) (w_conns w)) /\
  (a = AAccepted -> exists sid tw ls bw disk o evs, e = Request (ev_id e) sid tw ls bw disk o evs).
Proof.
  intros w e [Gt Se Fc Ff] R Po. assert (Lt : length (w_tree w) = length t0) by (destruct Gt as (_ & _ & _ & _ & S & _); auto).
  assert (Ok : forall id c, get id (w_conns w) = Some c -> conn_ok c) by (intros id c G; apply (proj1 (Forall_forall _ _) Fc (id, c)); apply get_in; auto).
  assert (Put : forall t files id c', tgood t -> nosess (w_tree w) t -> Forall file_ok files -> conn_ok c' -> tinv (mkWorld t files (put_conn id c' (w_conns w)))).
  { intros t files id c' G N F C. constructor; cbn [w_tree w_files w_conns]; auto.
    - intros a v u En V. eapply Se; eauto.
    - unfold put_conn. constructor; auto. apply del_forall; auto. }
  assert (Gone : forall id, tinv (mkWorld (w_tree w) (w_files w) (del id (w_conns w)))) by (intros id; constructor; cbn [w_tree w_files w_conns]; auto; apply del_forall; auto).
  destruct e as [id cl|id sid tw ls bw disk opens evs|id sid aval st evs|id sid b e|id aval st evs|id|id]; cbn [step possible in_range ev_id] in *.
  - destruct Po as [Po Hc]. rewrite Po. replace (cl <? length (w_tree w))%nat with true by lia. eexists. eexists. split; [reflexivity|]. split; [|split; [|split]].
    + apply Put; auto; [apply nosess_refl|]. split; [cbn; lia|split; [exact Gt|split; [constructor|discriminate]]].
    + intros c X. congruence.
    + intros _. split; [reflexivity|]. exists cl. split; reflexivity.
    + discriminate.
  - destruct Po as ((c & G) & ->). rewrite G. destruct (Ok id c G) as (C1 & C2 & C3 & C4). destruct R as [Rb Rd].
    destruct (check_any (w_tree w) c tw ls bw disk evs Gt C2 C1 Rb Rd) as (v & t' & loc & p' & -> & G' & Gl & N & Post).
    assert (Con : forall pipe tests, Forall (fun e => ti_ok (snd e)) tests -> conn_ok (mkConn (cn_class c) loc pipe tests (cn_fetch c))) by (intros; split; [exact C1|split; [exact Gl|split; [assumption|exact C4]]]).
    destruct v as [ti| |].
    2,3: eexists; eexists; split; [reflexivity|]; split; [apply Put; auto|split; [|split; [congruence|discriminate]]]; intros c0 E; assert (c0 = c) by congruence; subst c0; left; eexists; split; [reflexivity|]; split; [reflexivity|exact Post].
    destruct Post as [Et Sl].
    assert (Tok : ti_ok ti) by (subst ti; split; [destruct tw; [left; auto|right; auto]|split; [destruct ls; [left; auto|right; auto]|discriminate]]).
    destruct (ls || opens).
    + eexists. eexists. split; [reflexivity|]. split; [apply Put; auto; apply Con; constructor; auto; cbn [snd]; split; [apply Tok|split; [apply Tok|]]; cbn [ti_open ti_res1]; intros; subst ti; destruct ls; [discriminate|reflexivity]|].
      split; [|split; [congruence|intros _; repeat eexists]]. intros c0 E. assert (c0 = c) by congruence. subst c0. left. eexists. split; [reflexivity|]. split; [reflexivity|exact Sl].
    + destruct (test_complete_any t' (cn_class c) p' ti (skipn 2 evs) G' C1 Tok) as (t2 & p2 & -> & G2 & N2). eexists. eexists. split; [reflexivity|].
      split; [apply Put; auto; eapply nosess_trans; eauto|]. split; [|split; [congruence|discriminate]]. intros c0 E. assert (c0 = c) by congruence. subst c0. left. eexists. split; [reflexivity|]. split; [reflexivity|].
      cbn [cn_local]. intros a v u' En V. destruct (Sl a v u' En V) as (u & En' & L). exists u. split; [exact En'|]. destruct (mem _ _); lia.
  - destruct Po as (c & ti & G & Gs). rewrite G, Gs. destruct (Ok id c G) as (C1 & C2 & C3 & C4).
    assert (Tok : ti_ok ti) by (apply (proj1 (Forall_forall _ _) C3 (sid, ti)); apply get_in; auto).
    destruct (end_session_any (w_tree w) (cn_class c) (cn_pipe c) ti aval st evs Gt C1 Tok) as (t' & p' & k & -> & G' & N).
    { intros s ->. exact R. }
    eexists. eexists. split; [reflexivity|]. split; [|split; [|split; [congruence|discriminate]]].
    + apply Put; auto.
      * destruct k; auto. constructor; auto. split; [exact C1|]. cbn [df_size]. destruct st; [exact R|unfold amount; lia].
      * split; [exact C1|split; [exact C2|split; [cbn [cn_tests]; apply del_forall; auto|exact C4]]].
    + intros c0 E. assert (c0 = c) by congruence. subst c0. left. eexists. split; [reflexivity|]. split; [reflexivity|apply slots_same].
  - destruct Po as (c & f & G & Cf & Gf). rewrite G, Gf, Cf. destruct (Ok id c G) as (C1 & C2 & C3 & C4). eexists. eexists. split; [reflexivity|]. split; [|split; [|split; [congruence|discriminate]]].
    + apply Put; auto; [apply nosess_refl|]. split; [exact C1|split; [exact C2|split; [exact C3|]]]. cbn [cn_fetch]. intros f' b' e' E. replace f' with f by congruence.
      apply (proj1 (Forall_forall _ _) Ff). apply get_file_in in Gf. tauto.
    + intros c0 E. assert (c0 = c) by congruence. subst c0. left. eexists. split; [reflexivity|]. split; [reflexivity|apply slots_same].
  - destruct Po as (c & f & b & e & G & Cf). rewrite G, Cf. destruct (Ok id c G) as (C1 & C2 & C3 & C4). destruct (C4 f b e Cf) as [Fo1 Fo2].
    destruct (close_fetch_any (w_tree w) (cn_class c) (cn_pipe c) f b e aval st evs Gt C1 Fo1) as (t' & p' & k & -> & G' & N).
    { intros s ->. exact R. }
    eexists. eexists. split; [reflexivity|]. split; [|split; [|split; [congruence|discriminate]]].
    + apply Put; auto.
      * destruct k; auto. apply Forall_forall. intros x I. apply del_file_sub in I. apply (proj1 (Forall_forall _ _) Ff). tauto.
      * split; [exact C1|split; [exact C2|split; [exact C3|discriminate]]].
    + intros c0 E. assert (c0 = c) by congruence. subst c0. left. eexists. split; [reflexivity|]. split; [reflexivity|apply slots_same].
  - destruct Po as (c & G & E1 & E2). rewrite G, E1, E2. eexists. eexists. split; [reflexivity|]. split; [apply Gone|]. split; [|split; [congruence|discriminate]]. intros c0 E. right. split; reflexivity.
  - destruct Po as (c & G). rewrite G. eexists. eexists. split; [reflexivity|]. split; [apply Gone|]. split; [|split; [congruence|discriminate]]. intros c0 E. right. split; reflexivity.
Qed.
End WORLD.
