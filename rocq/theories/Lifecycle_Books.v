(** The books over smooth histories; histories in general. *)
From Coq Require Import ZArith List Bool Lia ZifyBool ZifyNat.
From Verif Require Import Base Double Double_Proofs Policy_Model Policy_Spec Policy_Proofs Lifecycle_Model Lifecycle_Spec Lifecycle_Proofs Lifecycle_World.
Import ListNotations.
Open Scope Z_scope.

Lemma step_possible : forall fudge w e r, step fudge w e = Some r -> possible w e.
Proof.
  intros fudge w e r St. destruct e as [id cl|id sid tw ls bw disk opens evs|id sid aval st evs|id sid b e|id aval st evs|id|id]; cbn [step possible] in *.
  - destruct (get id (w_conns w)); [discriminate|]. split; [reflexivity|]. destruct (Nat.ltb_spec cl (length (w_tree w))); [auto|discriminate].
  - destruct (get id (w_conns w)) as [c|]; [|discriminate]. destruct (sid_free w sid); [|discriminate]. split; [eauto|reflexivity].
  - destruct (get id (w_conns w)) as [c|]; [|discriminate]. destruct (get sid (cn_tests c)) eqn:G; [|discriminate]. eauto.
  - destruct (get id (w_conns w)) as [c|]; [|discriminate]. destruct (get_file sid (w_files w)) as [f|]; [|discriminate]. destruct (cn_fetch c) eqn:E; [discriminate|]. eauto.
  - destruct (get id (w_conns w)) as [c|]; [|discriminate]. destruct (cn_fetch c) as [[[f b] e]|] eqn:E; [|discriminate]. eauto 8.
  - destruct (get id (w_conns w)) as [c|]; [|discriminate]. destruct (cn_tests c) eqn:E; [|discriminate]. destruct (cn_fetch c) eqn:E'; [discriminate|]. eauto.
  - destruct (get id (w_conns w)) as [c|]; [|discriminate]. eauto.
Qed.

Section BOOKS.
Variable fudge : Z * Z.
Variable B : nat -> Z -> Z.
Hypothesis HB : start_ok B.
Hypothesis F1 : 0 < snd fudge.
Hypothesis F2 : 0 <= fst fudge.
Variable t0 : tree.
Notation tgood := (tgood fudge B t0).
Notation cadd := (cadd t0).
Notation plus := (plus t0).
Notation tinv := (tinv fudge B t0).
Notation conn_ok := (conn_ok fudge B t0).
Notation file_ok := (file_ok t0).

Definition h0 (conns : list (Z * conn)) (files : list dfile) (a : nat) (lim : Z) : Z :=
  total (fun e => conn_holds t0 a lim (snd e)) conns + total (file_holds t0 a lim) files.
Record binv (w : world) : Prop := {
  b_sids : sinv w;
  b_trees : tinv w;
  b_pipes : Forall (fun e => cn_pipe (snd e) = []) (w_conns w);
  b_acct : acct (w_tree w) (h0 (w_conns w) (w_files w))
}.

Lemma holds_pos : forall lim ti, lim = LimBandwidth \/ lim = LimDisk -> ti_ok ti -> 0 <= session_holds lim ti.
Proof.
  intros lim ti L (R0 & R1 & _). unfold session_holds, res_amount.
  destruct R0 as [-> | [-> R0]], R1 as [-> | [-> R1]]; cbn [fst snd]; destruct L as [-> | ->]; cbn [Z.eqb Pos.eqb]; lia.
Qed.
Lemma conn_pos : forall a lim c, lim = LimBandwidth \/ lim = LimDisk -> Forall (fun e => ti_ok (snd e)) (cn_tests c) -> 0 <= conn_holds t0 a lim c.
Proof.
  intros a lim c L F. unfold conn_holds. destruct (mem _ _); [|lia]. apply total_nonneg. eapply Forall_impl; [|exact F]. intros e T. apply holds_pos; auto.
Qed.
Lemma conns_pos : forall a lim l, lim = LimBandwidth \/ lim = LimDisk -> Forall (fun e : Z * conn => conn_ok (snd e)) l -> 0 <= total (fun e => conn_holds t0 a lim (snd e)) l.
Proof. intros a lim l L F. apply total_nonneg. eapply Forall_impl; [|exact F]. intros e (_ & _ & T & _). apply conn_pos; auto. Qed.
Lemma files_pos : forall a lim l, Forall file_ok l -> 0 <= total (file_holds t0 a lim) l.
Proof. intros a lim l F. apply total_nonneg. eapply Forall_impl; [|exact F]. intros f (_ & S). unfold file_holds, amount in *. destruct (_ && _); lia. Qed.
Lemma conn_holds_del : forall a lim c sid ti loc pipe fe, NoDup (map fst (cn_tests c)) -> get sid (cn_tests c) = Some ti ->
  conn_holds t0 a lim c = conn_holds t0 a lim (mkConn (cn_class c) loc pipe (del sid (cn_tests c)) fe) + (if mem a (ancestors t0 (cn_class c)) then session_holds lim ti else 0).
Proof.
  intros a lim c sid ti loc pipe fe N G. unfold conn_holds. cbn [cn_class cn_tests]. destruct (mem _ _); [|lia].
  rewrite (total_get _ (fun e => session_holds lim (snd e)) sid ti _ N G). cbn [snd]. lia.
Qed.
Lemma replaced : forall conns files id c c', NoDup (map fst conns) -> get id conns = Some c ->
  forall a lim, h0 conns files a lim = h0 (del id conns) files a lim + conn_holds t0 a lim c /\
                h0 (put_conn id c' conns) files a lim = h0 (del id conns) files a lim + conn_holds t0 a lim c'.
Proof.
  intros conns files id c c' N G a lim. unfold h0, put_conn. rewrite (total_get _ (fun e => conn_holds t0 a lim (snd e)) id c conns N G). cbn [snd total fold_right].
  unfold total. cbn [snd]. split; lia.
Qed.
Lemma h0_file : forall conns files f a lim, h0 conns (f :: files) a lim = h0 conns files a lim + file_holds t0 a lim f.
Proof. intros. unfold h0, total. cbn [fold_right]. lia. Qed.

Lemma step_acct : forall w e, binv w -> in_range e -> smooth w e -> possible w e -> exists w' a, step fudge w e = Some (w', a) /\
  acct (w_tree w') (h0 (w_conns w') (w_files w')) /\ Forall (fun e => cn_pipe (snd e) = []) (w_conns w') /\ a <> AFatal.
Proof.
  intros w e [Si Ti Pi Bk] Ra Sm Po. assert (Ni := s_ids w Si). destruct Ti as [Gt Se Fc Ff].
  assert (Ok : forall id c, get id (w_conns w) = Some c -> conn_ok c) by (intros id c G; apply (proj1 (Forall_forall _ _) Fc (id, c)); apply get_in; auto).
  assert (Op : forall id c, get id (w_conns w) = Some c -> cn_pipe c = []) by (intros id c G; apply (proj1 (Forall_forall _ _) Pi (id, c)); apply get_in; auto).
  assert (Pput : forall id c', cn_pipe c' = [] -> Forall (fun e => cn_pipe (snd e) = []) (put_conn id c' (w_conns w))) by (intros id c' E; constructor; [exact E|apply del_forall; exact Pi]).
  assert (Hp : hpos (h0 (w_conns w) (w_files w))) by (intros a lim L; unfold h0; pose proof (conns_pos a lim _ L Fc); pose proof (files_pos a lim _ Ff); lia).
  destruct e as [id cl|id sid tw ls bw disk opens evs|id sid aval st evs|id sid b e|id aval st evs|id|id]; cbn [smooth possible step in_range] in *.
  - (* Connect *)
    destruct Po as [Po Hc]. rewrite Po. replace (cl <? length (w_tree w))%nat with true by lia. eexists. eexists. split; [reflexivity|]. cbn [w_tree w_files w_conns]. split; [|split; [apply Pput; reflexivity|discriminate]].
    unfold put_conn. rewrite (del_notin _ id (w_conns w) (get_none _ _ _ Po)).
    revert Bk. apply acct_ext. intros a lim L. unfold h0, total. cbn [fold_right snd].
    assert (Z0 : conn_holds t0 a lim (mkConn cl (w_tree w) [] [] None) = 0) by (unfold conn_holds; cbn [cn_tests]; destruct (mem _ _); reflexivity). rewrite Z0. lia.
  - (* Request *)
    destruct Po as ((c & Gc) & ->). rewrite Gc. destruct (Ok id c Gc) as (C1 & C2 & C3 & C4). destruct Ra as [Hb Hd].
    destruct (check_test_policy_ok fudge B HB F1 F2 t0 (w_tree w) _ c tw ls bw disk evs Gt Bk Hp C2 C1 (Op id c Gc) Sm Hb Hd) as (v & t' & loc & E & G' & Gl & NF & Post). rewrite E.
    assert (Den : forall t2 pipe fe, acct t2 (h0 (w_conns w) (w_files w)) -> acct t2 (h0 (put_conn id (mkConn (cn_class c) loc pipe (cn_tests c) fe) (w_conns w)) (w_files w))).
    { intros t2 pipe fe A. revert A. apply acct_ext. intros a lim L. destruct (replaced (w_conns w) (w_files w) id c (mkConn (cn_class c) loc pipe (cn_tests c) fe) Ni Gc a lim) as [R1 R2]. rewrite R1, R2. reflexivity. }
    destruct v as [ti| |]; [| |congruence].
    2:{ eexists. eexists. split; [reflexivity|]. cbn [w_tree w_files w_conns]. split; [apply Den; exact Post|]. split; [apply Pput; reflexivity|discriminate]. }
    destruct Post as (Eti & A).
    assert (Tok : ti_ok ti) by (subst ti; split; [destruct tw; [left; auto|right; auto]|split; [destruct ls; [left; auto|right; auto]|discriminate]]).
    destruct (ls || opens).
    + eexists. eexists. split; [reflexivity|]. cbn [w_tree w_files w_conns]. split; [|split; [apply Pput; reflexivity|discriminate]].
      revert A. apply acct_ext. intros a lim L. unfold Lifecycle_Proofs.cadd. cbn zeta.
      match goal with |- _ = h0 (put_conn id ?x _) _ _ _ => destruct (replaced (w_conns w) (w_files w) id c x Ni Gc a lim) as [R1 R2] end. rewrite R1, R2.
      unfold conn_holds. cbn [cn_class cn_tests]. unfold total. cbn [fold_right snd]. unfold session_holds. cbn [ti_res0 ti_res1]. destruct (mem _ _); lia.
    + destruct (test_complete_ok fudge B HB F1 F2 t0 t' _ (cn_class c) ti (skipn 2 evs) G' Hp C1 Tok (ev_skip 2 evs Sm) A) as (t2 & -> & G2 & A2).
      eexists. eexists. split; [reflexivity|]. cbn [w_tree w_files w_conns]. split; [apply Den; exact A2|]. split; [apply Pput; reflexivity|discriminate].
  - (* Finish *)
    destruct Po as (c & ti & Gc & Gs). destruct Sm as (Ev & Sn). destruct st as [size|]; [|congruence]. rewrite Gc, Gs. destruct (Ok id c Gc) as (C1 & C2 & C3 & C4). rewrite (Op id c Gc).
    assert (Tok : ti_ok ti) by (apply (proj1 (Forall_forall _ _) C3 (sid, ti)); apply get_in; auto).
    assert (On : NoDup (map fst (cn_tests c))) by (eapply s_tests; [exact Si|apply get_in; exact Gc]).
    set (c' := mkConn (cn_class c) (cn_local c) [] (del sid (cn_tests c)) (cn_fetch c)).
    set (h := fun a lim => h0 (del id (w_conns w)) (w_files w) a lim + conn_holds t0 a lim c').
    assert (Hp' : hpos h).
    { intros a lim L. unfold h, h0. pose proof (conns_pos a lim (del id (w_conns w)) L (del_forall _ _ id _ Fc)). pose proof (files_pos a lim _ Ff).
      pose proof (conn_pos a lim c' L (del_forall _ _ sid _ C3)). lia. }
    assert (A : acct (w_tree w) (cadd h (cn_class c) ti)).
    { revert Bk. apply acct_ext. intros a lim L. unfold Lifecycle_Proofs.cadd, h. destruct (replaced (w_conns w) (w_files w) id c c' Ni Gc a lim) as [R1 _]. rewrite R1.
      rewrite (conn_holds_del a lim c sid ti (cn_local c) [] (cn_fetch c) On Gs). fold c'. lia. }
    destruct (end_session_ok fudge B HB F1 F2 t0 (w_tree w) h (cn_class c) ti aval size evs Gt Hp' C1 Tok Ra Ev A) as (t' & keep & -> & G' & A').
    eexists. eexists. split; [reflexivity|]. cbn [w_tree w_files w_conns]. split; [|split; [apply Pput; reflexivity|discriminate]].
    revert A'. apply acct_ext. intros a lim L. destruct (replaced (w_conns w) (if keep then mkFile sid (cn_class c) size :: w_files w else w_files w) id c c' Ni Gc a lim) as [_ R2]. fold c'. rewrite R2.
    destruct keep; unfold h; [|reflexivity]. unfold Lifecycle_Proofs.plus. rewrite h0_file. unfold file_holds. cbn [df_class df_size]. lia.
  - (* Fetch *)
    destruct Po as (c & f & Gc & Cf & Gf). rewrite Gc, Gf, Cf. eexists. eexists. split; [reflexivity|]. cbn [w_tree w_files w_conns]. split; [|split; [apply Pput; exact (Op id c Gc)|discriminate]].
    revert Bk. apply acct_ext. intros a lim L.
    match goal with |- _ = h0 (put_conn id ?x _) _ _ _ => destruct (replaced (w_conns w) (w_files w) id c x Ni Gc a lim) as [R1 R2] end. rewrite R1, R2. reflexivity.
  - (* Fetched *)
    destruct Po as (c & f & b & e & Gc & Cf). destruct Sm as (Ev & Sm). destruct (Sm c f b e Gc Cf) as (-> & Ecl & If). rewrite Gc, Cf, (Op id c Gc). destruct (Ok id c Gc) as (C1 & C2 & C3 & C4).
    pose proof (proj1 (Forall_forall _ _) Ff f If) as [Fo1 Fo2]. assert (Lt : length (w_tree w) = length t0) by (destruct Gt as (_ & _ & _ & _ & S & _); auto).
    unfold close_fetch. destruct (nth_error (w_tree w) (df_class f)) as [n|] eqn:En; [|apply nth_error_None in En; lia].
    assert (Same : forall t' files, acct t' (h0 (w_conns w) files) -> acct t' (h0 (put_conn id (mkConn (cn_class c) (cn_local c) [] (cn_tests c) None) (w_conns w)) files)).
    { intros t' files A. revert A. apply acct_ext. intros a lim L. destruct (replaced (w_conns w) files id c (mkConn (cn_class c) (cn_local c) [] (cn_tests c) None) Ni Gc a lim) as [R1 R2]. rewrite R1, R2. reflexivity. }
    match goal with |- context [if ?b then _ else _] => destruct b end.
    2:{ eexists. eexists. split; [reflexivity|]. cbn [w_tree w_files w_conns]. split; [apply Same; exact Bk|split; [apply Pput; reflexivity|discriminate]]. }
    assert (TD : forall a lim, total (file_holds t0 a lim) (w_files w) = file_holds t0 a lim f + total (file_holds t0 a lim) (del_file (df_sid f) (w_files w))) by (intros; apply total_del_file; auto; apply Si).
    destruct (Z.ltb_spec 0 (df_size f)) as [P|P].
    + destruct (ev_all evs Ev) as [-> _].
      destruct (demand_release fudge B HB F1 F2 t0 (w_tree w) _ (cn_class c) LimDisk (df_size f) Gt Bk C1 Fo2 ltac:(auto)) as (t' & Ed & G' & A').
      { intros a I. unfold h0. rewrite TD. unfold file_holds at 1. rewrite Ecl, (in_mem a _ I). cbn [Z.eqb Pos.eqb andb]. pose proof (conns_pos a LimDisk _ ltac:(auto) Fc).
        assert (FF : Forall file_ok (del_file (df_sid f) (w_files w))) by (apply Forall_forall; intros x X; apply del_file_sub in X; apply (proj1 (Forall_forall _ _) Ff); tauto).
        pose proof (files_pos a LimDisk _ FF). lia. }
      rewrite (query_answered _ _ _ _ _ _ _ _ Ed). eexists. eexists. split; [reflexivity|]. cbn [w_tree w_files w_conns]. split; [|split; [apply Pput; reflexivity|discriminate]]. apply Same.
      revert A'. apply acct_ext. intros a lim L. unfold Lifecycle_Proofs.plus, h0. rewrite TD. unfold file_holds at 1. rewrite Ecl. destruct (_ && _); lia.
    + eexists. eexists. split; [reflexivity|]. cbn [w_tree w_files w_conns]. split; [|split; [apply Pput; reflexivity|discriminate]]. apply Same.
      revert Bk. apply acct_ext. intros a lim L. unfold h0. rewrite TD. unfold file_holds at 1. unfold amount in Fo2. replace (df_size f) with 0 by lia. destruct (_ && _); lia.
  - (* Quit *)
    destruct Po as (c & Gc & E0 & E1). rewrite Gc, E0, E1. eexists. eexists. split; [reflexivity|]. cbn [w_tree w_files w_conns]. split; [|split; [apply del_forall; exact Pi|discriminate]].
    revert Bk. apply acct_ext. intros a lim L. destruct (replaced (w_conns w) (w_files w) id c c Ni Gc a lim) as [R1 _]. rewrite R1. unfold conn_holds. rewrite E0. destruct (mem _ _); cbn; lia.
  - contradiction.
Qed.

Lemma step_books : forall w e w' a, binv w -> in_range e -> smooth w e -> step fudge w e = Some (w', a) -> binv w' /\ a <> AFatal.
Proof.
  intros w e w' a Bi Ra Sm St. assert (Po := step_possible _ _ _ _ St).
  destruct (step_acct w e Bi Ra Sm Po) as (w1 & a1 & E & A & P & N). destruct (tinv_step fudge B HB F1 F2 t0 w e (b_trees w Bi) Ra Po) as (w2 & a2 & E2 & T & _).
  assert (w1 = w' /\ a1 = a /\ w2 = w') as (-> & -> & ->) by (repeat split; congruence). split; [|exact N]. constructor; auto. eapply sinv_step; [apply Bi|exact St].
Qed.

Lemma history_books : forall w l w' al, history fudge smooth w l w' al -> binv w -> binv w' /\ Forall (fun a => a <> AFatal) al.
Proof.
  induction 1 as [w|w e w1 a l w2 al Ra Sm St Hi IH]; intros Bi; [auto|]. destruct (step_books w e w1 a Bi Ra Sm St) as [B1 N]. destruct (IH B1). split; auto.
Qed.

Lemma binv_right : forall w, binv w -> books_right w.
Proof.
  intros w [Si Ti Pi Bk] a lim v u L En V. rewrite (Bk a lim v u L En V). unfold h0, held. destruct (t_tree _ _ _ _ Ti) as (_ & _ & _ & _ & Sh).
  f_equal; apply total_ext; intros x _; unfold conn_holds, file_holds; rewrite !(anc0 t0 (w_tree w) Sh); reflexivity.
Qed.
End BOOKS.

(** ** From the start *)
Definition base (t : tree) (a : nat) (lim : Z) : Z :=
  match nth_error t a with
  | Some n => if get_used n lim <? 2^63 then get_used n lim else 0
  | None => 0
  end.
Lemma base_ok : forall t, start_ok (base t).
Proof. intros t a lim. unfold base. destruct (nth_error t a) as [n|]; [|lia]. destruct (Z.ltb_spec (get_used n lim) (2^63)); lia. Qed.
Lemma base_entry : forall t a lim v u, tree_ok t -> entry t a lim v u -> u < 2^63 -> base t a lim = u.
Proof.
  intros t a lim v u W En Hu. assert (En' := En). destruct En as (n & k & E1 & E2 & E3). unfold base. rewrite E1. assert (U : get_used n lim = u).
  { unfold get_used. destruct (find_lim lim (nd_lims n)) as [k'|] eqn:Fk.
    - destruct (find_lim_some _ _ _ Fk) as (v' & X & _). destruct (entry_exists t a n lim k' v' W E1 X) as (u' & En2 & -> & _). destruct (entry_fun t a lim v u v' u' W En' En2). auto.
    - exfalso. apply (find_lim_none _ _ Fk). apply in_map_iff. exists (lim, v). split; [reflexivity|]. eapply nth_error_In; eauto. }
  rewrite U. replace (u <? 2^63) with true by lia. reflexivity.
Qed.

Section START.
Variable fudge : Z * Z.
Hypothesis F1 : 0 < snd fudge.
Hypothesis F2 : 0 <= fst fudge.
Lemma fresh_inv : forall w, fresh fudge w -> sinv w /\ tinv fudge (base (w_tree w)) (w_tree w) w /\ binv fudge (base (w_tree w)) (w_tree w) w.
Proof.
  intros w (Nc & Nf & Ff & Ok & Ex & Zu & Us & Se & Bk).
  assert (S : sinv w).
  { constructor; auto; rewrite ?Nc; unfold in_session, in_fetch; rewrite ?Nc.
    - constructor.
    - intros id c [].
    - intros sid id (c & ti & [] & _).
    - intros sid id id' (c & ti & [] & _).
    - intros f f' (id & c & b & e & [] & _).
    - intros f id (i & c & b & e & [] & _). }
  assert (T : tinv fudge (base (w_tree w)) (w_tree w) w).
  { constructor.
    - split; [exact Ok|]. split; [exact Ex|]. split; [|split; [exact Zu|apply same_refl]].
      intros a lim v u Cn En V. rewrite (base_entry (w_tree w) a lim v u Ok En (Us a lim v u En)). lia.
    - intros a v u En V. eapply Se; eauto.
    - rewrite Nc. constructor.
    - exact Ff. }
  split; [exact S|]. split; [exact T|]. constructor; auto.
  - rewrite Nc. constructor.
Qed.

(** ** Whatever happens *)
Lemma history_trees : forall P B t0, start_ok B -> forall w l w' al, history fudge P w l w' al -> sinv w -> tinv fudge B t0 w -> sinv w' /\ tinv fudge B t0 w'.
Proof.
  intros P B t0 HB. induction 1 as [w|w e w1 a l w2 al Ra Sm St Hi IH]; intros S T; [auto|].
  destruct (tinv_step fudge B HB F1 F2 t0 w e T Ra (step_possible _ _ _ _ St)) as (x & y & E & T1 & _). rewrite St in E. injection E as <- <-.
  apply IH; auto. eapply sinv_step; eauto.
Qed.
End START.
