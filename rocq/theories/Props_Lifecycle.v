(** C76, C77, C78, C79, C80: sessions, files and the resources they hold, over the whole life of the server. *)
From Coq Require Import ZArith List Bool Lia ZifyBool ZifyNat.
From Verif Require Import Base Double Double_Proofs Policy_Model Policy_Spec Policy_Proofs Props_Policy Lifecycle_Model Lifecycle_Spec Lifecycle_Proofs Lifecycle_World Lifecycle_Books.
Import ListNotations.
Open Scope Z_scope.

(** ** A configuration used in the examples: two classes
    limit root with bandwidth=500, disk=1000, delete_on_fetch=on, test_sessions=2
    limit jail with parent=root, bandwidth=100, disk=300, delete_on_fetch=on, test_sessions=2 *)
Definition lc_tree : tree :=
  [mkNode s_root None [(LimBandwidth, 500); (LimDisk, 1000); (LimDeleteOnFetch, 1); (LimTestSessions, 2)] [0; 0; 0; 0];
   mkNode s_jail (Some 0%nat) [(LimBandwidth, 100); (LimDisk, 300); (LimDeleteOnFetch, 1); (LimTestSessions, 2)] [0; 0; 0; 0]].
Definition lc_start : world := mkWorld lc_tree [] [].
Lemma lc_entry : forall a lim v u, entry lc_tree a lim v u -> u = 0 /\ 0 < v <= 1000.
Proof.
  intros a lim v u (n & k & E1 & E2 & E3). destruct a as [|[|a]]; cbn in E1; [| |destruct a; discriminate]; injection E1 as <-; cbn [nd_lims nd_used] in *;
  (destruct k as [|[|[|[|k]]]]; cbn in E2, E3; [| | | |destruct k; discriminate]); injection E2 as <- <-; injection E3 as <-; lia.
Qed.
Lemma lc_exact : limits_exact (1, 1) lc_tree.
Proof.
  intros a lim v u _ En. destruct (lc_entry a lim v u En) as [-> V]. split; [lia|]. unfold bound, cap. destruct (lim =? 3); [|lia]. cbn [Z.eqb Pos.eqb].
  assert (C : v = 500 \/ v = 1000 \/ v = 1 \/ v = 2 \/ v = 100 \/ v = 300).
  { destruct En as (n & k & E1 & E2 & E3). destruct a as [|[|a]]; cbn in E1; [| |destruct a; discriminate]; injection E1 as <-; cbn [nd_lims nd_used] in *;
    (destruct k as [|[|[|[|k]]]]; cbn in E2; [| | | |destruct k; discriminate]); injection E2 as <- <-; lia. }
  destruct C as [-> | [-> | [-> | [-> | [-> | ->]]]]]; vm_compute; reflexivity.
Qed.
Lemma lc_ok : tree_ok lc_tree.
Proof.
  assert (ND : NoDup [1; 3; 4; 6]) by (repeat (constructor; [cbn; lia|]); constructor).
  intros [|[|i]] n E; cbn in E; [injection E as <-|injection E as <-|destruct i; discriminate];
    (split; [reflexivity|split; [exact ND|split; [repeat constructor; cbn; lia|split; [repeat constructor; lia|]]]]); [exact I|].
  split; [cbn; lia|]. eexists. split; [reflexivity|]. apply incl_refl.
Qed.
Lemma lc_fresh : fresh (1, 1) lc_start.
Proof.
  split; [reflexivity|]. split; [constructor|]. split; [constructor|]. split; [exact lc_ok|]. split; [exact lc_exact|].
  split; [intros a lim u _ En; apply (lc_entry _ _ _ _ En)|]. split; [intros a lim v u En; pose proof (lc_entry _ _ _ _ En); lia|].
  split; [intros a v u En; apply (lc_entry _ _ _ _ En)|]. intros a lim v u _ En V. destruct (lc_entry _ _ _ _ En) as [-> _]. reflexivity.
Qed.

Definition any (_ : world) (_ : event) : Prop := True.
(** the usage a class records *)
Definition usage (w : world) (a : nat) (lim : Z) : option Z := match nth_error (w_tree w) a with Some n => Some (get_used n lim) | None => None end.

(** a run of the model that satisfies the conditions is a history *)
Fixpoint all_range (l : list event) : Prop := match l with [] => True | e :: r => in_range e /\ all_range r end.
Lemma run_history : forall fudge l w w' al, all_range l -> run fudge w l = Some (w', al) -> history fudge any w l w' al.
Proof.
  induction l as [|e l IH]; intros w w' al R E; cbn [run] in E.
  - injection E as <- <-. constructor.
  - destruct (step fudge w e) as [[w1 a]|] eqn:St; [|discriminate]. destruct (run fudge w1 l) as [[w2 al2]|] eqn:Ru; [|discriminate]. injection E as <- <-. destruct R as [R1 R2].
    econstructor; eauto. exact I.
Qed.
Ltac ranges := repeat split; unfold amount; try lia; try exact I.

Section PROPS.
Variable fudge : Z * Z.
Hypothesis F1 : 0 < snd fudge.
Hypothesis F2 : 0 <= fst fudge.

(** C76.  If no answer of the broker is interrupted, no process crashes, fstat does not fail and files are fetched one at a time and by their own class
    ([smooth]), then at any time the usage the broker records for bandwidth and disk space in every limiting class is exactly what the sessions accepted and
    not completed and the files kept by the class and the classes below it hold; and no connection is given up by the policy.
    Missing for the full claim: it is false if one of these fails, see the refutations. *)
Theorem C76_books_partial : forall w l w' al, fresh fudge w -> history fudge smooth w l w' al -> books_right w' /\ Forall (fun a => a <> AFatal) al.
Proof.
  intros w l w' al Fr Hi. destruct (fresh_inv fudge w Fr) as (_ & _ & Bi).
  destruct (history_books fudge _ (base_ok (w_tree w)) F1 F2 (w_tree w) w l w' al Hi Bi) as [B' N]. split; [|exact N]. eapply binv_right; eauto.
Qed.

(** C76.  So when all connections have ended and all files are gone, nothing is charged. *)
Theorem C76_returned_partial : forall w l w' al, fresh fudge w -> history fudge smooth w l w' al -> w_conns w' = [] -> w_files w' = [] ->
  forall a lim v u, lim = LimBandwidth \/ lim = LimDisk -> entry (w_tree w') a lim v u -> v <> 0 -> u = 0.
Proof.
  intros w l w' al Fr Hi Ec Ef a lim v u L En V. destruct (C76_books_partial w l w' al Fr Hi) as [Bk _]. rewrite (Bk a lim v u L En V). unfold held. rewrite Ec, Ef. reflexivity.
Qed.

(** whatever happens, no assertion fails: after any history every event that makes sense is processed *)
Theorem C76_defined : forall w l w' al e, fresh fudge w -> history fudge any w l w' al -> in_range e -> possible w' e -> exists r, step fudge w' e = Some r.
Proof.
  intros w l w' al e Fr Hi Ra Po. destruct (fresh_inv fudge w Fr) as (S & T & _).
  destruct (history_trees fudge F1 F2 any _ _ (base_ok (w_tree w)) w l w' al Hi S T) as [_ T'].
  destruct (tinv_step fudge _ (base_ok (w_tree w)) F1 F2 _ w' e T' Ra Po) as (w2 & a & E & _). eauto.
Qed.

(** C78: a file disappears only when it has been fetched as a whole and successfully, and its class says so *)
Theorem C78_only : forall w l w' al e w'' a f, fresh fudge w -> history fudge any w l w' al -> in_range e -> step fudge w' e = Some (w'', a) ->
  In f (w_files w') -> ~ In f (w_files w'') ->
  exists id st evs c v u, e = Fetched id CNTRL_ACCEPT st evs /\ get id (w_conns w') = Some c /\ cn_fetch c = Some (f, 0, 4294967295) /\
    entry (w_tree w') (df_class f) LimDeleteOnFetch v u /\ v <> 0.
Proof.
  intros w l w' al e w'' a f Fr Hi Ra St I NI. destruct (fresh_inv fudge w Fr) as (S & T & _).
  destruct (history_trees fudge F1 F2 any _ _ (base_ok (w_tree w)) w l w' al Hi S T) as [S' T'].
  destruct e as [id cl|id sid tw ls bw disk opens evs|id sid aval st evs|id sid b e|id aval st evs|id|id]; cbn [step] in St.
  - destruct (get id (w_conns w')); [discriminate|]. destruct (_ <? _)%nat; [|discriminate]. injection St as <- <-. contradiction.
  - destruct (get id (w_conns w')) as [c|]; [|discriminate]. destruct (sid_free w' sid); [|discriminate].
    destruct (check_test_policy _ _ _ _ _ _ _ _) as [[[[[ti| |] t] loc] pipe]|]; [|injection St as <- <-; contradiction|injection St as <- <-; contradiction|discriminate].
    destruct (ls || opens); [injection St as <- <-; contradiction|]. destruct (test_complete _ _ _ _ _ _) as [[t2 p2]|]; [|discriminate]. injection St as <- <-. contradiction.
  - destruct (get id (w_conns w')) as [c|]; [|discriminate]. destruct (get sid (cn_tests c)) as [ti|]; [|discriminate].
    destruct (end_session _ _ _ _ _ _ _ _) as [[[t pipe] keep]|]; [|discriminate]. injection St as <- <-. cbn [w_files] in NI. exfalso. apply NI. destruct keep; [right; exact I|exact I].
  - destruct (get id (w_conns w')) as [c|]; [|discriminate]. destruct (get_file sid (w_files w')); [|discriminate]. destruct (cn_fetch c); [discriminate|]. injection St as <- <-. contradiction.
  - destruct (get id (w_conns w')) as [c|] eqn:G; [|discriminate]. destruct (cn_fetch c) as [[[f' b] e]|] eqn:Cf; [|discriminate].
    destruct (close_fetch _ _ _ _ _ _ _ _ _ _) as [[[t pipe] keep]|] eqn:Cl; [|discriminate]. injection St as <- <-. cbn [w_files] in NI. destruct keep; [contradiction|].
    assert (f = f').
    { apply (s_fetch w' S' f' f); [exists id, c, b, e; split; [apply get_in; exact G|exact Cf]|exact I|]. destruct (Z.eq_dec (df_sid f) (df_sid f')); auto.
      exfalso. apply NI. unfold del_file. apply filter_In. split; [exact I|]. lia. }
    subst f'. unfold close_fetch in Cl. destruct (nth_error (w_tree w') (df_class f)) as [n|] eqn:En; [|discriminate].
    destruct (Z.eqb_spec b 0) as [->|]; [|discriminate]. destruct (Z.eqb_spec e 4294967295) as [->|]; [|discriminate]. destruct (Z.eqb_spec aval 0) as [->|]; [|discriminate].
    cbn [andb] in Cl. destruct (Z.eqb_spec (get_limit n 4) 0) as [|Nz]; [discriminate|]. unfold get_limit in Nz. destruct (find_lim 4 (nd_lims n)) as [k|] eqn:Fk; [|cbn in Nz; congruence].
    destruct (find_lim_some _ _ _ Fk) as (v & X & Y). rewrite Y in Nz. cbn [snd] in Nz. destruct (t_tree _ _ _ _ T') as (W & _).
    destruct (entry_exists (w_tree w') (df_class f) n 4 k v W En X) as (u & Ent & _). exists id, st, evs, c, v, u. auto.
  - destruct (get id (w_conns w')) as [c|]; [|discriminate]. destruct (cn_tests c); [|discriminate]. destruct (cn_fetch c); [discriminate|]. injection St as <- <-. contradiction.
  - destruct (get id (w_conns w')) as [c|]; [|discriminate]. injection St as <- <-. contradiction.
Qed.

(** C78: and then it does *)
Theorem C78_deleted : forall w l w' al id st evs c f v u w'' a, fresh fudge w -> history fudge any w l w' al -> get id (w_conns w') = Some c -> cn_fetch c = Some (f, 0, 4294967295) ->
  entry (w_tree w') (df_class f) LimDeleteOnFetch v u -> v <> 0 -> step fudge w' (Fetched id CNTRL_ACCEPT st evs) = Some (w'', a) ->
  forall f', In f' (w_files w'') <-> In f' (w_files w') /\ df_sid f' <> df_sid f.
Proof.
  intros w l w' al id st evs c f v u w'' a Fr Hi G Cf En V St f'. destruct (fresh_inv fudge w Fr) as (S & T & _).
  destruct (history_trees fudge F1 F2 any _ _ (base_ok (w_tree w)) w l w' al Hi S T) as [S' T']. destruct (t_tree _ _ _ _ T') as (W & _).
  cbn [step] in St. rewrite G, Cf in St. unfold close_fetch in St. assert (En' := En). destruct En as (n & k & E1 & E2 & E3). rewrite E1 in St.
  assert (L : get_limit n 4 = v).
  { unfold get_limit. destruct (find_lim 4 (nd_lims n)) as [k'|] eqn:Fk.
    - destruct (find_lim_some _ _ _ Fk) as (v' & X & Y). destruct (entry_exists (w_tree w') (df_class f) n 4 k' v' W E1 X) as (u' & En2 & _). rewrite Y. cbn [snd].
      destruct (entry_fun _ _ _ _ _ _ _ W En' En2). auto.
    - exfalso. apply (find_lim_none _ _ Fk). apply in_map_iff. exists (4, v). split; [reflexivity|]. eapply nth_error_In; eauto. }
  rewrite L in St. cbn [Z.eqb Pos.eqb andb] in St. destruct (Z.eqb_spec v 0); [congruence|]. cbn [negb] in St.
  assert (K : forall t pipe, Some (mkWorld t (del_file (df_sid f) (w_files w')) (put_conn id (mkConn (cn_class c) (cn_local c) pipe (cn_tests c) None) (w_conns w')), ANone) = Some (w'', a) ->
    (In f' (w_files w'') <-> In f' (w_files w') /\ df_sid f' <> df_sid f)).
  { intros t pipe E. injection E as <- <-. cbn [w_files]. unfold del_file. rewrite filter_In. split; intros [X1 X2]; split; auto; lia. }
  destruct (0 <? match st with Some s => s | None => 0 end); [|eapply K; exact St].
  destruct (query _ _ _ _ _ _ _ _) as [[[r t] pipe]|]; [|discriminate]. eapply K; exact St.
Qed.

(** requests accepted on connection [id] in a history *)
Fixpoint accepted (id : Z) (l : list event) (al : list answer) : Z :=
  match l, al with
  | Request i _ _ _ _ _ _ _ :: r, AAccepted :: ar => (if i =? id then 1 else 0) + accepted id r ar
  | _ :: r, _ :: ar => accepted id r ar
  | _, _ => 0
  end.

Lemma get_put : forall id c l, get id (put_conn id c l) = Some c.
Proof. intros id c l. unfold put_conn. cbn [get]. rewrite Z.eqb_refl. reflexivity. Qed.
Lemma get_del_eq : forall A id (l : list (Z * A)), get id (del id l) = None.
Proof.
  intros A id l. induction l as [|[k x] l IH]; [reflexivity|]. unfold del in *. cbn [filter fst]. destruct (Z.eqb_spec k id); cbn [negb]; auto. cbn [get].
  destruct (Z.eqb_spec k id); [contradiction|exact IH].
Qed.
Lemma get_del_ne : forall A id id' (l : list (Z * A)), id <> id' -> get id (del id' l) = get id l.
Proof.
  intros A id id' l N. induction l as [|[k x] l IH]; [reflexivity|]. unfold del in *. cbn [filter fst]. destruct (Z.eqb_spec k id'); cbn [negb get]; rewrite ?IH.
  - destruct (Z.eqb_spec k id); [congruence|reflexivity].
  - reflexivity.
Qed.
Lemma get_put_ne : forall id id' c l, id <> id' -> get id (put_conn id' c l) = get id l.
Proof. intros id id' c l N. unfold put_conn. cbn [get]. destruct (Z.eqb_spec id' id); [congruence|]. apply get_del_ne; auto. Qed.

(** C79: a connection gets no more sessions than test_sessions of its class and of each class above allows, whatever happens *)
Theorem C79_sessions : forall w l1 w1 al1 id cl w2 a2 l2 w3 al2, fresh fudge w -> history fudge any w l1 w1 al1 -> step fudge w1 (Connect id cl) = Some (w2, a2) ->
  history fudge any w2 l2 w3 al2 -> (forall cl', ~ In (Connect id cl') l2) ->
  forall a v u, In a (ancestors (w_tree w) cl) -> entry (w_tree w) a LimTestSessions v u -> v <> 0 -> accepted id l2 al2 <= v.
Proof.
  intros w l1 w1 al1 id cl w2 a2 l2 w3 al2 Fr H1 C H2 NC a v u Ia En V. destruct (fresh_inv fudge w Fr) as (S & T & _). set (t0 := w_tree w) in *. set (B := base t0) in *.
  destruct (history_trees fudge F1 F2 any B t0 (base_ok t0) w l1 w1 al1 H1 S T) as [S1 T1].
  destruct (tinv_step fudge B (base_ok t0) F1 F2 t0 w1 (Connect id cl) T1 I (step_possible _ _ _ _ C)) as (x & y & E & T2 & _ & NewC & _). rewrite C in E. injection E as <- <-.
  (* the connection's own tree *)
  assert (Bv : B a 6 = 0).
  { destruct Fr as (_ & _ & _ & Ok & _ & _ & Us & Se & _). unfold B. rewrite (base_entry t0 a 6 v u Ok En (Us a 6 v u En)). eapply Se; eauto. }
  assert (Ex : forall t, tgood fudge B t0 t -> exists u', entry t a 6 v u' /\ 0 <= u' <= v).
  { intros t (W & _ & Wi & _ & Sh). destruct En as (n & k & E1 & E2 & E3). destruct (same_some t0 t a n Sh E1) as (n' & E1' & _ & _ & El). rewrite El in E2.
    destruct (entry_exists t a n' 6 k v W E1' E2) as (u' & Eu & _). exists u'. split; [exact Eu|]. split; [apply (entry_u64 t a 6 v u' W Eu)|].
    pose proof (Wi a 6 v u' ltac:(unfold counted; auto) Eu V) as X. unfold bound in X. cbn [Z.eqb Pos.eqb] in X. rewrite Bv in X.
    pose proof (entry_u64 t a 6 v u' W Eu). lia. }
  assert (Main : forall w2 l2 w3 al2, history fudge any w2 l2 w3 al2 -> (forall cl', ~ In (Connect id cl') l2) -> tinv fudge B t0 w2 ->
    forall n, n <= v -> (forall c, get id (w_conns w2) = Some c -> cn_class c = cl /\ forall u', entry (cn_local c) a 6 v u' -> n <= u') -> n + accepted id l2 al2 <= v).
  { clear w2 a2 l2 w3 al2 C H2 NC T2 NewC. induction 1 as [w2|w2 e w3 a3 l2 w4 al2 Ra _ St Hi IH]; intros NC T2 n Hn Q; [cbn; lia|].
    destruct (tinv_step fudge B (base_ok t0) F1 F2 t0 w2 e T2 Ra (step_possible _ _ _ _ St)) as (x & y & E & T3 & Own & New & Acc). rewrite St in E. injection E as <- <-.
    assert (NC' : forall cl', ~ In (Connect id cl') l2) by (intros cl' X; apply (NC cl'); right; exact X). specialize (IH NC' T3).
    destruct (Z.eq_dec (ev_id e) id) as [Ei|Ni].
    - destruct (get (ev_id e) (w_conns w2)) as [c|] eqn:G.
      + rewrite Ei in *. destruct (Q c G) as [Qc Qn]. destruct (Own c eq_refl) as [(c' & Wc & Fc1 & Fc2)|[Wc Ea]].
        * set (d := match a3 with AAccepted => 1 | _ => 0 end) in *.
          assert (L' : forall u', entry (cn_local c') a 6 v u' -> n + d <= u').
          { intros u' Eu. destruct (Fc2 a v u' Eu V) as (u0 & Eu0 & Le). rewrite Qc, (in_mem a _ Ia) in Le. specialize (Qn u0 Eu0). lia. }
          assert (Hd : n + d <= v).
          { assert (Tc : tgood fudge B t0 (cn_local c')).
            { assert (Ok : conn_ok fudge B t0 c') by (apply (proj1 (Forall_forall _ _) (t_conns _ _ _ _ T3) (id, c')); rewrite Wc; left; reflexivity). apply Ok. }
            destruct (Ex _ Tc) as (u' & Eu & Bu). specialize (L' u' Eu). lia. }
          assert (R : n + d + accepted id l2 al2 <= v).
          { apply IH; [exact Hd|]. intros c0 G0. rewrite Wc, get_put in G0. injection G0 as <-. split; [congruence|exact L']. }
          enough (accepted id (e :: l2) (a3 :: al2) = d + accepted id l2 al2) by lia.
          destruct a3; unfold d; [|destruct e; reflexivity|destruct e; reflexivity|destruct e; reflexivity].
          destruct (Acc eq_refl) as (sid & tw & ls & bw & disk & o & evs & ->). cbn [accepted]. rewrite Z.eqb_refl. reflexivity.
        * subst a3. replace (accepted id (e :: l2) (ANone :: al2)) with (accepted id l2 al2) by (destruct e; reflexivity). apply IH; [exact Hn|].
          intros c0 G0. rewrite Wc, get_del_eq in G0. discriminate.
      + destruct (New eq_refl) as (_ & cl' & Ee & _). exfalso. apply (NC cl'). left. rewrite Ee, Ei. reflexivity.
    - assert (G3 : get id (w_conns w3) = get id (w_conns w2)).
      { destruct (get (ev_id e) (w_conns w2)) as [c|].
        - destruct (Own c eq_refl) as [(c' & -> & _)|[-> _]]; [apply get_put_ne|apply get_del_ne]; auto.
        - destruct (New eq_refl) as (_ & cl' & _ & ->). apply get_put_ne; auto. }
      replace (accepted id (e :: l2) (a3 :: al2)) with (accepted id l2 al2).
      + apply IH; [exact Hn|]. rewrite G3. exact Q.
      + destruct e as [ | i sid tw ls bw disk o evs | | | | | ]; try reflexivity. cbn [accepted ev_id] in *. destruct a3; try reflexivity. destruct (Z.eqb_spec i id); [contradiction|reflexivity]. }
  assert (G1 : get id (w_conns w1) = None) by (cbn [step] in C; destruct (get id (w_conns w1)); [discriminate|reflexivity]).
  destruct (NewC G1) as (_ & cl' & Ecl & Wc). injection Ecl as <-.
  replace (accepted id l2 al2) with (0 + accepted id l2 al2) by lia. apply Main with (w2 := w2) (w3 := w3); auto.
  - destruct (Ex t0) as (u' & _ & X); [|lia]. apply (t_tree _ _ _ _ T).
  - cbn [ev_id] in Wc. intros c0 G0. rewrite Wc, get_put in G0. injection G0 as <-. cbn [cn_class cn_local]. split; [reflexivity|]. intros u' Eu.
    destruct (t_tree _ _ _ _ T1) as (W & _). pose proof (entry_u64 _ _ _ _ _ W Eu). lia.
Qed.

(** what is free of a resource suffices *)
Definition room (t : tree) (c : nat) (lim val : Z) : Prop := forall a v u, In a (ancestors t c) -> entry t a lim v u -> v <> 0 -> u + val <= v.

(** C80.  Without failures a request is accepted exactly if the connection has a session left, the class and all above it have the bandwidth (one-way sessions)
    and the disk space (if the server receives) left, and the file can be made.  Missing for the full claim: it is false after an interrupted query. *)
Theorem C80_decision_partial : forall w l w' al id c sid tw ls bw disk opens evs, fresh fudge w -> history fudge smooth w l w' al -> get id (w_conns w') = Some c -> sid_free w' sid = true ->
  amount bw -> amount disk -> answered_all evs ->
  exists w'' a, step fudge w' (Request id sid tw ls bw disk opens evs) = Some (w'', a) /\
   (a = AAccepted <-> (ls = true \/ opens = true) /\ room (cn_local c) (cn_class c) LimTestSessions 1 /\
      (tw = true \/ room (w_tree w') (cn_class c) LimBandwidth bw) /\ (ls = true \/ room (w_tree w') (cn_class c) LimDisk disk)).
Proof.
  intros w l w' al id c sid tw ls bw disk opens evs Fr Hi G Sf Hb Hd Ev. destruct (fresh_inv fudge w Fr) as (_ & _ & Bi). set (t0 := w_tree w) in *.
  assert (HB := base_ok t0). set (B := base t0) in *. destruct (history_books fudge B HB F1 F2 t0 w l w' al Hi Bi) as [[Si Ti Pi Bk] _].
  assert (Ok : conn_ok fudge B t0 c) by (apply (proj1 (Forall_forall _ _) (t_conns _ _ _ _ Ti) (id, c)); apply get_in; exact G). destruct Ok as (C1 & C2 & C3 & C4).
  assert (Pc : cn_pipe c = []) by (apply (proj1 (Forall_forall _ _) Pi (id, c)); apply get_in; exact G).
  assert (Gt := t_tree _ _ _ _ Ti).
  (* a request is granted exactly if there is room *)
  assert (Req : forall t lim val, tgood fudge B t0 t -> counted lim -> amount val -> exists ok t', resource_demand fudge t (cn_class c) MESGREQUEST lim val = Some (ok, t') /\ tgood fudge B t0 t' /\
    (ok = true <-> room t (cn_class c) lim val) /\ (ok = true -> charged (ancestors t (cn_class c)) lim val t t')).
  { intros t lim val Gd Cn Hv. destruct (demand_any fudge B HB F1 F2 t0 t (cn_class c) MESGREQUEST lim val Gd C1 Hv ltac:(auto)) as (ok & t' & E & G' & _).
    destruct Gd as (W & X & Wi & Zu & Sh).
    destruct (C49_request fudge F1 F2 t (cn_class c) lim val W) as (ok2 & t2 & E2 & D1 & D2 & D3); auto.
    - destruct Sh as [<- _]. exact C1.
    - intros a v u En. destruct (X a lim v u Cn En). split; auto. destruct (Z.eq_dec v 0) as [->|V]; [rewrite (Zu a lim u Cn En); lia|].
      pose proof (Wi a lim v u Cn En V). pose proof (HB a lim). lia.
    - rewrite E in E2. injection E2 as <- <-. exists ok, t'. auto. }
  assert (Cond : forall P : Prop, (AAccepted = AAccepted <-> P) <-> P) by (intros; tauto).
  assert (Cond' : forall P : Prop, (ADenied = AAccepted <-> P) <-> ~ P) by (intros; split; [intros [A1 A2] Hp; discriminate (A2 Hp)|intros Np; split; [discriminate|tauto]]).
  cbn [step]. rewrite G, Sf. unfold check_test_policy. rewrite Pc.
  destruct (Req (cn_local c) LimTestSessions 1 C2 ltac:(unfold counted; auto) ltac:(unfold amount; lia)) as (oks & loc & -> & Gl & Ds & _).
  destruct oks.
  2:{ eexists. eexists. split; [reflexivity|]. apply Cond'. intros (_ & R & _). apply Ds in R. discriminate. }
  assert (Rs : room (cn_local c) (cn_class c) LimTestSessions 1) by (apply Ds; reflexivity).
  destruct (demand_any fudge B HB F1 F2 t0 loc (cn_class c) MESGRELEASE LimTestSessions 1 Gl C1 ltac:(unfold amount; lia) ltac:(auto)) as (okr & loc' & -> & _).
  destruct (ev_all evs Ev) as [E1 Ev1].
  assert (BW : exists r t1, (if tw then Some (MESGOK, w_tree w', []) else query fudge (w_tree w') (cn_class c) [] (ev_hd evs) MESGREQUEST LimBandwidth bw) = Some (r, t1, []) /\ tgood fudge B t0 t1 /\
     (r = MESGDENIED /\ tw = false /\ ~ room (w_tree w') (cn_class c) LimBandwidth bw \/
      r = MESGOK /\ (tw = true \/ room (w_tree w') (cn_class c) LimBandwidth bw) /\ (room t1 (cn_class c) LimDisk disk <-> room (w_tree w') (cn_class c) LimDisk disk))).
  { destruct tw.
    - exists MESGOK, (w_tree w'). split; [reflexivity|]. split; [exact Gt|]. right. split; [reflexivity|]. split; [left; reflexivity|tauto].
    - rewrite E1. destruct (Req (w_tree w') LimBandwidth bw Gt ltac:(unfold counted; auto) Hb) as (okb & t1 & Ed & G1 & Db & Ch). rewrite (query_answered _ _ _ _ _ _ _ _ Ed).
      exists (if okb then MESGOK else MESGDENIED), t1. split; [destruct okb; reflexivity|]. split; [exact G1|]. destruct okb.
      + right. split; [reflexivity|]. split; [right; apply Db; reflexivity|]. specialize (Ch eq_refl).
        assert (Sh : same_shape (w_tree w') t1) by apply Ch. assert (Ea : ancestors t1 (cn_class c) = ancestors (w_tree w') (cn_class c)) by (unfold ancestors; symmetry; apply anc_same; exact Sh).
        assert (W : tree_ok (w_tree w')) by apply Gt. assert (W1 : tree_ok t1) by apply G1. unfold room. rewrite Ea. split; intros Rm a v u Ia En V.
        * destruct Ch as [_ Ch]. destruct (Ch a LimDisk v u En) as [_ Ch2]. apply (Rm a v u Ia); [|exact V]. apply Ch2. intros (_ & X & _). lia.
        * destruct (entry_back _ _ _ _ _ _ _ _ _ W W1 Ch En) as (u0 & En0 & [[(_ & X & _) _]|[_ ->]]); [lia|]. eapply Rm; eauto.
      + left. split; [reflexivity|]. split; [reflexivity|]. intros R. apply Db in R. discriminate. }
  destruct BW as (r & t1 & -> & G1 & [(-> & -> & Nr)|(-> & Rb & Rd)]); cbn [Z.eqb Pos.eqb option_map].
  { eexists. eexists. split; [reflexivity|]. apply Cond'. intros (_ & _ & [X|X] & _); [discriminate|contradiction]. }
  destruct ls; cbn [orb].
  { eexists. eexists. split; [reflexivity|]. apply Cond. auto 10. }
  set (evs' := if tw then evs else tl evs). assert (Ev' : answered_all evs') by (unfold evs'; destruct tw; auto). clearbody evs'. destruct (ev_all evs' Ev') as [-> Ev2].
  destruct (Req t1 LimDisk disk G1 ltac:(unfold counted; auto) Hd) as (okd & t2 & Ed & G2 & Dd & _). rewrite (query_answered _ _ _ _ _ _ _ _ Ed). destruct okd; cbn [Z.eqb Pos.eqb].
  - assert (Rdd : room (w_tree w') (cn_class c) LimDisk disk) by (apply Rd, Dd; reflexivity). destruct opens.
    + eexists. eexists. split; [reflexivity|]. apply Cond. auto 10.
    + match goal with |- context [test_complete fudge t2 _ [] ?ti ?ev] => destruct (test_complete_any fudge B HB F1 F2 t0 t2 (cn_class c) [] ti ev G2 C1) as (t3 & p3 & -> & _) end.
      { destruct tw; (split; [|split; [right; split; [reflexivity|exact Hd]|discriminate]]); [left; reflexivity|right; split; [reflexivity|exact Hb]]. }
      eexists. eexists. split; [reflexivity|]. apply Cond'. intros ([X|X] & _); discriminate.
  - match goal with |- context [query fudge t2 _ [] ?ev ?m ?lim ?val] => destruct (query_any fudge B HB F1 F2 t0 t2 (cn_class c) [] ev m lim val G2 C1) as (x & t3 & p3 & -> & _) end.
    + destruct tw; cbn [snd]; [unfold amount; lia|exact Hb].
    + destruct tw; cbn [fst]; lia.
    + auto.
    + eexists. eexists. split; [reflexivity|]. apply Cond'. intros (_ & _ & _ & [X|X]); [discriminate|]. apply Rd, Dd in X. discriminate.
Qed.

(** C77.  A file fetched by a connection of the class it belongs to: when it is deleted, its size is taken off that class and all above.
    Missing: if the connection is of another class, that one is credited. *)
Theorem C77_owner_partial : forall w l w' al id aval st evs c f b e w'' a, fresh fudge w -> history fudge smooth w l w' al -> smooth w' (Fetched id aval st evs) ->
  get id (w_conns w') = Some c -> cn_fetch c = Some (f, b, e) -> step fudge w' (Fetched id aval st evs) = Some (w'', a) -> ~ In f (w_files w'') ->
  charged (ancestors (w_tree w') (df_class f)) LimDisk (- df_size f) (w_tree w') (w_tree w'').
Proof.
  intros w l w' al id aval st evs c f b e w'' a Fr Hi (Ev & Sm) G Cf St NI. destruct (fresh_inv fudge w Fr) as (_ & _ & Bi). set (t0 := w_tree w) in *.
  assert (HB := base_ok t0). set (B := base t0) in *. destruct (history_books fudge B HB F1 F2 t0 w l w' al Hi Bi) as [[Si Ti Pi Bk] _].
  destruct (Sm c f b e G Cf) as (-> & Ecl & If).
  assert (Ok : conn_ok fudge B t0 c) by (apply (proj1 (Forall_forall _ _) (t_conns _ _ _ _ Ti) (id, c)); apply get_in; exact G). destruct Ok as (C1 & C2 & C3 & C4).
  assert (Pc : cn_pipe c = []) by (apply (proj1 (Forall_forall _ _) Pi (id, c)); apply get_in; exact G).
  destruct (t_tree _ _ _ _ Ti) as (W & X & Wi & Zu & Sh). destruct (proj1 (Forall_forall _ _) (t_files _ _ _ _ Ti) f If) as [Fo1 Fo2].
  cbn [step] in St. rewrite G, Cf, Pc in St. unfold close_fetch in St. destruct (nth_error (w_tree w') (df_class f)) as [n|]; [|discriminate].
  match goal with H : context [if ?b then _ else _] |- _ => destruct b end; [|injection St as <- <-; cbn [w_files] in NI; contradiction].
  destruct (ev_all evs Ev) as [E1 _].
  assert (Hold : forall a v u, In a (ancestors (w_tree w') (cn_class c)) -> entry (w_tree w') a LimDisk v u -> v <> 0 -> df_size f <= u).
  { intros a0 v u Ia En V. rewrite (Bk a0 LimDisk v u ltac:(auto) En V). unfold h0. rewrite (anc0 t0 _ Sh) in Ia.
    rewrite (total_del_file (file_holds t0 a0 LimDisk) f (w_files w') (s_files _ Si) If). unfold file_holds at 1. rewrite Ecl, (in_mem a0 _ Ia). cbn [Z.eqb Pos.eqb andb].
    pose proof (conns_pos fudge B t0 a0 LimDisk _ ltac:(auto) (t_conns _ _ _ _ Ti)).
    assert (FF : Forall (file_ok t0) (del_file (df_sid f) (w_files w'))) by (apply Forall_forall; intros x Ix; apply del_file_sub in Ix; apply (proj1 (Forall_forall _ _) (t_files _ _ _ _ Ti)); tauto).
    pose proof (files_pos t0 a0 LimDisk _ FF). lia. }
  destruct (Z.ltb_spec 0 (df_size f)).
  - destruct (C49_release fudge F1 F2 (w_tree w') (cn_class c) LimDisk (df_size f) W) as (ok & t' & Ed & D1 & D2 & D3); auto.
    + destruct Sh as [<- _]. exact C1.
    + unfold counted; auto.
    + intros a0 v u En. destruct (X a0 LimDisk v u ltac:(unfold counted; auto) En). split; auto. destruct (Z.eq_dec v 0) as [->|V]; [rewrite (Zu a0 LimDisk u ltac:(unfold counted; auto) En); lia|].
      pose proof (Wi a0 LimDisk v u ltac:(unfold counted; auto) En V). pose proof (HB a0 LimDisk). lia.
    + assert (ok = true) by (apply D1; exact Hold). subst ok. rewrite E1, (query_answered _ _ _ _ _ _ _ _ Ed) in St. injection St as <- <-. cbn [w_tree]. rewrite Ecl. apply D3. reflexivity.
  - injection St as <- <-. cbn [w_tree]. unfold amount in Fo2. replace (- df_size f) with 0 by lia. split; [apply same_refl|]. intros a0 lim v u En. rewrite Z.add_0_r. auto.
Qed.
End PROPS.

(** ** The hypotheses are met: a receiving session of class jail whose file of 120 octets is smaller than the estimate of 200, then fetched and deleted *)
Definition lc_smooth : list event :=
  [Connect 1 1%nat; Request 1 7 false false 60 200 true []; Request 1 8 false true 60 0 true []; Finish 1 7 CNTRL_ACCEPT (Some 120) []; Fetch 1 7 0 4294967295].
Example C76_case : exists w' al, history (1, 1) smooth lc_start lc_smooth w' al /\ al = [ANone; AAccepted; ADenied; ANone; ANone] /\
  usage w' 0 LimDisk = Some 120 /\ usage w' 1 LimDisk = Some 120 /\ usage w' 1 LimBandwidth = Some 0 /\ held w' 0%nat LimDisk = 120 /\
  exists w'' a, history (1, 1) smooth w' [Fetched 1 CNTRL_ACCEPT (Some 120) []; Quit 1] w'' a /\ w_files w'' = [] /\ w_conns w'' = [] /\ usage w'' 0 LimDisk = Some 0.
Proof.
  eexists. eexists. split.
  { unfold lc_smooth. repeat (econstructor; [cbn; unfold amount; lia|cbn; unfold answered_all; try (split; [constructor|discriminate]); try exact I; constructor|vm_compute; reflexivity|]).
    constructor. }
  repeat (split; [vm_compute; reflexivity|]).
  eexists. eexists. split; [|split; [|split]].
  { econstructor; [cbn; unfold amount; lia| |vm_compute; reflexivity|].
    - split; [constructor|]. intros c f b e Ec Ef. vm_compute in Ec. injection Ec as <-. cbn in Ef. injection Ef as <- <- <-. repeat split. left. reflexivity.
    - econstructor; [exact I|exact I|vm_compute; reflexivity|]. constructor. }
  all: vm_compute; reflexivity.
Qed.
Example C79_case : exists w' al, history (1, 1) any lc_start [Connect 1 1%nat; Request 1 7 true true 0 0 true []; Request 1 8 true true 0 0 true []; Request 1 9 true true 0 0 true []] w' al /\
  al = [ANone; AAccepted; AAccepted; ADenied].
Proof. eexists. eexists. split; [apply run_history; [ranges|vm_compute; reflexivity]|reflexivity]. Qed.

(** ** What is false *)

(** C76.  The reading of the broker's answer to a request is interrupted by a signal: the connection is given up, and what it was granted stays charged. *)
Theorem C76_interrupted_refuted : exists w l w' al, fresh (1, 1) w /\ history (1, 1) any w l w' al /\ w_conns w' = [] /\ w_files w' = [] /\ usage w' 1 LimBandwidth = Some 60 /\ ~ books_right w'.
Proof.
  exists lc_start, [Connect 1 1%nat; Request 1 7 false true 60 0 true [QIntr]; Quit 1]. eexists. eexists. split; [exact lc_fresh|].
  split; [apply run_history; [ranges|vm_compute; reflexivity]|]. split; [reflexivity|]. split; [reflexivity|]. split; [reflexivity|].
  intros Bk. assert (X : 60 = 0); [|lia]. apply (Bk 1%nat LimBandwidth 100 60); [auto| |lia]. eexists. exists 0%nat. split; [reflexivity|]. split; reflexivity.
Qed.

(** C76.  fstat fails when the file of a session is closed: the estimate for its disk space is never released although the file may be smaller or is deleted later. *)
Theorem C76_fstat_refuted : exists w l w' al, fresh (1, 1) w /\ history (1, 1) any w l w' al /\ w_conns w' = [] /\ w_files w' = [] /\ usage w' 1 LimDisk = Some 80 /\ ~ books_right w'.
Proof.
  exists lc_start, [Connect 1 1%nat; Request 1 7 false false 60 200 true []; Finish 1 7 CNTRL_ACCEPT None []; Fetch 1 7 0 4294967295; Fetched 1 CNTRL_ACCEPT (Some 120) []; Quit 1].
  eexists. eexists. split; [exact lc_fresh|]. split; [apply run_history; [ranges|vm_compute; reflexivity]|]. split; [reflexivity|]. split; [reflexivity|]. split; [reflexivity|].
  intros Bk. assert (X : 80 = 0); [|lia]. apply (Bk 1%nat LimDisk 300 80); [auto| |lia]. eexists. exists 1%nat. split; [reflexivity|]. split; reflexivity.
Qed.

(** C76.  A connection process dies: what its sessions hold stays charged until the server is restarted. *)
Theorem C76_crash_refuted : exists w l w' al, fresh (1, 1) w /\ history (1, 1) any w l w' al /\ w_conns w' = [] /\ w_files w' = [] /\
  usage w' 0 LimBandwidth = Some 100 /\ usage w' 1 LimBandwidth = Some 100 /\ ~ books_right w' /\
  exists w'' al', history (1, 1) any w' [Connect 2 1%nat; Request 2 8 false true 1 0 true []] w'' al' /\ al' = [ANone; ADenied].
Proof.
  exists lc_start, [Connect 1 1%nat; Request 1 7 false true 100 0 true []; Crash 1]. eexists. eexists. split; [exact lc_fresh|].
  split; [apply run_history; [ranges|vm_compute; reflexivity]|]. split; [reflexivity|]. split; [reflexivity|]. split; [reflexivity|]. split; [reflexivity|]. split.
  - intros Bk. assert (X : 100 = 0); [|lia]. apply (Bk 1%nat LimBandwidth 100 100); [auto| |lia]. eexists. exists 0%nat. split; [reflexivity|]. split; reflexivity.
  - eexists. eexists. split; [apply run_history; [ranges|vm_compute; reflexivity]|reflexivity].
Qed.

(** C76.  Two clients fetch the same file at the same time: its size is released twice, and the class may use more disk space than its limit:
    here 300 are allowed, and three files of 120 octets are kept. *)
Theorem C76_two_fetches_refuted : exists w l w' al, fresh (1, 1) w /\ history (1, 1) any w l w' al /\
  usage w' 1 LimDisk = Some 240 /\ held w' 1%nat LimDisk = 360 /\ ~ books_right w'.
Proof.
  exists lc_start, [Connect 1 1%nat; Connect 2 1%nat; Request 1 7 false false 60 120 true []; Finish 1 7 CNTRL_ACCEPT (Some 120) [];
                    Request 1 8 false false 60 120 true []; Finish 1 8 CNTRL_ACCEPT (Some 120) [];
                    Fetch 1 7 0 4294967295; Fetch 2 7 0 4294967295; Fetched 1 CNTRL_ACCEPT (Some 120) []; Fetched 2 CNTRL_ACCEPT (Some 120) []; Connect 3 1%nat;
                    Request 3 9 false false 60 120 true []; Finish 3 9 CNTRL_ACCEPT (Some 120) []; Request 3 10 false false 60 120 true []; Finish 3 10 CNTRL_ACCEPT (Some 120) []].
  eexists. eexists. split; [exact lc_fresh|]. split; [apply run_history; [ranges|vm_compute; reflexivity]|]. split; [reflexivity|]. split; [reflexivity|].
  intros Bk. assert (X : 240 = 360); [|lia]. apply (Bk 1%nat LimDisk 300 240); [auto| |lia]. eexists. exists 1%nat. split; [reflexivity|]. split; reflexivity.
Qed.

(** C77.  A connection of class root fetches a file of class jail: the file is deleted, but its size stays charged to jail for good. *)
Theorem C77_owner_refuted : exists w l w' al, fresh (1, 1) w /\ history (1, 1) any w l w' al /\ w_conns w' = [] /\ w_files w' = [] /\
  usage w' 0 LimDisk = Some 0 /\ usage w' 1 LimDisk = Some 120.
Proof.
  exists lc_start, [Connect 1 1%nat; Request 1 7 false false 60 200 true []; Finish 1 7 CNTRL_ACCEPT (Some 120) []; Quit 1;
                    Connect 2 0%nat; Fetch 2 7 0 4294967295; Fetched 2 CNTRL_ACCEPT (Some 120) []; Quit 2].
  eexists. eexists. split; [exact lc_fresh|]. split; [apply run_history; [ranges|vm_compute; reflexivity]|]. repeat split.
Qed.
Example C77_case : exists w' al c w'' a, history (1, 1) smooth lc_start lc_smooth w' al /\ get 1 (w_conns w') = Some c /\ cn_fetch c = Some (mkFile 7 1%nat 120, 0, 4294967295) /\
  smooth w' (Fetched 1 CNTRL_ACCEPT (Some 120) []) /\ step (1, 1) w' (Fetched 1 CNTRL_ACCEPT (Some 120) []) = Some (w'', a) /\ ~ In (mkFile 7 1%nat 120) (w_files w'').
Proof.
  destruct C76_case as (w' & al & H & _). exists w', al.
  assert (E : run (1, 1) lc_start lc_smooth = Some (w', al)).
  { clear - H. induction H as [|w e w1 a l w2 al _ _ St H IH]; [reflexivity|]. cbn [run]. rewrite St, IH. reflexivity. }
  vm_compute in E. injection E as <- <-. eexists. eexists. eexists. split; [exact H|]. split; [reflexivity|]. split; [reflexivity|]. split; [|split; [vm_compute; reflexivity|intros []]].
  split; [constructor|]. intros c f b e Ec Ef. vm_compute in Ec. injection Ec as <-. cbn in Ef. injection Ef as <- <- <-. repeat split. left. reflexivity.
Qed.

(** C79.  Completed sessions do not free their place: with test_sessions=2 a connection that has run two sessions, one after the other, is refused the third. *)
Theorem C79_freed_refuted : exists w l w' al, fresh (1, 1) w /\ history (1, 1) smooth w l w' al /\ al = [ANone; AAccepted; ANone; AAccepted; ANone; ADenied] /\
  (forall id c, get id (w_conns w') = Some c -> cn_tests c = []).
Proof.
  exists lc_start, [Connect 1 1%nat; Request 1 7 false true 10 0 true []; Finish 1 7 CNTRL_ACCEPT (Some 0) []; Request 1 8 false true 10 0 true []; Finish 1 8 CNTRL_ACCEPT (Some 0) [];
                    Request 1 9 false true 10 0 true []].
  eexists. eexists. split; [exact lc_fresh|]. split.
  { repeat (econstructor; [cbn; unfold amount; lia|cbn; unfold answered_all; try (split; [constructor|discriminate]); try exact I; constructor|vm_compute; reflexivity|]). constructor. }
  split; [reflexivity|]. intros id c G. cbn [w_conns get] in G. destruct (1 =? id); [injection G as <-; reflexivity|discriminate].
Qed.

(** C80.  After an interrupted release the answers are read one query late: a request far above the limits, which the broker denies, is accepted. *)
Theorem C80_decision_refuted : exists w l w' al, fresh (1, 1) w /\ history (1, 1) any w l w' al /\ al = [ANone; AAccepted; ANone; AAccepted] /\
  exists c, get 1 (w_conns w') = Some c /\ total (fun e => session_holds LimBandwidth (snd e)) (cn_tests c) = 1000000 /\ usage w' 1 LimBandwidth = Some 0.
Proof.
  exists lc_start, [Connect 1 1%nat; Request 1 7 false true 60 0 true []; Finish 1 7 CNTRL_ACCEPT (Some 0) [QIntr]; Request 1 8 false true 1000000 0 true []].
  eexists. eexists. split; [exact lc_fresh|]. split; [apply run_history; [ranges|vm_compute; reflexivity]|]. split; [reflexivity|].
  eexists. split; [reflexivity|]. split; reflexivity.
Qed.
Example C80_case : room lc_tree 1 LimBandwidth 100 /\ ~ room lc_tree 1 LimBandwidth 101.
Proof.
  split.
  - intros a v u Ia En V. destruct (lc_entry a LimBandwidth v u En) as [-> _]. destruct Ia as [<-|[<-|[]]]; destruct En as (n & k & E1 & E2 & E3); cbn in E1; injection E1 as <-;
    (destruct k as [|[|[|[|k]]]]; cbn in E2; [| | | |destruct k; discriminate]); try discriminate E2; injection E2 as <-; lia.
  - intros R. assert (0 + 101 <= 100); [|lia]. apply (R 1%nat 100 0); [left; reflexivity| |lia]. eexists. exists 0%nat. split; [reflexivity|]. split; reflexivity.
Qed.

Print Assumptions C76_books_partial.
Print Assumptions C76_defined.
Print Assumptions C77_owner_partial.
Print Assumptions C78_only.
Print Assumptions C78_deleted.
Print Assumptions C79_sessions.
Print Assumptions C80_decision_partial.
Print Assumptions C80_decision_refuted.
