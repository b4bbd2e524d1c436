(** C161-C163: objects of the library and their ends. *)
From Coq Require Import List Bool Arith Lia.
From Verif Require Import Objects_Model.
Import ListNotations.

(** ** Specification

    A watchman who sees the events.  He knows which objects exist, and objects if
    - an object is acquired that exists already,
    - an object is given back that does not exist (any more),
    - the policy is told of the end of a session that it did not grant (or twice), or while the endpoint of
      the session (its process, its file) still exists,
    - the record of a session is given back while the schedule, the slots, the endpoint or the grant,
      which only the record refers to, still exist.  *)
Definition world := obj -> bool.
Definition nothing : world := fun _ => false.

Definition obj_eq_dec (a b : obj) : {a = b} + {a <> b}.
Proof. decide equality; [apply Nat.eq_dec | apply kind_eq_dec]. Defined.

Definition set (o : obj) (b : bool) (h : world) : world :=
  fun x => if obj_eq_dec x o then b else h x.

Definition watch1 (e : event) (h : world) : option world :=
  match e with
  | Get o => if h o then None else Some (set o true h)
  | Give (Rec, i) =>
    if h (Rec, i) && negb (h (Sctx, i)) && negb (h (Slots, i)) && negb (h (Endp, i))
       && negb (h (Grant, i))
    then Some (set (Rec, i) false h) else None
  | Give o => if h o then Some (set o false h) else None
  | Told i _ =>
    if h (Grant, i) && negb (h (Endp, i)) then Some (set (Grant, i) false h) else None
  end.

Fixpoint watch (es : list event) (h : world) : option world :=
  match es with
  | [] => Some h
  | e :: r => match watch1 e h with Some h' => watch r h' | None => None end
  end.

(** The watchman is content from [h] on, and [h'] is what exists in the end. *)
Definition content (es : list event) (h h' : world) : Prop :=
  exists g, watch es h = Some g /\ forall o, g o = h' o.

(** ** Proofs *)

Definition same (h g : world) := forall o, h o = g o.

Lemma watch1_same : forall e h g h', same h g -> watch1 e h = Some h' ->
  exists g', watch1 e g = Some g' /\ same h' g'.
Proof.
  intros e h g h' Q W.
  assert (T : forall o b, same (set o b h) (set o b g)).
  { intros o b x. unfold set. destruct (obj_eq_dec x o); [reflexivity|apply Q]. }
  destruct e as [o|[k i]|i v]; cbn in W |- *.
  - rewrite <- (Q o). destruct (h o); [discriminate|]. injection W as <-. eauto.
  - destruct k; rewrite <- ?Q;
      match type of W with (if ?b then _ else _) = _ => destruct b end;
      try discriminate; injection W as <-; eauto.
  - rewrite <- !Q. destruct (_ && _); [|discriminate]. injection W as <-. eauto.
Qed.

Lemma watch_same : forall es h g h', same h g -> watch es h = Some h' ->
  exists g', watch es g = Some g' /\ same h' g'.
Proof.
  induction es as [|e r IH]; cbn; intros h g h' Q W.
  - injection W as <-. eauto.
  - destruct (watch1 e h) as [h1|] eqn:E; [|discriminate].
    destruct (watch1_same _ _ _ _ Q E) as (g1 & -> & Q1). eapply IH; eauto.
Qed.

Lemma watch_app : forall a b h, watch (a ++ b) h =
  match watch a h with Some h' => watch b h' | None => None end.
Proof.
  induction a as [|e r IH]; cbn; intros; [reflexivity|].
  destruct (watch1 e h); [apply IH|reflexivity].
Qed.

Lemma content_nil : forall h h', same h h' -> content [] h h'.
Proof. intros h h' Q. exists h. split; [reflexivity|exact Q]. Qed.

Lemma content_app : forall a b h h1 h2, content a h h1 -> content b h1 h2 -> content (a ++ b) h h2.
Proof.
  intros a b h h1 h2 (g1 & W1 & Q1) (g2 & W2 & Q2).
  assert (Q1' : same h1 g1) by (intros o; symmetry; apply Q1).
  destruct (watch_same _ _ _ _ Q1' W2) as (g3 & W3 & Q3).
  exists g3. split; [rewrite watch_app, W1; exact W3|].
  intros o. rewrite <- Q3. apply Q2.
Qed.

Lemma content_same : forall es h h' g g', same h g -> same h' g' -> content es h h' -> content es g g'.
Proof.
  intros es h h' g g' Q Q' (x & W & R). destruct (watch_same _ _ _ _ Q W) as (y & W' & R').
  exists y. split; [exact W'|]. intros o. rewrite <- R', R. apply Q'.
Qed.

Lemma content_cons : forall e r h h1 h2, content [e] h h1 -> content r h1 h2 -> content (e :: r) h h2.
Proof. intros e r h h1 h2 A B. apply (content_app [e] r h h1 h2 A B). Qed.

(** what number [i] holds is [w], the rest as in [h] *)
Definition upd (i : nat) (w : list kind) (h : world) : world :=
  fun o => if snd o =? i then mem (fst o) w else h o.

Lemma upd_upd : forall i a b h, same (upd i a (upd i b h)) (upd i a h).
Proof. intros i a b h o. unfold upd. destruct (snd o =? i); reflexivity. Qed.

Lemma mem_in : forall k w, mem k w = true <-> In k w.
Proof. intros k w. unfold mem. destruct (in_dec _ k w); split; intros; auto; discriminate. Qed.

Lemma mem_not : forall k w, mem k w = false <-> ~ In k w.
Proof. intros k w. unfold mem. destruct (in_dec _ k w); split; intros; auto; try discriminate; contradiction. Qed.

Lemma mem_cons : forall k a w, mem k (a :: w) = (if kind_eq_dec k a then true else mem k w).
Proof.
  intros k a w. destruct (kind_eq_dec k a) as [->|N].
  - apply mem_in. left. reflexivity.
  - destruct (mem k w) eqn:E.
    + apply mem_in. right. apply mem_in. exact E.
    + apply mem_not. intros [E'|E']; [congruence|]. apply mem_not in E. contradiction.
Qed.

Lemma mem_remove : forall k a w, mem k (remove kind_eq_dec a w) = (if kind_eq_dec k a then false else mem k w).
Proof.
  intros k a w. destruct (kind_eq_dec k a) as [->|N].
  - apply mem_not. apply remove_In.
  - destruct (mem k w) eqn:E.
    + apply mem_in. apply in_in_remove; [exact N|]. apply mem_in. exact E.
    + apply mem_not. intros I. apply in_remove in I. apply mem_not in E. tauto.
Qed.

Lemma set_upd_add : forall i k w h, same (set (k, i) true (upd i w h)) (upd i (k :: w) h).
Proof.
  intros i k w h [k' j]. unfold set, upd. cbn [fst snd].
  destruct (obj_eq_dec (k', j) (k, i)) as [E|N].
  - injection E as -> ->. rewrite Nat.eqb_refl. rewrite mem_cons.
    destruct (kind_eq_dec k k); congruence.
  - destruct (j =? i) eqn:J; [|reflexivity]. apply Nat.eqb_eq in J. subst j.
    rewrite mem_cons. destruct (kind_eq_dec k' k); [congruence|reflexivity].
Qed.

Lemma set_upd_del : forall i k w h,
  same (set (k, i) false (upd i w h)) (upd i (remove kind_eq_dec k w) h).
Proof.
  intros i k w h [k' j]. unfold set, upd. cbn [fst snd].
  destruct (obj_eq_dec (k', j) (k, i)) as [E|N].
  - injection E as -> ->. rewrite Nat.eqb_refl, mem_remove.
    destruct (kind_eq_dec k k); congruence.
  - destruct (j =? i) eqn:J; [|reflexivity]. apply Nat.eqb_eq in J. subst j.
    rewrite mem_remove. destruct (kind_eq_dec k' k); [congruence|reflexivity].
Qed.

Lemma upd_at : forall i w h k, upd i w h (k, i) = mem k w.
Proof. intros. unfold upd. cbn. rewrite Nat.eqb_refl. reflexivity. Qed.

Lemma get_ok : forall i k w h, mem k w = false ->
  content [Get (k, i)] (upd i w h) (upd i (k :: w) h).
Proof.
  intros i k w h M. eexists. split; [cbn; rewrite upd_at, M; reflexivity|]. apply set_upd_add.
Qed.

Lemma give_ok : forall i k w h, k <> Rec -> mem k w = true ->
  content [Give (k, i)] (upd i w h) (upd i (remove kind_eq_dec k w) h).
Proof.
  intros i k w h N M. eexists. split; [|apply set_upd_del].
  cbn. destruct k; try congruence; rewrite upd_at, M; reflexivity.
Qed.

Lemma give_rec_ok : forall i w h, mem Rec w = true -> mem Sctx w = false -> mem Slots w = false ->
  mem Endp w = false -> mem Grant w = false ->
  content [Give (Rec, i)] (upd i w h) (upd i (remove kind_eq_dec Rec w) h).
Proof.
  intros i w h A B C D E. eexists. split; [|apply set_upd_del].
  cbn. rewrite !upd_at, A, B, C, D, E. reflexivity.
Qed.

Lemma told_ok : forall i v w h, mem Grant w = true -> mem Endp w = false ->
  content [Told i v] (upd i w h) (upd i (remove kind_eq_dec Grant w) h).
Proof.
  intros i v w h A B. eexists. split; [|apply set_upd_del].
  cbn. rewrite !upd_at, A, B. reflexivity.
Qed.

(** removing what is not there changes nothing *)
Lemma upd_ext : forall i w w' h, (forall k, mem k w = mem k w') -> same (upd i w h) (upd i w' h).
Proof. intros i w w' h M [k j]. unfold upd. cbn. destruct (j =? i); auto. Qed.

Lemma give_opt : forall i k w w0 h, k <> Rec -> mem k w = mem k w0 ->
  content (give k i w0) (upd i w h) (upd i (remove kind_eq_dec k w) h).
Proof.
  intros i k w w0 h N M. unfold give. destruct (mem k w0) eqn:E.
  - apply give_ok; assumption.
  - apply content_nil, upd_ext. intros k'. rewrite mem_remove.
    destruct (kind_eq_dec k' k) as [->|]; congruence.
Qed.

(** *** Sequences of steps *)

(** no step takes twice, and the endpoint and the record are given back only when it is right *)
Fixpoint good (st : list step) (w : list kind) : bool :=
  match st with
  | [] => true
  | Need :: r => good r w
  | Take k :: r => negb (mem k w) && good r (k :: w)
  | Want k :: r => negb (mem k w) && good r (k :: w) && good r w
  | Have k :: r => if mem k w then good r w else true
  | TakeSlots :: r =>
    mem Rec w && negb (mem Sctx w) && negb (mem Slots w) && negb (mem Endp w) && negb (mem Grant w)
    && good r (Slots :: w)
  | Drop k :: r =>
    (match k with Pf => true | _ => false end) && good r (remove kind_eq_dec k w)
  | Policy c :: r => if c then negb (mem Grant w) && good r (Grant :: w) else good r w
  | Hook :: r => mem Endp w && good r w
  | Fail :: r => true
  end.

Lemma remove_absent : forall k (w : list kind), mem k w = false -> remove kind_eq_dec k w = w.
Proof. intros k w M. apply notin_remove, mem_not. exact M. Qed.

Lemma build_ok : forall st i fails n w h w' es b,
  good st w = true -> build st i fails n w = (w', es, b) -> content es (upd i w h) (upd i w' h).
Proof.
  induction st as [|s r IH]; intros i fails n w h w' es b G B.
  { cbn in B. injection B as <- <- <-. apply content_nil. intros o. reflexivity. }
  cbn [build] in B.
  assert (K : forall w1 es1,
    content es1 (upd i w h) (upd i w1 h) -> good r w1 = true ->
    (let '(w2, es2, b) := build r i fails (S n) w1 in (w2, es1 ++ es2, b)) = (w', es, b) ->
    content es (upd i w h) (upd i w' h)).
  { intros w1 es1 C G1 E. destruct (build r i fails (S n) w1) as [[w2 es2] b2] eqn:B2.
    injection E as <- <- _. eapply content_app; [exact C|]. eapply IH; eassumption. }
  assert (N : content [] (upd i w h) (upd i w h)) by (apply content_nil; intros o; reflexivity).
  destruct s; cbn [one good] in B, G.
  - destruct (fails n); cbn [negb] in B; [injection B as <- <- _; exact N|].
    eapply K; eauto.
  - apply andb_prop in G as [G1 G2]. apply negb_true_iff in G1.
    destruct (fails n); [injection B as <- <- _; exact N|].
    eapply K; [|exact G2|exact B]. apply get_ok. exact G1.
  - apply andb_prop in G as [G1 G3]. apply andb_prop in G1 as [G1 G2]. apply negb_true_iff in G1.
    destruct (fails n).
    + eapply K; eauto.
    + eapply K; [|exact G2|exact B]. apply get_ok. exact G1.
  - destruct (mem k w); [|injection B as <- <- _; exact N]. eapply K; eauto.
  - do 5 (apply andb_prop in G as [G ?]). repeat match goal with H : negb _ = true |- _ => apply negb_true_iff in H end.
    destruct (fails n).
    + injection B as <- <- _. apply give_rec_ok; assumption.
    + eapply K; [|eassumption|exact B]. apply get_ok. assumption.
  - apply andb_prop in G as [G1 G2]. destruct (mem k w) eqn:M.
    + eapply K; [|exact G2|exact B]. apply give_ok; [|exact M]. intros ->. discriminate.
    + rewrite remove_absent in G2 by exact M. eapply K; eauto.
  - destruct closure.
    + apply andb_prop in G as [G1 G2]. apply negb_true_iff in G1.
      destruct (fails n); cbn [negb] in B.
      * injection B as <- <- _. apply get_ok. exact G1.
      * eapply K; [|exact G2|exact B]. apply get_ok. exact G1.
    + destruct (fails n); cbn [negb] in B; [injection B as <- <- _; exact N|]. eapply K; eauto.
  - apply andb_prop in G as [G1 G2]. destruct (fails n).
    + injection B as <- <- _. apply give_ok; [discriminate|exact G1].
    + eapply K; eauto.
  - injection B as <- <- _. exact N.
Qed.

(** only what is taken is held *)
Fixpoint takes (st : list step) : list kind :=
  match st with
  | Take k :: r | Want k :: r => k :: takes r
  | TakeSlots :: r => Slots :: takes r
  | Policy true :: r => Grant :: takes r
  | _ :: r => takes r
  | [] => []
  end.

Lemma build_takes : forall st i fails n w w' es b,
  build st i fails n w = (w', es, b) -> forall k, In k w' -> In k w \/ In k (takes st).
Proof.
  induction st as [|s r IH]; intros i fails n w w' es b B k I.
  { cbn in B. injection B as <- <- <-. auto. }
  cbn [build] in B.
  destruct (one s i (fails n) w) as [[w1 es1] go] eqn:O.
  assert (I1 : In k w1 \/ In k (takes r)).
  { destruct go.
    - destruct (build r i fails (S n) w1) as [[w2 es2] b2] eqn:B2. injection B as <- <- <-.
      eapply IH; eassumption.
    - injection B as <- <- <-. auto. }
  assert (J : In k w1 -> In k w \/ In k (takes (s :: r))).
  { clear I1 I. intros I.
    destruct s; cbn [one takes] in O |- *; try (destruct (fails n)); try (destruct closure);
      try (destruct (mem k0 w));
      injection O as <- _ _; cbn [In] in *; auto;
      repeat match goal with H : _ \/ _ |- _ => destruct H end; auto;
      match goal with H : In _ (remove _ _ _) |- _ => apply in_remove in H as [? _] end; auto. }
  destruct I1 as [I1|I1]; [auto|]. right.
  destruct s; cbn [takes]; try exact I1; try (right; exact I1).
  destruct closure; [right|]; exact I1.
Qed.

(** *** Sessions *)

Definition session_kinds : list kind := [Endp; Grant; Sender; Receiver; Sctx; Slots; Rec].

Lemma session_free_ok : forall i v w h, mem Rec w = true -> incl w session_kinds ->
  content (session_free i w v) (upd i w h) (upd i [] h).
Proof.
  intros i v w h R I. unfold session_free.
  eapply content_app; [apply give_opt; [discriminate|reflexivity]|].
  eapply content_app.
  { instantiate (1 := upd i (remove kind_eq_dec Grant (remove kind_eq_dec Endp w)) h).
    destruct (mem Grant w) eqn:G.
    - apply told_ok; rewrite mem_remove; destruct (kind_eq_dec _ _); congruence.
    - rewrite (remove_absent Grant).
      + apply content_nil. intros o; reflexivity.
      + rewrite mem_remove. destruct (kind_eq_dec _ _); congruence. }
  repeat (eapply content_app;
    [apply give_opt; [discriminate|];
     rewrite ?mem_remove; repeat (destruct (kind_eq_dec _ _); [discriminate|]); reflexivity|]).
  eapply content_same; [intros o; reflexivity| |apply give_rec_ok].
  - apply upd_ext. intros k. apply eq_trans with false; [|reflexivity].
    apply mem_not. intros K. repeat (apply in_remove in K as [K ?]). apply I in K.
    unfold session_kinds in K. cbn in K. intuition congruence.
  - rewrite ?mem_remove. repeat (destruct (kind_eq_dec _ _); [discriminate|]). exact R.
  - rewrite ?mem_remove. repeat (destruct (kind_eq_dec _ _); try discriminate; try congruence).
  - rewrite ?mem_remove. repeat (destruct (kind_eq_dec _ _); try discriminate; try congruence).
  - rewrite ?mem_remove. repeat (destruct (kind_eq_dec _ _); try discriminate; try congruence).
  - rewrite ?mem_remove. repeat (destruct (kind_eq_dec _ _); try discriminate; try congruence).
Qed.

(** what is held without a record are the addresses *)
Definition shape (w : list kind) : Prop :=
  incl w session_kinds /\ (mem Rec w = true \/ incl w [Sender; Receiver]).

Lemma request_error_ok : forall i v w h, shape w ->
  content (request_error i w v) (upd i w h) (upd i [] h).
Proof.
  intros i v w h [I S]. unfold request_error. destruct (mem Rec w) eqn:R.
  - apply session_free_ok; assumption.
  - destruct S as [S|S]; [discriminate|].
    eapply content_app; [apply give_opt; [discriminate|reflexivity]|].
    eapply content_same; [intros o; reflexivity| |apply give_opt; [discriminate|]].
    + apply upd_ext. intros k. apply eq_trans with false; [|reflexivity].
      apply mem_not. intros K. repeat (apply in_remove in K as [K ?]). apply S in K.
      cbn in K. intuition congruence.
    + rewrite mem_remove. destruct (kind_eq_dec _ _); [discriminate|reflexivity].
Qed.

Definition shapeb (w : list kind) : bool :=
  forallb (fun k => mem k session_kinds) w
  && (mem Rec w || forallb (fun k => mem k [Sender; Receiver]) w).

Lemma shapeb_shape : forall w, shapeb w = true -> shape w.
Proof.
  intros w B. apply andb_prop in B as [A B]. split.
  - intros k K. rewrite forallb_forall in A. apply mem_in. auto.
  - apply orb_prop in B as [B|B]; [auto|]. right. intros k K. rewrite forallb_forall in B.
    apply mem_in. auto.
Qed.

Fixpoint tidy (st : list step) (w : list kind) : bool :=
  match st with
  | [] => shapeb w && mem Rec w
  | Need :: r => shapeb w && tidy r w
  | Take k :: r => shapeb w && tidy r (k :: w)
  | Want k :: r => tidy r (k :: w) && tidy r w
  | Have k :: r => shapeb w && (if mem k w then tidy r w else true)
  | TakeSlots :: r => shapeb (remove kind_eq_dec Rec w) && tidy r (Slots :: w)
  | Drop k :: r => tidy r (remove kind_eq_dec k w)
  | Policy c :: r => if c then shapeb (Grant :: w) && tidy r (Grant :: w) else shapeb w && tidy r w
  | Hook :: r => shapeb (remove kind_eq_dec Endp w) && tidy r w
  | Fail :: r => shapeb w
  end.

Lemma build_tidy : forall st i fails n w w' es b,
  tidy st w = true -> build st i fails n w = (w', es, b) ->
  shape w' /\ (b = true -> mem Rec w' = true).
Proof.
  induction st as [|s r IH]; intros i fails n w w' es b G B.
  { cbn in B. injection B as <- <- <-. cbn [tidy] in G. apply andb_prop in G as [G R].
    split; [apply shapeb_shape; exact G|auto]. }
  cbn [build] in B.
  assert (F : shapeb w' = true -> false = b -> shape w' /\ (b = true -> mem Rec w' = true)).
  { intros P Q. subst b. split; [apply shapeb_shape; exact P|discriminate]. }
  assert (K : forall w1 es1, tidy r w1 = true ->
    (let '(w2, es2, b) := build r i fails (S n) w1 in (w2, es1 ++ es2, b)) = (w', es, b) ->
    shape w' /\ (b = true -> mem Rec w' = true)).
  { intros w1 es1 T E. destruct (build r i fails (S n) w1) as [[w2 es2] b2] eqn:B2.
    injection E as <- <- <-. eapply IH; eassumption. }
  destruct s; cbn [one tidy] in B, G.
  - apply andb_prop in G as [G1 G2].
    destruct (fails n); cbn [negb] in B; [injection B as <- <- Q; auto|]. eapply K; eauto.
  - apply andb_prop in G as [G1 G2].
    destruct (fails n); [injection B as <- <- Q; auto|]. eapply K; eauto.
  - apply andb_prop in G as [G1 G2]. destruct (fails n); (eapply K; [|exact B]); assumption.
  - apply andb_prop in G as [G1 G2].
    destruct (mem k w); [eapply K; eauto|injection B as <- <- Q; auto].
  - apply andb_prop in G as [G1 G2].
    destruct (fails n); [injection B as <- <- Q; auto|]. eapply K; eauto.
  - destruct (mem k w) eqn:M; [eapply K; eauto|].
    rewrite remove_absent in G by exact M. eapply K; eauto.
  - destruct closure; apply andb_prop in G as [G1 G2];
      (destruct (fails n); cbn [negb] in B; [injection B as <- <- Q; auto|]; eapply K; eauto).
  - apply andb_prop in G as [G1 G2].
    destruct (fails n); [injection B as <- <- Q; auto|]. eapply K; eauto.
  - injection B as <- <- Q. auto.
Qed.

Lemma handed_get : forall q i h,
  content (map (fun k => Get (k, i)) (handed q)) (upd i [] h) (upd i (handed q) h).
Proof.
  intros q i h. unfold handed. destruct (q_sgiven q), (q_rgiven q); cbn [map app].
  - eapply content_cons; [apply get_ok; reflexivity|].
    eapply content_same; [intros o; reflexivity| |apply get_ok; reflexivity].
    apply upd_ext. intros k. rewrite !mem_cons. repeat destruct (kind_eq_dec _ _); reflexivity.
  - apply get_ok; reflexivity.
  - apply get_ok; reflexivity.
  - apply content_nil. intros o; reflexivity.
Qed.

(** a session that was set up, or everything given back *)
Definition held (r : option (list kind)) : list kind := match r with Some w => w | None => [] end.
Definition sound (w : list kind) : Prop := mem Rec w = true /\ incl w session_kinds.


Lemma request_ok : forall q i fails h r es, session_request q i fails = (r, es) ->
  content es (upd i [] h) (upd i (held r) h) /\ (forall w, r = Some w -> sound w).
Proof.
  intros q i fails h r es E. unfold session_request in E.
  destruct (build (request_steps q) i fails 0 (handed q)) as [[w es1] b] eqn:B.
  assert (G : good (request_steps q) (handed q) = true /\ tidy (request_steps q) (handed q) = true).
  { destruct q as [[] [] [] [] [] [] []]; split; vm_compute; reflexivity. }
  destruct G as [G T].
  pose proof (build_ok _ _ _ _ _ h _ _ _ G B) as C.
  destruct (build_tidy _ _ _ _ _ _ _ _ T B) as [S R].
  destruct b; injection E as <- <-; cbn [held].
  - split; [eapply content_app; [apply handed_get|exact C]|].
    intros x Q. injection Q as <-. split; [auto|apply S].
  - split; [|discriminate]. rewrite <- app_assoc.
    eapply content_app; [apply handed_get|]. eapply content_app; [exact C|].
    apply request_error_ok. exact S.
Qed.

Lemma serve_ok : forall q i fails v h r es, serve_request q i fails v = (r, es) ->
  content es (upd i [] h) (upd i (held r) h) /\ (forall w, r = Some w -> sound w).
Proof.
  intros q i fails v h r es E. unfold serve_request in E.
  destruct (build (serve_steps q) i fails 0 []) as [[w es1] b] eqn:B.
  assert (G : good (serve_steps q) [] = true /\ tidy (serve_steps q) [] = true).
  { destruct q as [[] [] [] [] [] [] []]; split; vm_compute; reflexivity. }
  destruct G as [G T].
  pose proof (build_ok _ _ _ _ _ h _ _ _ G B) as C.
  destruct (build_tidy _ _ _ _ _ _ _ _ T B) as [S R].
  destruct (build (removelast (serve_steps q)) i fails 0 []) as [[w0 es0] started].
  destruct b; injection E as <- <-; cbn [held].
  - split; [exact C|]. intros x Q. injection Q as <-. split; [auto|apply S].
  - split; [|discriminate]. eapply content_app; [exact C|]. apply request_error_ok. exact S.
Qed.

Lemma fetch_ok : forall big i fails h,
  content (fetch big i fails false) (upd i [] h) (upd i [] h).
Proof.
  intros big i fails h. unfold fetch.
  destruct (build (read_steps true big) i fails 0 []) as [[w es1] b] eqn:B.
  assert (G : good (read_steps true big) [] = true /\ tidy (read_steps true big) [] = true).
  { destruct big; split; vm_compute; reflexivity. }
  destruct G as [G T].
  pose proof (build_ok _ _ _ _ _ h _ _ _ G B) as C.
  destruct (build_tidy _ _ _ _ _ _ _ _ T B) as [S R].
  destruct b; (eapply content_app; [exact C|]).
  - apply session_free_ok; [auto|apply S].
  - apply request_error_ok. exact S.
Qed.

(** *** Connections *)

Definition control_kinds : list kind := [CTable; SendH; RecvH; Remote; Local; Iface 0; Cntrl].

(** what a connection holds is what it refers to *)
Definition ctl_ok (c : ctl) : Prop :=
  incl (c_w c) control_kinds /\ mem Cntrl (c_w c) = true /\
  c_remote c = mem Remote (c_w c) /\
  ((c_copies c = 0 /\ mem (Iface 0) (c_w c) = false) \/ (c_copies c = 1 /\ mem (Iface 0) (c_w c) = true)).

Definition own_close (i : nat) (w : list kind) (m : bool) (n : nat) : list event :=
  control_close {| c_id := i; c_w := w; c_remote := m; c_copies := n; c_tests := [] |}.

Lemma close_split : forall c,
  control_close c = flat_map (fun t => session_free (fst t) (snd t) CNTRL_FAILURE) (c_tests c)
                    ++ own_close (c_id c) (c_w c) (c_remote c) (c_copies c).
Proof. intros c. reflexivity. Qed.

Lemma own_close_ok : forall i w m n h,
  ctl_ok {| c_id := i; c_w := w; c_remote := m; c_copies := n; c_tests := [] |} ->
  content (own_close i w m n) (upd i w h) (upd i [] h).
Proof.
  intros i w m n h (I & M & R & K). cbn [c_w c_remote c_copies] in *.
  unfold own_close, control_close. cbn [c_id c_w c_remote c_copies c_tests flat_map app].
  assert (E1 : (if m then [Give (Remote, i)] else []) = give Remote i w)
    by (rewrite R; reflexivity).
  assert (E2 : match n with 0 => [] | S n0 => [Give (Iface n0, i)] end = give (Iface 0) i w).
  { unfold give. destruct K as [[-> ->]|[-> ->]]; reflexivity. }
  assert (E3 : [Give (Cntrl, i)] = give Cntrl i w) by (unfold give; rewrite M; reflexivity).
  rewrite E1, E2, E3.
  repeat (eapply content_app;
    [apply give_opt; [discriminate|];
     rewrite ?mem_remove; repeat (destruct (kind_eq_dec _ _); [discriminate|]); reflexivity|]).
  eapply content_same; [intros o; reflexivity| |apply give_opt; [discriminate|]].
  - apply upd_ext. intros k. apply eq_trans with false; [|reflexivity].
    apply mem_not. intros Q. repeat (apply in_remove in Q as [Q ?]). apply I in Q.
    unfold control_kinds in Q. cbn in Q. intuition congruence.
  - rewrite ?mem_remove. repeat (destruct (kind_eq_dec _ _); [discriminate|]). reflexivity.
Qed.

(** all ways a sequence of steps can end *)
Fixpoint outs (st : list step) (w : list kind) : list (list kind * bool) :=
  match st with
  | [] => [(w, true)]
  | Need :: r => (w, false) :: outs r w
  | Take k :: r => (w, false) :: outs r (k :: w)
  | Want k :: r => outs r w ++ outs r (k :: w)
  | Have k :: r => if mem k w then outs r w else [(w, false)]
  | TakeSlots :: r => (remove kind_eq_dec Rec w, false) :: outs r (Slots :: w)
  | Drop k :: r => outs r (remove kind_eq_dec k w)
  | Policy c :: r => let w := if c then Grant :: w else w in (w, false) :: outs r w
  | Hook :: r => (remove kind_eq_dec Endp w, false) :: outs r w
  | Fail :: r => [(w, false)]
  end.

Lemma build_outs : forall st i fails n w w' es b,
  build st i fails n w = (w', es, b) -> In (w', b) (outs st w).
Proof.
  induction st as [|s r IH]; intros i fails n w w' es b B.
  { cbn in B. injection B as <- <- <-. left. reflexivity. }
  cbn [build] in B.
  assert (K : forall w1 es1,
    (let '(w2, es2, b) := build r i fails (S n) w1 in (w2, es1 ++ es2, b)) = (w', es, b) ->
    In (w', b) (outs r w1)).
  { intros w1 es1 E. destruct (build r i fails (S n) w1) as [[w2 es2] b2] eqn:B2.
    injection E as <- <- <-. eapply IH; eassumption. }
  destruct s; cbn [one outs] in B |- *.
  - destruct (fails n); cbn [negb] in B; [injection B as <- <- <-; left; reflexivity|].
    right. eapply K; eauto.
  - destruct (fails n); [injection B as <- <- <-; left; reflexivity|]. right. eapply K; eauto.
  - apply in_or_app. destruct (fails n); [left|right]; eapply K; eauto.
  - destruct (mem k w); [eapply K; eauto|injection B as <- <- <-; left; reflexivity].
  - destruct (fails n); [injection B as <- <- <-; left; reflexivity|]. right. eapply K; eauto.
  - destruct (mem k w) eqn:M; [eapply K; eauto|]. rewrite remove_absent by exact M. eapply K; eauto.
  - destruct closure;
      (destruct (fails n); cbn [negb] in B; [injection B as <- <- <-; left; reflexivity|];
       right; eapply K; eauto).
  - destruct (fails n); [injection B as <- <- <-; left; reflexivity|]. right. eapply K; eauto.
  - injection B as <- <- <-. left. reflexivity.
Qed.

Lemma build_all : forall (P : list kind * bool -> bool) st i fails n w w' es b,
  forallb P (outs st w) = true -> build st i fails n w = (w', es, b) -> P (w', b) = true.
Proof.
  intros P st i fails n w w' es b F B. rewrite forallb_forall in F. eapply F, build_outs, B.
Qed.

(** attempts that reach the copying of the name of the interface (capi.c 188) *)
Definition copying (ts : list try) : nat :=
  length (filter (fun t => match t with NoSocket => false | _ => true end) ts).

Lemma connect_none : forall i f ts m n, copying ts = 0 -> connect i f ts m n = (m, n, false, []).
Proof.
  induction ts as [|t r IH]; intros m n C; [reflexivity|].
  destruct t; cbn in C; try discriminate. cbn. apply IH. exact C.
Qed.

Lemma connect_plain : forall i ts m n m' n' b es, connect i false ts m n = (m', n', b, es) ->
  es = [] /\ n' = n /\ (b = true -> m' = true).
Proof.
  induction ts as [|t r IH]; intros m n m' n' b es C; cbn in C.
  { injection C as <- <- <- <-. repeat split. discriminate. }
  destruct t; try (eapply IH; exact C);
    try (injection C as <- <- <- <-; repeat split; congruence);
    destruct (connect i false r _ n) as [[[m2 n2] b2] es2] eqn:C2;
    injection C as <- <- <- <-; apply IH in C2 as (-> & -> & K); auto.
Qed.

Lemma connect_once : forall i ts m m' n' b es, copying ts <= 1 ->
  connect i true ts m 0 = (m', n', b, es) ->
  ((es = [] /\ n' = 0) \/ (es = [Get (Iface 0, i)] /\ n' = 1)) /\ (b = true -> m' = true).
Proof.
  induction ts as [|t r IH]; intros m m' n' b es L C; cbn in C.
  { injection C as <- <- <- <-. split; [auto|discriminate]. }
  destruct t; cbn in L; try (eapply IH; [|exact C]; exact L);
    try (injection C as <- <- <- <-; split; [auto|congruence]);
    rewrite connect_none in C by (unfold copying; lia);
    injection C as <- <- <- <-; (split; [auto|congruence]).
Qed.

Definition eqk (a b : kind) : bool := if kind_eq_dec a b then true else false.

(** checks on what a connection holds: [s] there is an address of the server, [n] copies *)
Definition cok (s : bool) (n : nat) (pf : bool) (w : list kind) : bool :=
  forallb (fun k => mem k control_kinds || pf && eqk k Pf) w
  && mem Cntrl w && Bool.eqb (mem Remote w) s && Bool.eqb (mem (Iface 0) w) (n =? 1).

Lemma cok_ctl : forall i s n w, n <= 1 -> cok s n false w = true ->
  ctl_ok {| c_id := i; c_w := w; c_remote := s; c_copies := n; c_tests := [] |}.
Proof.
  intros i s n w L C. unfold cok in C. do 3 (apply andb_prop in C as [C ?]).
  repeat match goal with H : Bool.eqb _ _ = true |- _ => apply Bool.eqb_prop in H end.
  unfold ctl_ok. cbn [c_w c_remote c_copies]. repeat split.
  - intros k K. rewrite forallb_forall in C. specialize (C k K). rewrite andb_false_l, orb_false_r in C.
    apply mem_in. exact C.
  - assumption.
  - congruence.
  - destruct n as [|[|n]]; [left|right|lia]; auto.
Qed.

Lemma cok_drop : forall s n w k, (k = Pf \/ k = Remote) -> cok s n true w = true ->
  forall x, x <> k -> mem x (remove kind_eq_dec k w) = mem x w.
Proof.
  intros s n w k _ _ x N. rewrite mem_remove. destruct (kind_eq_dec x k); [congruence|reflexivity].
Qed.

(** the label error of OWPControlOpen and OWPControlAccept *)
Lemma open_fail_ok : forall i s m n w h, n <= 1 -> cok s n true w = true -> (m = true -> s = true) ->
  content (give Pf i w ++ (if s && negb m then [Give (Remote, i)] else []) ++ own_close i w m n)
          (upd i w h) (upd i [] h).
Proof.
  intros i s m n w h L C MS.
  assert (Q : mem Remote w = s).
  { unfold cok in C. apply andb_prop in C as [C _]. apply andb_prop in C as [_ C].
    apply Bool.eqb_prop in C. exact C. }
  set (w1 := remove kind_eq_dec Pf w).
  set (w2 := if s && negb m then remove kind_eq_dec Remote w1 else w1).
  assert (E : own_close i w m n = own_close i w2 m n).
  { unfold own_close, control_close, give. cbn [c_id c_w c_remote c_copies c_tests].
    assert (X : forall k, k <> Pf -> k <> Remote -> mem k w2 = mem k w).
    { intros k A B. unfold w2, w1. destruct (s && negb m); rewrite ?mem_remove;
        repeat (destruct (kind_eq_dec _ _); [congruence|]); reflexivity. }
    rewrite !X by discriminate. reflexivity. }
  rewrite E.
  eapply content_app; [apply give_opt; [discriminate|reflexivity]|]. fold w1.
  eapply content_app.
  { instantiate (1 := upd i w2 h). unfold w2. destruct (s && negb m) eqn:SM.
    - apply give_ok; [discriminate|]. unfold w1. rewrite mem_remove.
      destruct (kind_eq_dec _ _); [discriminate|]. rewrite Q. apply andb_prop in SM. tauto.
    - apply content_nil. intros o; reflexivity. }
  apply own_close_ok.
  replace m with (mem Remote w2).
  - apply cok_ctl; [exact L|]. unfold cok in C |- *. do 3 (apply andb_prop in C as [C ?]).
    rewrite Bool.eqb_reflx.
    assert (X : forall k, k <> Pf -> k <> Remote -> mem k w2 = mem k w).
    { intros k A B. unfold w2, w1. destruct (s && negb m); rewrite ?mem_remove;
        repeat (destruct (kind_eq_dec _ _); [congruence|]); reflexivity. }
    rewrite !X by discriminate. rewrite !andb_true_iff. repeat split; auto.
    apply forallb_forall. intros k K.
    assert (K1 : In k w1).
    { unfold w2 in K. destruct (s && negb m); [apply in_remove in K; tauto|exact K]. }
    unfold w1 in K1. apply in_remove in K1 as [K1 N]. rewrite forallb_forall in C.
    specialize (C k K1). unfold eqk in C. destruct (kind_eq_dec k Pf); [congruence|].
    rewrite andb_false_r in C. rewrite andb_false_l. exact C.
  - unfold w2, w1. destruct s, m; cbn [andb negb]; rewrite ?mem_remove;
      repeat (destruct (kind_eq_dec _ _); try congruence); auto.
    discriminate (MS eq_refl).
Qed.

Lemma alloc_ok : forall i af w, (forall n, af n = false) ->
  build alloc_steps i af 0 w
  = (RecvH :: SendH :: CTable :: Cntrl :: w,
     [Get (Cntrl, i); Get (CTable, i); Get (SendH, i); Get (RecvH, i)], true).
Proof. intros i af w A. unfold alloc_steps. cbn. rewrite !A. reflexivity. Qed.

Definition room (x : outcome (option ctl)) : list kind :=
  match x with Done (Some c) => c_w c | _ => [] end.

Lemma accept_ok : forall i af f h x es, (forall n, af n = false) ->
  control_accept i af f = (x, es) ->
  x <> Crash /\ content es (upd i [] h) (upd i (room x) h) /\
  (forall c, x = Done (Some c) -> c_id c = i /\ ctl_ok c /\ c_tests c = []).
Proof.
  intros i af f h x es A E. unfold control_accept in E. rewrite alloc_ok in E by exact A.
  cbn [negb] in E.
  set (w := [RecvH; SendH; CTable; Cntrl]) in *.
  destruct (build accept_steps i f 0 w) as [[w2 es2] b] eqn:B.
  assert (C0 : content [Get (Cntrl, i); Get (CTable, i); Get (SendH, i); Get (RecvH, i)]
                 (upd i [] h) (upd i w h)).
  { assert (B0 : build alloc_steps i (fun _ => false) 0 [] = (w,
      [Get (Cntrl, i); Get (CTable, i); Get (SendH, i); Get (RecvH, i)], true)) by reflexivity.
    eapply build_ok; [|exact B0]. reflexivity. }
  assert (C1 : content es2 (upd i w h) (upd i w2 h)).
  { eapply build_ok; [|exact B]. reflexivity. }
  assert (K : cok (mem Remote w2) 0 true w2 = true /\ (b = true -> cok (mem Remote w2) 0 false w2 = true)).
  { pose (P := fun x : list kind * bool =>
      cok (mem Remote (fst x)) 0 true (fst x) && (negb (snd x) || cok (mem Remote (fst x)) 0 false (fst x))).
    assert (PP : P (w2, b) = true) by (eapply build_all; [|exact B]; vm_compute; reflexivity).
    unfold P in PP. cbn [fst snd] in PP. apply andb_prop in PP as [P1 P2]. split; [exact P1|].
    intros ->. exact P2. }
  destruct K as [K1 K2].
  destruct b; injection E as <- <-.
  - split; [discriminate|]. split; [exact (content_app _ _ _ _ _ C0 C1)|].
    intros c Q. injection Q as <-. split; [reflexivity|]. split; [|reflexivity].
    apply cok_ctl; [lia|auto].
  - split; [discriminate|]. split; [|discriminate].
    refine (content_app _ _ _ _ _ C0 _). eapply content_app; [exact C1|].
    pose proof (open_fail_ok i (mem Remote w2) (mem Remote w2) 0 w2 h ltac:(lia) K1 (fun x => x)) as F.
    rewrite andb_negb_r in F. exact F.
Qed.

Lemma open_ok : forall o i af f h x es, (forall n, af n = false) ->
  (o_iface o = true -> copying (o_tries o) <= 1) ->
  control_open o i af f = (x, es) ->
  x <> Crash /\ content es (upd i [] h) (upd i (room x) h) /\
  (forall c, x = Done (Some c) -> c_id c = i /\ ctl_ok c /\ c_tests c = []).
Proof.
  intros o i af f h x es A L E. unfold control_open in E. rewrite alloc_ok in E by exact A.
  cbn [negb] in E.
  set (w0 := if o_server o then [Remote] else []) in *.
  set (w := RecvH :: SendH :: CTable :: Cntrl :: w0) in *.
  set (es0 := if o_server o then [Get (Remote, i)] else []) in *.
  set (es1 := [Get (Cntrl, i); Get (CTable, i); Get (SendH, i); Get (RecvH, i)]) in *.
  assert (C01 : content (es0 ++ es1) (upd i [] h) (upd i w h)).
  { eapply content_app; [instantiate (1 := upd i w0 h)|].
    - unfold es0, w0. destruct (o_server o);
        [apply get_ok; reflexivity|apply content_nil; intros z; reflexivity].
    - assert (B0 : build alloc_steps i (fun _ => false) 0 w0 = (w, es1, true)) by reflexivity.
      eapply build_ok; [|exact B0]. unfold w0. destruct (o_server o); reflexivity. }
  destruct (if negb (o_server o) then (false, 0, false, [])
            else if o_direct o then (true, 0, true, [])
            else connect i (o_iface o) (o_tries o) false 0) as [[[m n] b] es2] eqn:CN.
  assert (N : ((es2 = [] /\ n = 0) \/ (es2 = [Get (Iface 0, i)] /\ n = 1 /\ o_direct o = false)) /\ (b = true -> m = true)
              /\ (o_server o = false -> b = false /\ m = false)).
  { destruct (o_server o); cbn [negb] in CN.
    - destruct (o_direct o); [injection CN as <- <- <- <-; repeat split; auto; discriminate|].
      destruct (o_iface o).
      + apply connect_once in CN as [N1 N2]; [|auto]. repeat split; try discriminate; auto.
        destruct N1 as [?|[? ?]]; auto.
      + apply connect_plain in CN as (-> & -> & N2). repeat split; try discriminate; auto.
    - injection CN as <- <- <- <-. repeat split; auto; discriminate. }
  destruct N as (N1 & N2 & N3).
  assert (LN : n <= 1) by (destruct N1 as [[_ ->]|[_ [-> _]]]; lia).
  assert (MS : m = true -> o_server o = true).
  { intros ->. destruct (o_server o); [reflexivity|]. destruct (N3 eq_refl). discriminate. }
  set (wi := match n with 0 => w | S k => Iface k :: w end) in *.
  assert (WI : wi = if n =? 1 then Iface 0 :: w else w).
  { unfold wi. destruct n as [|[|n]]; [reflexivity|reflexivity|lia]. }
  clearbody wi.
  assert (C2 : content es2 (upd i w h) (upd i wi h)).
  { rewrite WI. destruct N1 as [[-> ->]|[-> [-> _]]]; cbn [Nat.eqb].
    - apply content_nil. intros z; reflexivity.
    - apply get_ok. unfold w, w0. destruct (o_server o); reflexivity. }
  destruct b; cbn [negb] in E.
  - rewrite (N2 eq_refl) in *. specialize (MS eq_refl).
    set (local := negb (o_direct o)) in *.
    set (wl := if local then Local :: wi else wi) in *.
    assert (CL : content (if local then [Get (Local, i)] else []) (upd i wi h) (upd i wl h)).
    { unfold wl. destruct local; [apply get_ok|apply content_nil; intros z; reflexivity].
      rewrite WI. unfold w, w0. destruct (n =? 1), (o_server o); reflexivity. }
    destruct (build (client_steps local) i f 0 wl) as [[w2 es3] b2] eqn:B.
    assert (C3 : content es3 (upd i wl h) (upd i w2 h)).
    { eapply build_ok; [|exact B]. unfold wl. rewrite WI. unfold w, w0. rewrite MS.
      destruct local, (n =? 1); vm_compute; reflexivity. }
    assert (K : cok true n true w2 = true /\ (b2 = true -> cok true n false w2 = true)).
    { pose (P := fun x : list kind * bool =>
        cok true n true (fst x) && (negb (snd x) || cok true n false (fst x))).
      assert (PP : P (w2, b2) = true).
      { eapply build_all; [|exact B]. unfold wl. rewrite WI. unfold w, w0. rewrite MS.
        unfold P, cok. destruct local, (n =? 1); vm_compute; reflexivity. }
      unfold P in PP. cbn [fst snd] in PP. apply andb_prop in PP as [P1 P2]. split; [exact P1|].
      intros ->. exact P2. }
    destruct K as [K1 K2].
    assert (CC : content (es0 ++ es1 ++ es2 ++ (if local then [Get (Local, i)] else []) ++ es3)
                   (upd i [] h) (upd i w2 h)).
    { rewrite app_assoc. eapply content_app; [exact C01|]. eapply content_app; [exact C2|].
      eapply content_app; [exact CL|exact C3]. }
    destruct b2; injection E as <- <-.
    + split; [discriminate|]. split; [exact CC|].
      intros c Q. injection Q as <-. split; [reflexivity|]. split; [|reflexivity].
      apply cok_ctl; auto.
    + split; [discriminate|]. split; [|discriminate].
      eapply content_app; [exact CC|]. rewrite MS.
      pose proof (open_fail_ok i true true n w2 h LN K1 (fun x => x)) as F. exact F.
  - injection E as <- <-. split; [discriminate|]. split; [|discriminate].
    assert (CF : content (es0 ++ es1 ++ es2) (upd i [] h) (upd i wi h)).
    { rewrite app_assoc. eapply content_app; [exact C01|exact C2]. }
    refine (content_app _ _ _ _ _ CF _).
    apply open_fail_ok; [exact LN| |exact MS].
    rewrite WI. unfold cok, w, w0. destruct N1 as [[_ ->]|[_ [-> _]]], (o_server o); vm_compute; reflexivity.
Qed.

(** *** Histories *)

Fixpoint owned (us : list (nat * list kind)) : world :=
  match us with [] => nothing | (i, w) :: r => upd i w (owned r) end.

Definition ids (us : list (nat * list kind)) : list nat := map fst us.

Lemma owned_fresh : forall us i k, ~ In i (ids us) -> owned us (k, i) = false.
Proof.
  induction us as [|[j w] r IH]; intros i k N; [reflexivity|]. cbn in N |- *. unfold upd. cbn [fst snd].
  destruct (Nat.eqb_spec i j); [subst; tauto|]. apply IH. tauto.
Qed.

Lemma owned_nil : forall us i, ~ In i (ids us) -> same (upd i [] (owned us)) (owned us).
Proof.
  intros us i N [k j]. unfold upd. cbn [fst snd]. destruct (Nat.eqb_spec j i); [|reflexivity].
  subst. symmetry. apply owned_fresh. exact N.
Qed.

Require Import Permutation.

Lemma upd_cong : forall i w h g, same h g -> same (upd i w h) (upd i w g).
Proof. intros i w h g Q [k j]. unfold upd. cbn. destruct (j =? i); [reflexivity|apply Q]. Qed.

Lemma owned_perm : forall us vs, Permutation us vs -> NoDup (ids us) -> same (owned us) (owned vs).
Proof.
  induction 1 as [|[i w] a b P IH|[i w] [j v] a|a b c P1 IH1 P2 IH2]; intros D.
  - intros o; reflexivity.
  - cbn. apply upd_cong, IH. inversion D; assumption.
  - cbn. intros [k n]. unfold upd. cbn.
    destruct (Nat.eqb_spec n i), (Nat.eqb_spec n j); try reflexivity.
    subst. inversion D as [|? ? X]. cbn in X. subst. exfalso. apply X. left. congruence.
  - intros o. rewrite IH1 by exact D. apply IH2. eapply Permutation_NoDup; [|exact D].
    apply Permutation_map. exact P1.
Qed.

Lemma NoDup_app_r' : forall (a b : list nat), NoDup (a ++ b) -> NoDup b.
Proof. induction a; intros b D; [exact D|]. inversion D. auto. Qed.

Lemma NoDup_app_disj' : forall (a b : list nat) i, NoDup (a ++ b) -> In i a -> In i b -> False.
Proof.
  induction a as [|x a IH]; intros b i D I J; [destruct I|]. inversion D as [|? ? N D']. subst.
  destruct I as [->|I]; [apply N, in_or_app; auto|eauto].
Qed.

Lemma NoDup_app_intro' : forall (a b : list nat), NoDup a -> NoDup b ->
  (forall i, In i a -> In i b -> False) -> NoDup (a ++ b).
Proof.
  induction a as [|x a IH]; intros b A B N; [exact B|]. inversion A as [|? ? M A']. subst.
  cbn. constructor.
  - intros I. apply in_app_or in I as [I|I]; [contradiction|]. apply (N x); [left; reflexivity|exact I].
  - apply IH; auto. intros i I J. apply (N i); [right; exact I|exact J].
Qed.

Definition good_tests (ts : list (nat * list kind)) : Prop := Forall (fun t => sound (snd t)) ts.

Lemma free_tests_ok : forall v ts r, good_tests ts -> NoDup (ids (ts ++ r)) ->
  content (flat_map (fun t => session_free (fst t) (snd t) v) ts) (owned (ts ++ r)) (owned r).
Proof.
  induction ts as [|[i w] ts IH]; intros r G D.
  { apply content_nil. intros o; reflexivity. }
  cbn [flat_map app]. inversion G as [|? ? [R I] G']. inversion D as [|? ? F D']. subst. cbn [snd] in *.
  eapply content_app; [|apply IH; assumption].
  eapply content_same; [intros o; reflexivity| |apply session_free_ok; assumption].
  apply owned_nil. exact F.
Qed.

Definition unit (c : ctl) : list (nat * list kind) := c_tests c ++ [(c_id c, c_w c)].
Definition units (cs : list ctl) : list (nat * list kind) := flat_map unit cs.

Lemma close_ok : forall c r, ctl_ok (set_tests c []) -> good_tests (c_tests c) -> NoDup (ids (unit c ++ r)) ->
  content (control_close c) (owned (unit c ++ r)) (owned r).
Proof.
  intros c r K G D. rewrite close_split. unfold unit in *. rewrite <- app_assoc in *. cbn [app] in *.
  eapply content_app; [apply free_tests_ok; assumption|].
  eapply content_same; [intros o; reflexivity| |apply own_close_ok; exact K].
  apply owned_nil. unfold ids in D. rewrite map_app in D. apply NoDup_remove_2 in D.
  intros I. apply D. apply in_or_app. right. exact I.
Qed.

(** what is true of the state between two calls *)
Definition inv (base : list (nat * list kind)) (l : lib) : Prop :=
  Forall (fun c => ctl_ok (set_tests c []) /\ good_tests (c_tests c)) (l_ctls l) /\
  NoDup (ids (units (l_ctls l) ++ base)) /\
  Forall (fun i => i < l_next l) (ids (units (l_ctls l) ++ base)).

(** an operation that the theorem below is about *)
Definition usual (o : op) : Prop :=
  match o with
  | Open p af _ => (forall n, af n = false) /\ (o_iface p = true -> copying (o_tries p) <= 1)
  | Accept af _ => forall n, af n = false
  | Fetch _ _ _ noaddr => noaddr = false
  | _ => True
  end.

Lemma next_fresh : forall l base, inv base l -> ~ In (l_next l) (ids (units (l_ctls l) ++ base)).
Proof.
  intros l base (_ & _ & B) I. rewrite Forall_forall in B. specialize (B _ I). lia.
Qed.

Lemma fresh_content : forall us i w es,
  ~ In i (ids us) ->
  (forall h, content es (upd i [] h) (upd i w h)) ->
  content es (owned us) (owned ((i, w) :: us)).
Proof.
  intros us i w es N C. eapply content_same; [apply owned_nil; exact N| |apply C].
  intros o; reflexivity.
Qed.

Lemma units_app : forall a b, units (a ++ b) = units a ++ units b.
Proof. intros. apply flat_map_app. Qed.

Lemma nth_split_put : forall (l : list ctl) n c, nth_error l n = Some c ->
  exists a b, l = a ++ c :: b /\ forall x, put n x l = a ++ (match x with Some y => [y] | None => [] end) ++ b.
Proof.
  induction l as [|y r IH]; intros n c E; [destruct n; discriminate|].
  destruct n as [|n]; cbn in E.
  - injection E as <-. exists [], r. split; [reflexivity|]. intros [z|]; reflexivity.
  - destruct (IH _ _ E) as (a & b & -> & P). exists (y :: a), b. split; [reflexivity|].
    intros x. cbn. rewrite P. reflexivity.
Qed.

Lemma front : forall a c b base, Permutation (units (a ++ c :: b) ++ base) (unit c ++ units (a ++ b) ++ base).
Proof.
  intros a c b base. rewrite !units_app. cbn [units flat_map]. fold (units b).
  rewrite <- !app_assoc. apply Permutation_app_swap_app.
Qed.

Lemma ids_perm : forall a b, Permutation a b -> Permutation (ids a) (ids b).
Proof. intros. apply Permutation_map. assumption. Qed.

Lemma inv_open : forall base l i c, inv base l -> i = l_next l -> c_id c = i -> ctl_ok c -> c_tests c = [] ->
  inv base {| l_ctls := c :: l_ctls l; l_next := S i |}.
Proof.
  intros base l i c I -> E K T. pose proof (next_fresh _ _ I) as F. destruct I as (A & B & C).
  assert (U : unit c = [(l_next l, c_w c)]) by (unfold unit; rewrite T, E; reflexivity).
  repeat split; cbn [l_ctls l_next units flat_map]; fold (units (l_ctls l)).
  - constructor; [|exact A]. split; [|rewrite T; constructor].
    destruct c as [ci cw cm cn ct]. cbn in T |- *. subst ct. exact K.
  - rewrite U. cbn. constructor; assumption.
  - rewrite U. cbn. constructor; [lia|]. eapply Forall_impl; [|exact C]. cbn. intros; lia.
Qed.

Lemma inv_next : forall base l, inv base l -> inv base {| l_ctls := l_ctls l; l_next := S (l_next l) |}.
Proof.
  intros base l (A & B & C). repeat split; cbn; auto. eapply Forall_impl; [|exact C]. cbn. intros; lia.
Qed.

(** replacing the sessions of a connection *)
Lemma inv_put : forall base l n c x next,
  inv base l -> nth_error (l_ctls l) n = Some c -> l_next l <= next ->
  (match x with
   | None => True
   | Some ts => good_tests ts /\
       NoDup (ids (ts ++ [(c_id c, c_w c)])) /\
       (forall i, In i (ids ts) -> In i (ids (c_tests c)) \/ (i = l_next l /\ l_next l < next))
   end) ->
  inv base {| l_ctls := put n (option_map (set_tests c) x) (l_ctls l); l_next := next |}.
Proof.
  intros base l n c x next I E L X. pose proof (next_fresh _ _ I) as F. destruct I as (A & B & C).
  destruct (nth_split_put _ _ _ E) as (a & b & Q & P). rewrite P. rewrite Q in A, B, C, F. clear P.
  pose proof (front a c b base) as R.
  assert (RI := ids_perm _ _ R).
  apply (Permutation_NoDup RI) in B.
  assert (C' : Forall (fun i => i < l_next l) (ids (unit c ++ units (a ++ b) ++ base))).
  { rewrite Forall_forall in C |- *. intros i Hi. apply C. eapply Permutation_in; [symmetry; exact RI|exact Hi]. }
  assert (F' : ~ In (l_next l) (ids (unit c ++ units (a ++ b) ++ base))).
  { intros Hi. apply F. eapply Permutation_in; [symmetry; exact RI|exact Hi]. }
  apply Forall_app in A as [A1 A2]. inversion A2 as [|? ? [K G] A3]. subst.
  destruct x as [ts|]; cbn [option_map].
  - destruct X as (G' & N' & S').
    assert (S'' : forall i, In i (ids (unit (set_tests c ts))) -> In i (ids (unit c)) \/ (i = l_next l /\ l_next l < next)).
    { intros i Hi. unfold unit, ids in *. cbn [c_tests c_id c_w set_tests] in *.
      rewrite map_app in *. apply in_app_or in Hi as [Hi|Hi].
      - destruct (S' _ Hi) as [Z|Z]; [left; apply in_or_app; left; exact Z|right; exact Z].
      - left. apply in_or_app. right. exact Hi. }
    assert (R2 : Permutation (ids (units (a ++ [set_tests c ts] ++ b) ++ base))
                             (ids (unit (set_tests c ts) ++ units (a ++ b) ++ base))).
    { apply ids_perm. exact (front a (set_tests c ts) b base). }
    repeat split; cbn [l_ctls l_next].
    + apply Forall_app. split; [exact A1|]. cbn. constructor; [|exact A3]. split; [exact K|exact G'].
    + eapply Permutation_NoDup; [symmetry; exact R2|].
      unfold ids in *. rewrite !map_app in *. fold (ids (unit c)) in *.
      (* no number of the sessions is used elsewhere *)
      apply NoDup_app_intro'.
      * unfold unit. cbn [c_tests c_id c_w set_tests]. rewrite map_app in *. exact N'.
      * apply NoDup_app_r' in B. exact B.
      * intros i Hi Hj. destruct (S'' i Hi) as [Z|[-> _]].
        -- eapply NoDup_app_disj'; [exact B|exact Z|exact Hj].
        -- apply F'. apply in_or_app. right. exact Hj.
    + rewrite Forall_forall. intros i Hi. apply (Permutation_in _ R2) in Hi.
      rewrite Forall_forall in C'. unfold ids in Hi, C'. rewrite map_app in Hi, C'.
      apply in_app_or in Hi as [Hi|Hi].
      * destruct (S'' i Hi) as [Z|[-> Z]]; [|exact Z].
        assert (i < l_next l) by (apply C', in_or_app; left; exact Z). lia.
      * assert (i < l_next l) by (apply C', in_or_app; right; exact Hi). lia.
  - cbn [app]. repeat split; cbn [l_ctls l_next].
    + apply Forall_app. split; assumption.
    + unfold ids in *. rewrite map_app in B. apply NoDup_app_r' in B. exact B.
    + rewrite Forall_forall. intros i Hi. rewrite Forall_forall in C'.
      assert (i < l_next l) by (apply C'; unfold ids in *; rewrite map_app; apply in_or_app; right; exact Hi).
      lia.
Qed.

Lemma link_ok : forall base l n c r es,
  inv base l -> nth_error (l_ctls l) n = Some c ->
  (forall h, content es (upd (l_next l) [] h) (upd (l_next l) (held r) h)) ->
  (forall w, r = Some w -> sound w) ->
  inv base (link l n c r) /\
  content es (owned (units (l_ctls l) ++ base)) (owned (units (l_ctls (link l n c r)) ++ base)).
Proof.
  intros base l n c r es I E C SO. pose proof (next_fresh _ _ I) as F.
  unfold link. destruct r as [w|]; cbn [held l_ctls] in *.
  - destruct (nth_split_put _ _ _ E) as (a & b & Q & P).
    assert (R : Permutation ((l_next l, w) :: units (l_ctls l) ++ base)
      (units (put n (Some (set_tests c ((l_next l, w) :: c_tests c))) (l_ctls l)) ++ base)).
    { rewrite P, Q. cbn [app]. rewrite (front a c b base).
      rewrite (front a (set_tests c ((l_next l, w) :: c_tests c)) b base). reflexivity. }
    assert (D : NoDup (ids ((l_next l, w) :: units (l_ctls l) ++ base))).
    { cbn. constructor; [exact F|apply I]. }
    split.
    + apply (inv_put base l n c (Some ((l_next l, w) :: c_tests c)) (S (l_next l)) I E); [lia|].
      destruct I as (A & B & _).
      assert (IC : In c (l_ctls l)) by (eapply nth_error_In; exact E).
      rewrite Forall_forall in A. destruct (A _ IC) as [_ G].
      repeat split.
      * constructor; [apply SO; reflexivity|exact G].
      * rewrite Q in B, F. pose proof (ids_perm _ _ (front a c b base)) as RI.
        apply (Permutation_NoDup RI) in B. cbn. constructor.
        -- intros Hi. apply F. eapply Permutation_in; [symmetry; exact RI|].
           unfold ids. rewrite map_app. apply in_or_app. left. exact Hi.
        -- fold (unit c). unfold ids in *. rewrite map_app in B.
           clear - B. induction (map fst (unit c)) as [|x y IH]; [constructor|].
           inversion B as [|? ? N' B']. subst. constructor; [|auto].
           intros Hx. apply N', in_or_app. left. exact Hx.
      * intros i [Hi|Hi]; [right; cbn in Hi; subst; split; [reflexivity|lia]|left; exact Hi].
    + eapply content_same; [intros o; reflexivity|apply (owned_perm _ _ R D)|].
      apply fresh_content; assumption.
  - split; [apply inv_next; exact I|].
    eapply content_same; [intros o; reflexivity| |apply fresh_content; [exact F|exact C]].
    apply owned_nil. exact F.
Qed.

Lemma do_op_ok : forall base l o x es, inv base l -> usual o -> do_op l o = (x, es) ->
  exists l', x = Done l' /\ inv base l' /\
             content es (owned (units (l_ctls l) ++ base)) (owned (units (l_ctls l') ++ base)).
Proof.
  intros base l o x es I U E. pose proof (next_fresh _ _ I) as F.
  assert (Z : forall es', content es' (owned (units (l_ctls l) ++ base)) (owned (units (l_ctls l) ++ base)) ->
    exists l', Done {| l_ctls := l_ctls l; l_next := S (l_next l) |} = Done l' /\ inv base l' /\
      content es' (owned (units (l_ctls l) ++ base)) (owned (units (l_ctls l') ++ base))).
  { intros es' C. eexists. split; [reflexivity|]. split; [apply inv_next; exact I|exact C]. }
  assert (OP : forall y es', y <> Crash ->
    (forall h, content es' (upd (l_next l) [] h) (upd (l_next l) (room y) h)) ->
    (forall c, y = Done (Some c) -> c_id c = l_next l /\ ctl_ok c /\ c_tests c = []) ->
    match (y, es') with
    | (Crash, e) => (Crash, e)
    | (Done None, e) => (Done {| l_ctls := l_ctls l; l_next := S (l_next l) |}, e)
    | (Done (Some c), e) => (Done {| l_ctls := c :: l_ctls l; l_next := S (l_next l) |}, e)
    end = (x, es) ->
    exists l', x = Done l' /\ inv base l' /\
             content es (owned (units (l_ctls l) ++ base)) (owned (units (l_ctls l') ++ base))).
  { intros y es' NC C K Q. destruct y as [[c|]|]; [| |congruence].
    - injection Q as <- <-. destruct (K c eq_refl) as (K1 & K2 & K3).
      eexists. split; [reflexivity|]. split; [eapply inv_open; eauto|].
      cbn [l_ctls units flat_map]. unfold unit at 1. rewrite K3, K1. cbn [app].
      apply fresh_content; assumption.
    - injection Q as <- <-. apply Z.
      eapply content_same; [intros o'; reflexivity| |apply fresh_content; [exact F|exact C]].
      apply owned_nil. exact F. }
  assert (NO : forall n (f : ctl -> outcome lib * list event),
    (forall c, nth_error (l_ctls l) n = Some c -> f c = (x, es) ->
       exists l', x = Done l' /\ inv base l' /\
         content es (owned (units (l_ctls l) ++ base)) (owned (units (l_ctls l') ++ base))) ->
    match nth_error (l_ctls l) n with Some c => f c | None => (Done l, []) end = (x, es) ->
    exists l', x = Done l' /\ inv base l' /\
      content es (owned (units (l_ctls l) ++ base)) (owned (units (l_ctls l') ++ base))).
  { intros n f K Q. destruct (nth_error (l_ctls l) n) as [c|]; [eauto|].
    injection Q as <- <-. exists l. split; [reflexivity|]. split; [exact I|].
    apply content_nil. intros o'; reflexivity. }
  destruct o; cbn [do_op] in E.
  - destruct U as [U1 U2]. destruct (control_open o (l_next l) afails fails) as [y es'] eqn:O.
    assert (OK := fun h => open_ok _ _ _ _ h _ _ U1 U2 O).
    apply (OP y es'); [apply (OK nothing)|intros h; apply (OK h)|apply (OK nothing)|].
    destruct y as [[c|]|]; exact E.
  - destruct (control_accept (l_next l) afails fails) as [y es'] eqn:O. cbn [usual] in U.
    assert (OK := fun h => accept_ok _ _ _ h _ _ U O).
    apply (OP y es'); [apply (OK nothing)|intros h; apply (OK h)|apply (OK nothing)|].
    destruct y as [[c'|]|]; exact E.
  - revert E. apply NO. intros c0 N. destruct (session_request q (l_next l) fails) as [r es'] eqn:O.
    intros E. injection E as <- <-.
    assert (OK := fun h => request_ok _ _ _ h _ _ O).
    eexists. split; [reflexivity|]. apply link_ok; auto; [intros h; apply (OK h)|apply (OK nothing)].
  - revert E. apply NO. intros c0 N. destruct (serve_request q (l_next l) fails acceptval) as [r es'] eqn:O.
    intros E. injection E as <- <-.
    assert (OK := fun h => serve_ok _ _ _ _ h _ _ O).
    eexists. split; [reflexivity|]. apply link_ok; auto; [intros h; apply (OK h)|apply (OK nothing)].
  - revert E. apply NO. intros c0 N E. injection E as <- <-. cbn [usual] in U. subst noaddr. apply Z.
    eapply content_same; [| |apply (fetch_ok big (l_next l) fails (owned (units (l_ctls l) ++ base)))];
      apply owned_nil; exact F.
  - revert E. apply NO. intros c0 N E. injection E as <- <-.
    destruct (nth_split_put _ _ _ N) as (a & b & Q & P).
    eexists. split; [reflexivity|].
    destruct I as (A & B & C). assert (I : inv base l) by (repeat split; assumption).
    assert (IC : In c0 (l_ctls l)) by (eapply nth_error_In; exact N).
    pose proof (proj1 (Forall_forall _ _) A _ IC) as [K G]. clear A C.
    rewrite Q in B. pose proof (ids_perm _ _ (front a c0 b base)) as RI.
    pose proof (Permutation_NoDup RI B) as B'.
    split.
    + apply (inv_put base l c c0 (Some []) (l_next l) I N); [lia|]. repeat split.
      * constructor.
      * cbn. constructor; [intros []|constructor].
      * intros i [].
    + cbn [l_ctls]. rewrite P, Q. cbn [app].
      assert (R0 := front a c0 b base). assert (R1 := front a (set_tests c0 []) b base).
      unfold unit at 1 in R0. rewrite <- app_assoc in R0. cbn [app] in R0.
      unfold unit at 1 in R1. cbn [set_tests c_tests c_id c_w app] in R1.
      assert (D0 : NoDup (ids (c_tests c0 ++ (c_id c0, c_w c0) :: units (a ++ b) ++ base))).
      { eapply Permutation_NoDup; [apply ids_perm; exact R0|exact B]. }
      eapply content_same; [| |apply (free_tests_ok v (c_tests c0) ((c_id c0, c_w c0) :: units (a ++ b) ++ base)); assumption].
      * intros o'. symmetry. apply owned_perm; [exact R0|exact B].
      * apply owned_perm; [symmetry; exact R1|]. unfold ids in D0. rewrite map_app in D0.
        apply NoDup_app_r' in D0. exact D0.
  - revert E. apply NO. intros c0 N E. injection E as <- <-.
    destruct (nth_split_put _ _ _ N) as (a & b & Q & P).
    eexists. split; [reflexivity|].
    destruct I as (A & B & C). assert (I : inv base l) by (repeat split; assumption).
    assert (IC : In c0 (l_ctls l)) by (eapply nth_error_In; exact N).
    pose proof (proj1 (Forall_forall _ _) A _ IC) as [K G]. clear A C.
    split; [apply (inv_put base l c c0 None (l_next l) I N); [lia|exact Logic.I]|].
    cbn [l_ctls]. rewrite P, Q in *. cbn [app].
    assert (R0 := front a c0 b base).
    eapply content_same; [| |apply (close_ok c0 (units (a ++ b) ++ base)); [exact K|exact G|]].
    + intros o'. symmetry. apply owned_perm; [exact R0|exact B].
    + intros o'. reflexivity.
    + eapply Permutation_NoDup; [apply ids_perm; exact R0|exact B].
Qed.

Lemma do_ops_ok : forall base os l x es, inv base l -> Forall usual os -> do_ops l os = (x, es) ->
  exists l', x = Done l' /\ inv base l' /\
             content es (owned (units (l_ctls l) ++ base)) (owned (units (l_ctls l') ++ base)).
Proof.
  induction os as [|o r IH]; intros l x es I U E; cbn [do_ops] in E.
  - injection E as <- <-. exists l. split; [reflexivity|]. split; [exact I|].
    apply content_nil. intros z; reflexivity.
  - inversion U as [|? ? U1 U2]. subst. destruct (do_op l o) as [y es1] eqn:O.
    destruct (do_op_ok base l o y es1 I U1 O) as (l1 & -> & I1 & C1).
    destruct (do_ops l1 r) as [z es2] eqn:O2. injection E as <- <-.
    destruct (IH _ _ _ I1 U2 O2) as (l2 & -> & I2 & C2).
    exists l2. split; [reflexivity|]. split; [exact I2|]. eapply content_app; eassumption.
Qed.

Lemma close_all_ok : forall base cs,
  Forall (fun c => ctl_ok (set_tests c []) /\ good_tests (c_tests c)) cs ->
  NoDup (ids (units cs ++ base)) ->
  content (flat_map control_close cs) (owned (units cs ++ base)) (owned base).
Proof.
  induction cs as [|c r IH]; intros A D; [apply content_nil; intros o; reflexivity|].
  inversion A as [|? ? [K G] A']. subst. cbn [flat_map units] in *. fold (units r) in *.
  rewrite <- app_assoc in D |- *.
  eapply content_app; [apply close_ok; eassumption|]. apply IH; [exact A'|].
  unfold ids in D. rewrite map_app in D. apply NoDup_app_r' in D. exact D.
Qed.

Definition context_kinds : list kind := [CtxTable; CtxRand; CtxErr; Ctx].

Lemma context_free_ok : forall w h, mem Ctx w = true -> incl w context_kinds ->
  content (context_free w) (upd 0 w h) (upd 0 [] h).
Proof.
  intros w h M I. unfold context_free.
  assert (E3 : [Give (Ctx, 0)] = give Ctx 0 w) by (unfold give; rewrite M; reflexivity).
  rewrite E3.
  repeat (eapply content_app;
    [apply give_opt; [discriminate|];
     rewrite ?mem_remove; repeat (destruct (kind_eq_dec _ _); [discriminate|]); reflexivity|]).
  eapply content_same; [intros o; reflexivity| |apply give_opt; [discriminate|]].
  - apply upd_ext. intros k. apply eq_trans with false; [|reflexivity].
    apply mem_not. intros Q. repeat (apply in_remove in Q as [Q ?]). apply I in Q.
    unfold context_kinds in Q. cbn in Q. intuition congruence.
  - rewrite ?mem_remove. repeat (destruct (kind_eq_dec _ _); [discriminate|]). reflexivity.
Qed.

Lemma create_ok : forall own e1 e2 f h r es, context_create own e1 e2 f = (r, es) ->
  content es (upd 0 [] h) (upd 0 (held r) h) /\
  (forall w, r = Some w -> mem Ctx w = true /\ incl w context_kinds).
Proof.
  intros own e1 e2 f h r es E. unfold context_create in E.
  destruct e1; [injection E as <- <-; split; [apply content_nil; intros o; reflexivity|discriminate]|].
  destruct (own && e2) eqn:OE.
  { injection E as <- <-. split; [|discriminate]. cbn [held].
    eapply content_cons; [apply get_ok; reflexivity|].
    eapply content_same; [intros o; reflexivity| |apply give_ok; [discriminate|reflexivity]].
    intros o; reflexivity. }
  set (w0 := if own then [CtxErr; Ctx] else [Ctx]) in *.
  destruct (build context_steps 0 f 0 w0) as [[w es1] b] eqn:B.
  assert (C0 : content (Get (Ctx, 0) :: (if own then [Get (CtxErr, 0)] else [])) (upd 0 [] h) (upd 0 w0 h)).
  { unfold w0. eapply content_cons; [apply get_ok; reflexivity|].
    destruct own; [apply get_ok; reflexivity|apply content_nil; intros o; reflexivity]. }
  assert (C1 : content es1 (upd 0 w0 h) (upd 0 w h)).
  { eapply build_ok; [|exact B]. unfold w0. destruct own; reflexivity. }
  assert (K : mem Ctx w = true /\ incl w context_kinds).
  { pose (P := fun x : list kind * bool =>
      mem Ctx (fst x) && forallb (fun k => mem k context_kinds) (fst x)).
    assert (PP : P (w, b) = true)
      by (eapply build_all; [|exact B]; unfold w0; destruct own; vm_compute; reflexivity).
    unfold P in PP. cbn [fst] in PP. apply andb_prop in PP as [P1 P2]. split; [exact P1|].
    intros k Hk. rewrite forallb_forall in P2. apply mem_in. auto. }
  pose proof (content_app _ _ _ _ _ C0 C1) as CC. cbn [app] in CC.
  destruct b; injection E as <- <-; cbn [held].
  - split; [exact CC|]. intros x Q. injection Q as <-. exact K.
  - split; [|discriminate]. refine (content_app _ _ _ _ _ CC _). apply context_free_ok; apply K.
Qed.

(** ** C161: what the library acquires is given back

    [life] returns whether the process survived and what happened. *)

(** Whatever an application does with a context and whatever fails, the watchman is content, and in the
    end nothing is left.  Missing: [usual] excludes that a connection record cannot be allocated, that an
    interface is named and more than one address of the server is tried, and that an address record read from
    the server yields no address (see the refutations below). *)
Theorem C161_given_back_partial : forall own e1 e2 cfails os, Forall usual os ->
  exists es, life own e1 e2 cfails os = (true, es) /\ content es nothing nothing.
Proof.
  intros own e1 e2 cfails os U. unfold life.
  destruct (context_create own e1 e2 cfails) as [r es] eqn:E.
  destruct (create_ok _ _ _ _ nothing _ _ E) as [C K].
  assert (N0 : same (upd 0 [] nothing) nothing).
  { intros [k j]. unfold upd. cbn. destruct (j =? 0); reflexivity. }
  destruct r as [w|]; cbn [held] in C.
  - destruct (K w eq_refl) as [K1 K2].
    pose (base := [(0, w)]).
    assert (I : inv base {| l_ctls := []; l_next := 1 |}).
    { repeat split; cbn; repeat constructor; auto. }
    destruct (do_ops {| l_ctls := []; l_next := 1 |} os) as [x es2] eqn:D.
    destruct (do_ops_ok base os _ _ _ I U D) as (l & -> & (A & B & _) & C2).
    eexists. split; [reflexivity|].
    eapply content_app; [eapply content_same; [exact N0| |exact C]; intros o; reflexivity|].
    eapply content_app; [exact C2|].
    eapply content_app; [apply close_all_ok; assumption|].
    cbn [owned base].
    eapply content_same; [intros o; reflexivity| |apply context_free_ok; assumption]. exact N0.
  - eexists. split; [reflexivity|]. eapply content_same; [exact N0|exact N0|exact C].
Qed.

(** If the second part of a connection record cannot be allocated the process dies of a null pointer. *)
Theorem C161_record_refuted : exists os es, life true false false (fun _ => false) os = (false, es).
Proof.
  exists [Accept (fun n => n =? 2) (fun _ => false)]. eexists. vm_compute. reflexivity.
Qed.

Definition left_over (es : list event) (o : obj) : bool :=
  match watch es nothing with Some g => g o | None => false end.

Lemma left_over_spec : forall es o, left_over es o = true -> ~ content es nothing nothing.
Proof.
  intros es o L (g & W & Q). unfold left_over in L. rewrite W, Q in L. discriminate.
Qed.

(** A client that names an interface and whose first attempt to connect fails: a copy of the name is lost
    at each attempt. *)
Theorem C161_interface_refuted : exists os es,
  life true false false (fun _ => false) os = (true, es) /\ ~ content es nothing nothing.
Proof.
  exists [Open {| o_server := true; o_direct := false; o_iface := true; o_tries := [NotConnected; Connected] |}
            (fun _ => false) (fun _ => false); Close 0].
  eexists. split; [vm_compute; reflexivity|].
  apply (left_over_spec _ (Iface 0, 1)). vm_compute. reflexivity.
Qed.

(** A fetch whose session has no address: the record and what belongs to it are lost. *)
Theorem C161_fetch_refuted : exists os es,
  life true false false (fun _ => false) os = (true, es) /\ ~ content es nothing nothing.
Proof.
  exists [Accept (fun _ => false) (fun _ => false); Fetch 0 true (fun _ => false) true; Close 0].
  eexists. split; [vm_compute; reflexivity|].
  apply (left_over_spec _ (Rec, 2)). vm_compute. reflexivity.
Qed.

Definition session_of (tw cs cr cl : bool) : request :=
  {| q_twoway := tw; q_csend := cs; q_crecv := cr; q_sgiven := false; q_rgiven := false;
     q_big := true; q_closure := cl |}.

(** two connections, three sessions, one of which fails at the endpoint, one granted session stopped, one
    still running when the context is freed *)
Example C161_case :
  let os := [Accept (fun _ => false) (fun _ => false);
             Serve 0 (session_of false false true true) (fun _ => false) 2;
             Serve 0 (session_of false true false true) (fun n => n =? 17) 2;
             Stop 0 0;
             Open {| o_server := true; o_direct := false; o_iface := true; o_tries := [NoSocket; Connected] |}
               (fun _ => false) (fun _ => false);
             Request 0 (session_of true false false true) (fun _ => false)] in
  Forall usual os /\ length (snd (life true false false (fun _ => false) os)) = 80.
Proof.
  split; [|vm_compute; reflexivity].
  repeat constructor; cbn; intros; try reflexivity; try lia.
Qed.

(** ** C162: the policy is told of the end of each session *)

Fixpoint grants (i : nat) (es : list event) : nat :=
  match es with
  | [] => 0
  | Get (Grant, j) :: r => (if j =? i then 1 else 0) + grants i r
  | _ :: r => grants i r
  end.

Fixpoint tellings (i : nat) (es : list event) : nat :=
  match es with
  | [] => 0
  | Told j _ :: r => (if j =? i then 1 else 0) + tellings i r
  | _ :: r => tellings i r
  end.

Definition b2n (b : bool) : nat := if b then 1 else 0.

(** the library gives grants back only by telling *)
Definition tells_grants (es : list event) : Prop := forall i, ~ In (Give (Grant, i)) es.

Lemma watch_counts : forall es h g i, tells_grants es -> watch es h = Some g ->
  b2n (h (Grant, i)) + grants i es = b2n (g (Grant, i)) + tellings i es.
Proof.
  induction es as [|e r IH]; intros h g i T W; [injection W as <-; cbn; lia|].
  cbn [watch] in W. destruct (watch1 e h) as [h1|] eqn:W1; [|discriminate].
  assert (T' : tells_grants r) by (intros j J; apply (T j); right; exact J).
  specialize (IH h1 g i T' W).
  assert (OTH : forall o b, fst o <> Grant -> set o b h (Grant, i) = h (Grant, i)).
  { intros o b N. unfold set. destruct (obj_eq_dec _ _) as [Q|_]; [|reflexivity]. subst o. cbn in N. congruence. }
  destruct e as [[k j]|[k j]|j v]; cbn [watch1 grants tellings] in *.
  - destruct (h (k, j)) eqn:H0; [discriminate|]. injection W1 as <-.
    destruct k; try (rewrite OTH in IH by (cbn; discriminate); exact IH).
    unfold set in IH. destruct (obj_eq_dec (Grant, i) (Grant, j)) as [Q|N].
    + injection Q as <-. rewrite Nat.eqb_refl, H0. cbn in *. lia.
    + destruct (Nat.eqb_spec j i); [subst; congruence|]. exact IH.
  - destruct k;
      try (match type of W1 with (if ?b then _ else _) = _ => destruct b end; [|discriminate];
           injection W1 as <-; rewrite OTH in IH by (cbn; discriminate); exact IH).
    exfalso. apply (T j). left. reflexivity.
  - destruct (h (Grant, j)) eqn:H0; [|discriminate]. destruct (h (Endp, j)); [discriminate|].
    cbn in W1. injection W1 as <-. unfold set in IH.
    destruct (obj_eq_dec (Grant, i) (Grant, j)) as [Q|N].
    + injection Q as <-. rewrite Nat.eqb_refl, H0. cbn in *. lia.
    + destruct (Nat.eqb_spec j i); [subst; congruence|]. exact IH.
Qed.


Lemma tg_app : forall a b, tells_grants a -> tells_grants b -> tells_grants (a ++ b).
Proof. intros a b A B i I. apply in_app_or in I as [I|I]; [apply (A i I)|apply (B i I)]. Qed.

Lemma tg_give : forall k i w, k <> Grant -> tells_grants (give k i w).
Proof. intros k i w N j. unfold give. destruct (mem k w); [intros [Q|[]]; congruence|intros []]. Qed.

Lemma tg_free : forall i w v, tells_grants (session_free i w v).
Proof.
  intros i w v. unfold session_free.
  repeat (apply tg_app; [first [apply tg_give; discriminate | destruct (mem Grant w); intros j [Q|[]]; discriminate | destruct (mem Grant w); [intros j [Q|[]]; discriminate|intros j []]]|]).
  intros j [Q|[]]; discriminate.
Qed.

Lemma tg_build : forall st i fails n w w' es b,
  forallb (fun s => match s with Drop k => match k with Grant => false | _ => true end | _ => true end) st = true ->
  build st i fails n w = (w', es, b) -> tells_grants es.
Proof.
  induction st as [|s r IH]; intros i fails n w w' es b F B.
  { cbn in B. injection B as <- <- <-. intros j []. }
  cbn [build forallb] in B, F. apply andb_prop in F as [F1 F2].
  destruct (one s i (fails n) w) as [[w1 es1] go] eqn:O.
  assert (T1 : tells_grants es1).
  { destruct s; cbn [one] in O; try (destruct (fails n)); try (destruct closure); try (destruct (mem k w));
      injection O as <- <- <-; intros j I; cbn in I; repeat destruct I as [I|I]; try discriminate; try exact I.
    all: injection I as -> _; discriminate. }
  destruct go.
  - destruct (build r i fails (S n) w1) as [[w2 es2] b2] eqn:B2. injection B as <- <- <-.
    apply tg_app; [exact T1|]. eapply IH; eassumption.
  - injection B as <- <- <-. exact T1.
Qed.

Lemma tg_flat : forall {A} (f : A -> list event) l, (forall x, tells_grants (f x)) -> tells_grants (flat_map f l).
Proof.
  intros A f l F. induction l as [|x r IH]; cbn; [intros j []|]. apply tg_app; auto.
Qed.

Lemma tg_close : forall c, tells_grants (control_close c).
Proof.
  intros c. unfold control_close. apply tg_app; [apply tg_flat; intros; apply tg_free|].
  repeat (apply tg_app; [first [apply tg_give; discriminate | idtac]|]).
  - destruct (c_remote c); intros j I; cbn in I; intuition discriminate.
  - destruct (c_copies c); intros j I; cbn in I; intuition discriminate.
  - intros j I; cbn in I; intuition discriminate.
Qed.

Lemma tg_error : forall i w v, tells_grants (request_error i w v).
Proof.
  intros i w v. unfold request_error. destruct (mem Rec w); [apply tg_free|].
  apply tg_app; apply tg_give; discriminate.
Qed.

Lemma tg_connect : forall i f ts m n m' n' b es, connect i f ts m n = (m', n', b, es) -> tells_grants es.
Proof.
  induction ts as [|t r IH]; intros m n m' n' b es C; cbn in C.
  { injection C as <- <- <- <-. intros j []. }
  assert (T : tells_grants (if f then [Get (Iface n, i)] else [])).
  { destruct f; intros j I; cbn in I; intuition discriminate. }
  destruct t; try (eapply IH; exact C); try (injection C as <- <- <- <-; exact T);
    match type of C with context [connect i f r ?a ?b] => destruct (connect i f r a b) as [[[m2 n2] b2] es2] eqn:C2 end;
    injection C as <- <- <- <-; (apply tg_app; [exact T|eapply IH; exact C2]).
Qed.

Lemma tg_op : forall l o x es, do_op l o = (x, es) -> tells_grants es.
Proof.
  intros l o x es E.
  assert (NIL : tells_grants []) by (intros j []).
  destruct o; cbn [do_op] in E.
  - destruct (control_open o (l_next l) afails fails) as [y es'] eqn:O.
    assert (T : tells_grants es').
    { unfold control_open in O.
      destruct (build alloc_steps (l_next l) afails 0 _) as [[w es1] ok] eqn:B.
      assert (T1 : tells_grants es1) by (eapply tg_build; [|exact B]; reflexivity).
      assert (T0 : tells_grants (if o_server o then [Get (Remote, l_next l)] else [])).
      { destruct (o_server o); intros j I; cbn in I; intuition discriminate. }
      destruct ok; cbn [negb] in O.
      - destruct (if negb (o_server o) then (false, 0, false, [])
            else if o_direct o then (true, 0, true, [])
            else connect (l_next l) (o_iface o) (o_tries o) false 0) as [[[m n] b] es2] eqn:CN.
        assert (T2 : tells_grants es2).
        { destruct (o_server o); cbn [negb] in CN; [destruct (o_direct o)|].
          - injection CN as <- <- <- <-. exact NIL.
          - eapply tg_connect; exact CN.
          - injection CN as <- <- <- <-. exact NIL. }
        assert (TR : forall b : bool, tells_grants (if b then [Give (Remote, l_next l)] else [])).
        { intros []; intros j I; cbn in I; intuition discriminate. }
        assert (TL : forall b : bool, tells_grants (if b then [Get (Local, l_next l)] else [])).
        { intros []; intros j I; cbn in I; intuition discriminate. }
        destruct b; cbn [negb] in O.
        + match type of O with context [build (client_steps ?a) ?i ?f ?n ?w] =>
            destruct (build (client_steps a) i f n w) as [[w2 es3] ok2] eqn:B3 end.
          assert (T3 : tells_grants es3).
          { eapply tg_build; [|exact B3]. unfold client_steps. destruct (negb (o_direct o)); reflexivity. }
          destruct ok2; injection O as <- <-;
            repeat (apply tg_app; try assumption; try apply TL; try apply TR; try apply tg_close);
            try (apply tg_give; discriminate); try apply TL; try apply TR; try apply tg_close; assumption.
        + injection O as <- <-.
          repeat (apply tg_app; try assumption; try apply TL; try apply TR; try apply tg_close);
            try (apply tg_give; discriminate); try apply TL; try apply TR; try apply tg_close; assumption.
      - injection O as <- <-. unfold alloc_error.
        repeat (apply tg_app; try assumption; try (apply tg_give; discriminate)). }
    destruct y as [[c|]|]; injection E as <- <-; exact T.
  - destruct (control_accept (l_next l) afails fails) as [y es'] eqn:O.
    assert (T : tells_grants es').
    { unfold control_accept in O.
      destruct (build alloc_steps (l_next l) afails 0 []) as [[w es1] ok] eqn:B.
      assert (T1 : tells_grants es1) by (eapply tg_build; [|exact B]; reflexivity).
      destruct ok; cbn [negb] in O.
      - destruct (build accept_steps (l_next l) fails 0 w) as [[w2 es2] ok2] eqn:B2.
        assert (T2 : tells_grants es2) by (eapply tg_build; [|exact B2]; reflexivity).
        destruct ok2; injection O as <- <-;
          repeat (apply tg_app; try assumption; try (apply tg_give; discriminate); try apply tg_close).
      - injection O as <- <-. unfold alloc_error.
        repeat (apply tg_app; try assumption; try (apply tg_give; discriminate)). }
    destruct y as [[c|]|]; injection E as <- <-; exact T.
  - destruct (nth_error (l_ctls l) c) as [c0|]; [|injection E as <- <-; exact NIL].
    destruct (session_request q (l_next l) fails) as [r es'] eqn:O. injection E as <- <-.
    unfold session_request in O.
    destruct (build (request_steps q) (l_next l) fails 0 (handed q)) as [[w es1] b] eqn:B.
    assert (T1 : tells_grants es1).
    { eapply tg_build; [|exact B]. destruct q as [[] [] [] [] [] [] []]; reflexivity. }
    assert (T0 : tells_grants (map (fun k => Get (k, l_next l)) (handed q))).
    { intros j I. apply in_map_iff in I as (k & Q & _). discriminate. }
    destruct b; injection O as <- <-; (apply tg_app; [|try exact T1]); try assumption;
      [apply tg_app; assumption|apply tg_error].
  - destruct (nth_error (l_ctls l) c) as [c0|]; [|injection E as <- <-; exact NIL].
    destruct (serve_request q (l_next l) fails acceptval) as [r es'] eqn:O. injection E as <- <-.
    unfold serve_request in O.
    destruct (build (serve_steps q) (l_next l) fails 0 []) as [[w es1] b] eqn:B.
    destruct (build (removelast (serve_steps q)) (l_next l) fails 0 []) as [[w0 es0] st].
    assert (T1 : tells_grants es1).
    { eapply tg_build; [|exact B]. destruct q as [[] [] [] [] [] [] []]; reflexivity. }
    destruct b; injection O as <- <-; [exact T1|apply tg_app; [exact T1|apply tg_error]].
  - destruct (nth_error (l_ctls l) c) as [c0|]; [|injection E as <- <-; exact NIL].
    injection E as <- <-. unfold fetch.
    destruct (build (read_steps true big) (l_next l) fails 0 []) as [[w es1] b] eqn:B.
    assert (T1 : tells_grants es1).
    { eapply tg_build; [|exact B]. destruct big; reflexivity. }
    destruct b; [destruct noaddr|]; [exact T1| |]; (apply tg_app; [exact T1|]);
      [apply tg_free|apply tg_error].
  - destruct (nth_error (l_ctls l) c) as [c0|]; [|injection E as <- <-; exact NIL].
    injection E as <- <-. apply tg_flat. intros; apply tg_free.
  - destruct (nth_error (l_ctls l) c) as [c0|]; [|injection E as <- <-; exact NIL].
    injection E as <- <-. apply tg_close.
Qed.

Lemma tg_ops : forall os l x es, do_ops l os = (x, es) -> tells_grants es.
Proof.
  induction os as [|o r IH]; intros l x es E; cbn [do_ops] in E; [injection E as <- <-; intros j []|].
  destruct (do_op l o) as [y es1] eqn:O. apply tg_op in O. destruct y as [l1|].
  - destruct (do_ops l1 r) as [z es2] eqn:O2. injection E as <- <-. apply tg_app; eauto.
  - injection E as <- <-. exact O.
Qed.

Lemma tg_life : forall own e1 e2 f os b es, life own e1 e2 f os = (b, es) -> tells_grants es.
Proof.
  intros own e1 e2 f os b es E. unfold life in E.
  destruct (context_create own e1 e2 f) as [r es1] eqn:C.
  assert (T1 : tells_grants es1).
  { unfold context_create in C.
    destruct e1; [injection C as <- <-; intros j []|].
    destruct (own && e2); [injection C as <- <-; intros j I; cbn in I; intuition discriminate|].
    destruct (build context_steps 0 f 0 _) as [[w es2] ok] eqn:B.
    assert (T : tells_grants es2) by (eapply tg_build; [|exact B]; reflexivity).
    assert (T' : tells_grants (Get (Ctx, 0) :: (if own then [Get (CtxErr, 0)] else []) ++ es2)).
    { apply (tg_app [Get (Ctx, 0)]); [intros j I; cbn in I; intuition discriminate|].
      apply tg_app; [destruct own; intros j I; cbn in I; intuition discriminate|exact T]. }
    destruct ok; injection C as <- <-; [exact T'|].
    refine (tg_app _ _ T' _). unfold context_free.
    repeat (apply tg_app; [apply tg_give; discriminate|]). intros j I; cbn in I; intuition discriminate. }
  destruct r as [w|]; [|injection E as <- <-; exact T1].
  destruct (do_ops {| l_ctls := []; l_next := 1 |} os) as [x es2] eqn:D. apply tg_ops in D.
  destruct x as [l|]; injection E as <- <-; (apply tg_app; [exact T1|]); [|exact D].
  apply tg_app; [exact D|]. apply tg_app; [apply tg_flat; apply tg_close|]. unfold context_free.
  repeat (apply tg_app; [apply tg_give; discriminate|]). intros j I; cbn in I; intuition discriminate.
Qed.

(** For each session the policy is told as often as it granted it (and, by the watchman of C161, each time
    after a grant and when the endpoint is gone).  Missing: as in C161. *)
Theorem C162_once_partial : forall own e1 e2 cfails os es i, Forall usual os ->
  life own e1 e2 cfails os = (true, es) -> tellings i es = grants i es.
Proof.
  intros own e1 e2 cfails os es i U E.
  destruct (C161_given_back_partial own e1 e2 cfails os U) as (es' & E' & (g & W & Q)).
  rewrite E in E'. injection E' as <-.
  pose proof (watch_counts es nothing g i (tg_life _ _ _ _ _ _ _ E) W) as C.
  rewrite Q in C. cbn in C. lia.
Qed.

(** The sessions of a connection are stopped: each that was granted is told the outcome of the stop, and
    nothing else is told.  The connection is closed without that: the outcome is "failure". *)
Theorem C162_stopped : forall l n c v es x, nth_error (l_ctls l) n = Some c ->
  do_op l (Stop n v) = (x, es) ->
  forall i u, In (Told i u) es <-> u = v /\ exists w, In (i, w) (c_tests c) /\ In Grant w.
Proof.
  intros l n c v es x N E i u. cbn [do_op] in E. rewrite N in E. injection E as <- <-.
  rewrite in_flat_map. split.
  - intros ([j w] & T & I). cbn [fst snd] in I. unfold session_free, give in I.
    repeat (apply in_app_or in I as [I|I]);
      try (match type of I with In _ (if ?b then _ else _) => destruct b eqn:M end);
      cbn in I; try (destruct I as [I|[]]; discriminate); try contradiction.
    destruct I as [I|[]]. injection I as <- <-. split; [reflexivity|]. exists w.
    split; [exact T|apply mem_in; exact M].
  - intros (-> & w & T & G). exists (i, w). split; [exact T|]. cbn [fst snd]. unfold session_free.
    apply in_or_app. right. apply in_or_app. left. apply mem_in in G. rewrite G. left. reflexivity.
Qed.

Theorem C162_closed : forall l n c es x, nth_error (l_ctls l) n = Some c ->
  do_op l (Close n) = (x, es) ->
  forall i u, In (Told i u) es <-> u = 2 /\ exists w, In (i, w) (c_tests c) /\ In Grant w.
Proof.
  intros l n c es x N E i u. cbn [do_op] in E. rewrite N in E. injection E as <- <-.
  destruct (do_op l (Stop n CNTRL_FAILURE)) as [y es2] eqn:S2.
  pose proof (C162_stopped l n c CNTRL_FAILURE es2 y N S2 i u) as H2.
  cbn [do_op] in S2. rewrite N in S2. injection S2 as <- <-.
  rewrite <- H2. rewrite close_split. rewrite in_app_iff. split; [|auto].
  intros [I|I]; [exact I|exfalso]. unfold own_close, control_close, give in I.
  cbn [c_id c_w c_remote c_copies c_tests flat_map] in I.
  repeat (apply in_app_or in I as [I|I]);
    try (match type of I with In _ (if ?b then _ else _) => destruct b end);
    try (match type of I with In _ (match ?b with _ => _ end) => destruct b end);
    cbn in I; try (destruct I as [I|[]]; discriminate); try contradiction.
Qed.

Lemma build_untold : forall st i fails n w w2 es b, build st i fails n w = (w2, es, b) -> forall j v, ~ In (Told j v) es.
Proof.
  induction st as [|s r IH]; intros i fails n w w2 es b E j v; cbn [build] in E; [injection E as <- <- <-; intros []|].
  destruct (one s i (fails n) w) as [[w1 e1] go] eqn:O.
  assert (N : ~ In (Told j v) e1).
  { unfold one in O. destruct s;
      repeat match type of O with (if ?b then _ else _) = _ => destruct b end; injection O as <- <- <-; cbn; intuition discriminate. }
  destruct go; [|injection E as <- <- <-; exact N].
  destruct (build r i fails (S n) w1) as [[w3 e2] b2] eqn:B. injection E as <- <- <-.
  intros I. apply in_app_or in I as [I|I]; [exact (N I)|exact (IH _ _ _ _ _ _ _ B j v I)].
Qed.

Lemma error_told : forall i w u j v, In (Told j v) (request_error i w u) -> j = i /\ v = u.
Proof.
  intros i w u j v I. unfold request_error, session_free, give in I. destruct (mem Rec w);
  repeat (apply in_app_or in I as [I|I]);
    try (match type of I with In _ (if ?b then _ else _) => destruct b end);
    cbn in I; try (destruct I as [I|[]]; discriminate); try contradiction.
  destruct I as [I|[]]. injection I as <- <-. split; reflexivity.
Qed.

(** A request of a client that fails: the policy hears "failure" (2) of this session and nothing else; of one that succeeds it
    hears nothing yet. *)
Theorem C162_failed : forall q i fails r es j v, session_request q i fails = (r, es) -> In (Told j v) es ->
  r = None /\ j = i /\ v = 2.
Proof.
  intros q i fails r es j v E I. unfold session_request in E.
  destruct (build (request_steps q) i fails 0 (handed q)) as [[w e] ok] eqn:B.
  assert (N : ~ In (Told j v) (map (fun k => Get (k, i)) (handed q) ++ e)).
  { intros X. apply in_app_or in X as [X|X]; [|exact (build_untold _ _ _ _ _ _ _ _ B _ _ X)].
    apply in_map_iff in X. destruct X as (k & X & _). discriminate. }
  destruct ok; injection E as <- <-; [contradiction|]. split; [reflexivity|].
  apply in_app_or in I as [I|I]; [contradiction|]. apply error_told in I. exact I.
Qed.

Example C162_failed_case : exists es,
  session_request (session_of true false false true) 5 (fun n => n =? 14) = (None, es) /\ In (Told 5 2) es.
Proof. eexists. split; [vm_compute; reflexivity|]. cbn. tauto. Qed.

(** The outcome "accept" (0) does not say that the session took place: it is what the policy of a server is
    told if its process is started and the acceptance cannot be written to the client. *)
Theorem C162_accept_refuted : exists q fails v es,
  serve_request q 5 fails v = (None, es) /\ v <> 0 /\ In (Told 5 0) es.
Proof.
  exists (session_of false false true true), (fun n => n =? 18), 2. eexists.
  split; [vm_compute; reflexivity|]. split; [discriminate|]. cbn. tauto.
Qed.

Example C162_case : exists es,
  life true false false (fun _ => false)
    [Accept (fun _ => false) (fun _ => false);
     Serve 0 (session_of false false true true) (fun _ => false) 2; Stop 0 0] = (true, es) /\
  grants 2 es = 1 /\ In (Told 2 0) es.
Proof. eexists. split; [vm_compute; reflexivity|]. split; [reflexivity|cbn; tauto]. Qed.

Print Assumptions C161_given_back_partial.
Print Assumptions C162_once_partial.
Print Assumptions C162_closed.
Print Assumptions C162_failed.
