From Coq Require Import ZArith List Bool Lia ZifyBool.
From Verif Require Import Base Conn_Model Conn_Spec.
Import ListNotations.
Open Scope Z_scope.

Ltac steps s p E := destruct s as [p ex it al ir ar va re]; unfold step in E; cbn [pt exit int alrm intr armed valid refusals] in E;
  destruct p as [ | | | |[]| | | | | | |[] []| | | |[]| ]; try discriminate E;
  repeat match type of E with
    | (if ?b then Some _ else None) = Some _ => destruct b eqn:?; [|discriminate E]
    end;
  assert (E' := f_equal (fun o => match o with Some x => x | None => init end) E); cbn beta iota in E'; clear E; subst.

(** the timer *)
Definition timed (p : point) : bool := match p with Enter | Reading | Processing _ | Stopping => true | _ => false end.
Definition untimed (p : point) : bool := match p with Clear | WaitEnter | Waiting | Trading | Waited _ _ | ToStop | ToStopArm => true | _ => false end.

Lemma timer_step : forall twamp timeout s e s', timeout <> 0 -> (timed (pt s) = true -> armed s = true \/ alrm s = true) -> step twamp timeout s e = Some s' ->
  timed (pt s') = true -> armed s' = true \/ alrm s' = true.
Proof.
  intros twamp timeout s e s' T K E. destruct e; steps s p E; cbn [pt exit int alrm intr armed valid woken at_ timed] in *; auto; try discriminate;
    try (unfold unexpected; destruct va, twamp; cbn; auto; discriminate); try (destruct e; cbn; auto; discriminate);
    try (destruct twamp; cbn; discriminate); try (destruct ir; cbn; discriminate); try (destruct it, ex, twamp; cbn; discriminate); try (destruct ex, al; cbn; discriminate);
    destruct (Z.eqb_spec timeout 0); try contradiction; auto.
Qed.

Lemma timer_reached : forall twamp timeout al s, timeout <> 0 -> reached twamp timeout al s -> timed (pt s) = true -> armed s = true \/ alrm s = true.
Proof.
  intros twamp timeout al s T R. induction R as [|s e s' R IH A E]; [discriminate|]. exact (timer_step _ _ _ _ _ T IH E).
Qed.

Lemma punctual_step : forall twamp timeout s e s', timeout <> 0 -> ((pt s = Enter \/ pt s = Reading) -> armed s = true) -> punctual s e -> step twamp timeout s e = Some s' ->
  (pt s' = Enter \/ pt s' = Reading) -> armed s' = true.
Proof.
  intros twamp timeout s e s' T K P E. unfold punctual in P. destruct e; steps s p E; cbn [pt exit int alrm intr armed valid woken at_] in *; auto; try contradiction;
    try (intros [X|X]; discriminate X);
    try (unfold unexpected; destruct va, twamp; cbn; intros [X|X]; auto; discriminate X); try (destruct e; cbn; intros [X|X]; discriminate X);
    try (destruct twamp; cbn; intros [X|X]; discriminate X); try (destruct ir; cbn; intros [X|X]; discriminate X);
    try (destruct it, ex, twamp; cbn; intros [X|X]; discriminate X); try (destruct ex, al; cbn; intros [X|X]; discriminate X);
    destruct (Z.eqb_spec timeout 0); try contradiction; auto.
Qed.
Lemma punctual_reached : forall twamp timeout s, timeout <> 0 -> reached twamp timeout punctual s -> (pt s = Enter \/ pt s = Reading) -> armed s = true.
Proof.
  intros twamp timeout s T R. induction R as [|s e s' R IH A E]; [intros [X|X]; discriminate X|]. exact (punctual_step _ _ _ _ _ T IH A E).
Qed.

Lemma untimed_step : forall twamp timeout s e s', (untimed (pt s) = true -> armed s = false) -> step twamp timeout s e = Some s' -> untimed (pt s') = true -> armed s' = false.
Proof.
  intros twamp timeout s e s' K E. destruct e; steps s p E; cbn [pt exit int alrm intr armed valid woken at_ untimed] in *; auto; try discriminate;
    try (unfold unexpected; destruct va, twamp; cbn; auto; discriminate); try (destruct e; cbn; auto; discriminate);
    try (destruct twamp; cbn; auto; discriminate); try (destruct ir; cbn; auto; discriminate); try (destruct it, ex, twamp; cbn; auto; discriminate); try (destruct ex, al; cbn; auto; discriminate).
Qed.
Lemma untimed_reached : forall twamp timeout al s, reached twamp timeout al s -> untimed (pt s) = true -> armed s = false.
Proof.
  intros twamp timeout al s R. induction R as [|s e s' R IH A E]; [discriminate|]. exact (untimed_step _ _ _ _ _ IH E).
Qed.

(** a connection that waits for a request is valid *)
Lemma valid_step : forall twamp timeout s e s', (pt s = Reading -> valid s = true) -> step twamp timeout s e = Some s' -> pt s' = Reading -> valid s' = true.
Proof.
  intros twamp timeout s e s' K E. destruct e; steps s p E; cbn [pt exit int alrm intr armed valid woken at_] in *; auto; try discriminate;
    try (unfold unexpected; destruct va, twamp; cbn; auto; discriminate); try (destruct e; cbn; auto; discriminate);
    try (destruct twamp; cbn; auto; discriminate); try (destruct ir; cbn; auto; discriminate); try (destruct it, ex, twamp; cbn; auto; discriminate); try (destruct ex, al; cbn; auto; discriminate).
Qed.

(** requests after the signal *)
Definition may_read (p : point) : nat := match p with Top | Arm | Enter | Reading => 1 | _ => 0 end.
Lemma request_step : forall twamp timeout s e s', exit s = true -> step twamp timeout s e = Some s' -> exit s' = true /\ (requests [e] + may_read (pt s') <= may_read (pt s))%nat.
Proof.
  intros twamp timeout s e s' X E. unfold requests. destruct e; steps s p E; cbn [pt exit int alrm intr armed valid woken at_ may_read filter length] in *; subst; try (split; [reflexivity|lia]);
    try (unfold unexpected; destruct va, twamp; cbn; split; auto; lia); try (destruct e; cbn; split; auto; lia);
    try (destruct twamp; cbn; split; auto; lia); try (destruct ir; cbn; split; auto; lia); try (destruct it, twamp; cbn; split; auto; lia); try (destruct al; cbn; split; auto; lia).
Qed.
Lemma request_run : forall twamp timeout l s s', exit s = true -> run twamp timeout s l = Some s' -> (requests l + may_read (pt s') <= may_read (pt s))%nat.
Proof.
  intros twamp timeout. induction l as [|e l IH]; intros s s' X E; cbn [run] in E.
  - injection E as <-. cbn. lia.
  - destruct (step twamp timeout s e) as [s1|] eqn:Y; [|discriminate]. destruct (request_step _ _ _ _ _ X Y) as (X1 & F). specialize (IH _ _ X1 E).
    assert (FK : requests (e :: l) = (requests [e] + requests l)%nat) by (unfold requests; destruct e; reflexivity). lia.
Qed.

Fixpoint allowed_run (twamp : bool) (timeout : Z) (al : state -> event -> Prop) (s : state) (l : list event) : Prop :=
  match l with [] => True | e :: r => al s e /\ match step twamp timeout s e with Some s' => allowed_run twamp timeout al s' r | None => True end end.
Lemma reached_allowed : forall twamp timeout al l s s', reached twamp timeout al s -> allowed_run twamp timeout al s l -> run twamp timeout s l = Some s' -> reached twamp timeout al s'.
Proof.
  intros twamp timeout al. induction l as [|e l IH]; intros s s' R A E; cbn [run] in E; [injection E as <-; exact R|]. cbn [allowed_run] in A. destruct A as (A1 & A2).
  destruct (step twamp timeout s e) as [s1|] eqn:Y; [|discriminate]. eapply IH; [eapply next; [exact R|exact A1|exact Y]|exact A2|exact E].
Qed.
