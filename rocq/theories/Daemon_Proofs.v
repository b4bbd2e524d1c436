From Coq Require Import ZArith List Bool Lia ZifyBool ZifyNat.
From Verif Require Import Base BaseLemmas Config_Model Daemon_Model Daemon_Spec.
Import ListNotations.
Open Scope Z_scope.

(** ** lists *)
Lemma find_kid_in : forall l pid k, find_kid l pid = Some k -> In k l /\ k_pid k = pid.
Proof.
  induction l as [|a l IH]; intros pid k E; cbn [find_kid] in E; [discriminate|]. destruct (Z.eqb_spec (k_pid a) pid) as [X|X].
  - injection E as <-. split; [left; reflexivity|exact X].
  - destruct (IH _ _ E) as (I & P). split; [right; exact I|exact P].
Qed.
Lemma find_kid_some : forall l pid, In pid (map k_pid l) -> exists k, find_kid l pid = Some k.
Proof.
  induction l as [|a l IH]; intros pid I; [destruct I|]. cbn [find_kid]. destruct (Z.eqb_spec (k_pid a) pid) as [X|X]; [eauto|].
  destruct I as [I|I]; [congruence|]. apply IH. exact I.
Qed.
Lemma remove_kid_length : forall l pid k, find_kid l pid = Some k -> S (length (remove_kid l pid)) = length l.
Proof.
  induction l as [|a l IH]; intros pid k E; cbn [find_kid remove_kid] in *; [discriminate|]. destruct (k_pid a =? pid); [reflexivity|].
  cbn [length]. f_equal. eapply IH. exact E.
Qed.
Lemma remove_kid_other : forall l pid p, p <> pid -> In p (map k_pid l) -> In p (map k_pid (remove_kid l pid)).
Proof.
  induction l as [|a l IH]; intros pid p N I; [exact I|]. cbn [remove_kid]. destruct (Z.eqb_spec (k_pid a) pid) as [X|X].
  - destruct I as [I|I]; [congruence|exact I].
  - destruct I as [I|I]; [left; exact I|right; apply IH; assumption].
Qed.
Lemma remove_kid_in : forall l pid k, In k (remove_kid l pid) -> In k l.
Proof.
  induction l as [|a l IH]; intros pid k I; [exact I|]. cbn [remove_kid] in I. destruct (k_pid a =? pid); [right; exact I|].
  destruct I as [I|I]; [left; exact I|right; eauto].
Qed.
Lemma remove_kid_nodup : forall {B} (f : kid -> B) l pid, NoDup (map f l) -> NoDup (map f (remove_kid l pid)).
Proof.
  intros B f. induction l as [|a l IH]; intros pid N; [exact N|]. cbn [remove_kid map] in *. inversion N as [|x y N1 N2]; subst.
  destruct (k_pid a =? pid); [exact N2|]. cbn [map]. constructor; [|apply IH; exact N2]. intros I. apply N1. apply in_map_iff in I.
  destruct I as (k & E & I). apply in_map_iff. exists k. split; [exact E|]. eapply remove_kid_in. exact I.
Qed.
Lemma remove_kid_gone : forall l pid, NoDup (map k_pid l) -> ~ In pid (map k_pid (remove_kid l pid)).
Proof.
  induction l as [|a l IH]; intros pid N; [auto|]. cbn [remove_kid map] in *. inversion N as [|x y N1 N2]; subst.
  destruct (Z.eqb_spec (k_pid a) pid) as [<-|X]; [exact N1|]. cbn [map]. intros [I|I]; [congruence|]. exact (IH _ N2 I).
Qed.
Lemma remove_fd_other : forall l fd f, f <> fd -> In f l -> In f (remove_fd l fd).
Proof.
  induction l as [|a l IH]; intros fd f N I; [exact I|]. cbn [remove_fd]. destruct (Z.eqb_spec a fd) as [X|X].
  - destruct I as [I|I]; [congruence|exact I].
  - destruct I as [I|I]; [left; exact I|right; apply IH; assumption].
Qed.

Lemma map_fst_same : forall (f : Z * pstate -> Z * pstate) l, (forall p, fst (f p) = fst p) -> map fst (map f l) = map fst l.
Proof. intros f l H. rewrite map_map. apply map_ext. exact H. Qed.
Lemma ends_fst : forall pid p, fst (ends pid p) = fst p.
Proof. intros pid p. unfold ends. destruct (fst p =? pid); reflexivity. Qed.
Lemma dooms_fst : forall pid p, fst (dooms pid p) = fst p.
Proof. intros pid [p []]; unfold dooms; cbn; try reflexivity. destruct (p =? pid); reflexivity. Qed.
Lemma dooms_all_fst : forall p, fst (dooms_all p) = fst p.
Proof. intros [p []]; reflexivity. Qed.

Lemma filter_fst : forall pid (l : list (Z * pstate)), map fst (filter (fun p => negb (fst p =? pid)) l) = filter (fun x => negb (x =? pid)) (map fst l).
Proof. intros pid. induction l as [|[p q] l IH]; [reflexivity|]. cbn [filter map fst]. destruct (negb (p =? pid)); cbn [map fst]; rewrite IH; reflexivity. Qed.

Lemma nodup_filter : forall {A} (f : A -> bool) l, NoDup l -> NoDup (filter f l).
Proof.
  intros A f. induction l as [|a l IH]; intros N; [constructor|]. inversion N as [|x y N1 N2]; subst. cbn [filter]. destruct (f a); [|auto].
  constructor; [|auto]. intros I. apply filter_In in I. tauto.
Qed.
Lemma nodup_map_filter : forall {A B} (f : A -> bool) (g : A -> B) l, NoDup (map g l) -> NoDup (map g (filter f l)).
Proof.
  intros A B f g. induction l as [|a l IH]; intros N; [constructor|]. cbn [map] in N. inversion N as [|x y N1 N2]; subst. cbn [filter]. destruct (f a); [|auto].
  cbn [map]. constructor; [|auto]. intros I. apply N1. apply in_map_iff in I. destruct I as (b & E & I). apply filter_In in I. apply in_map_iff. exists b. tauto.
Qed.

(** the processes that run: what transformations do to them *)
Lemma in_serving : forall (l : list (Z * pstate)) pid, In pid (map fst (filter (fun p => match snd p with Runs => true | _ => false end) l)) <-> In (pid, Runs) l.
Proof.
  intros l pid. rewrite in_map_iff. split.
  - intros ([p q] & E & I). apply filter_In in I. cbn [fst snd] in *. subst p. destruct I as (I & X). destruct q; try discriminate. exact I.
  - intros I. exists (pid, Runs). split; [reflexivity|]. apply filter_In. auto.
Qed.
Lemma runs_mapped : forall (f : Z * pstate -> Z * pstate) l pid, (forall p q, f p = (q, Runs) -> p = (q, Runs)) -> In (pid, Runs) (map f l) -> In (pid, Runs) l /\ f (pid, Runs) = (pid, Runs).
Proof.
  intros f l pid H I. apply in_map_iff in I. destruct I as (p & E & I). pose proof (H _ _ E). subst p. auto.
Qed.
Lemma ends_runs : forall pid p q, ends pid p = (q, Runs) -> p = (q, Runs).
Proof. intros pid [a b] q E. unfold ends in E. cbn [fst] in E. destruct (a =? pid); [discriminate|exact E]. Qed.
Lemma dooms_runs : forall pid p q, dooms pid p = (q, Runs) -> p = (q, Runs).
Proof. intros pid [a []] q E; unfold dooms in E; cbn [fst snd] in E; try discriminate. destruct (a =? pid); [discriminate|exact E]. Qed.
Lemma dooms_all_runs : forall p q, dooms_all p = (q, Runs) -> p = (q, Runs).
Proof. intros [a []] q E; discriminate. Qed.

(** ** the limit *)
Definition pending (p : point) : list Z := match p with Adding pid _ => [pid] | _ => [] end.
Record safe (s : state) : Prop := {
  safe_pids : NoDup (map fst (procs s));
  safe_kids : forall pid, In (pid, Runs) (procs s) -> In pid (pending (pt s) ++ map k_pid (kids s))
}.

Lemma pending_woken : forall p, pending (woken p) = pending p.
Proof. intros []; reflexivity. Qed.
Lemma pending_back : forall a, pending (back a) = [].
Proof. intros []; reflexivity. Qed.

Lemma free_kid_kids : forall s k sh, find_kid (kids s) (k_pid k) = Some k ->
  (kids (free_kid s k sh) = kids s /\ sessions (free_kid s k sh) = sessions s) \/
  (kids (free_kid s k sh) = remove_kid (kids s) (k_pid k) /\ sessions (free_kid s k sh) = u32 (sessions s - 1)).
Proof.
  intros s k sh F. unfold free_kid. destruct (k_fd k <? 0); [right; cbn; auto|]. destruct (existsb (fun f => f =? k_fd k) (polled s)); [|left; cbn; auto].
  destruct sh; [right; cbn; auto|left; cbn; auto].
Qed.
Lemma free_kid_rest : forall s k sh, pt (free_kid s k sh) = pt s /\ procs (free_kid s k sh) = procs s /\ chld (free_kid s k sh) = chld s /\ exit (free_kid s k sh) = exit s.
Proof.
  intros s k sh. unfold free_kid. destruct (k_fd k <? 0); [cbn; auto|]. destruct (existsb (fun f => f =? k_fd k) (polled s)); [|cbn; auto]. destruct sh; cbn; auto.
Qed.

Ltac plain K := destruct K as [K1 K2]; constructor; cbn [at_ with_procs procs pt kids] in *; [exact K1|exact K2].

Lemma safe_step : forall max dieby s e s', safe s -> step max dieby s e = Some s' -> safe s'.
Proof.
  intros max dieby s e s' [K1 K2] E. destruct s as [p ks po se ch ex al ar ps asks]. cbn [procs pt kids] in K1, K2.
  destruct e; cbn [step pt exit chld kids sessions procs armed asking alrm polled] in E.
  - (* Go *) destruct p; try discriminate; cbn [pending app] in K2; try (injection E as <-; constructor; cbn [at_ procs pt kids pending app]; [exact K1|exact K2]).
    + injection E as <-. constructor; cbn [at_ procs pt kids]; [exact K1|]. destruct ex; exact K2.
    + injection E as <-. constructor; cbn [at_ procs pt kids]; [exact K1|]. destruct ex; exact K2.
    + injection E as <-. constructor; cbn [at_ procs pt kids]; [exact K1|]. destruct ex; exact K2.
    + injection E as <-. constructor; cbn [at_ procs pt kids]; [exact K1|]. destruct (too_many max se); exact K2.
    + injection E as <-. constructor; cbn [at_ procs pt kids]; [exact K1|]. destruct (too_many max se); exact K2.
    + injection E as <-. constructor; cbn [at_ procs pt kids]; [exact K1|]. destruct ex; exact K2.
    + injection E as <-. constructor; cbn [at_ procs pt kids]; [exact K1|]. destruct ch; [exact K2|]. rewrite pending_back. exact K2.
    + injection E as <-. constructor; cbn [at_ procs pt kids]; [exact K1|]. rewrite pending_back. exact K2.
    + injection E as <-. constructor; cbn [at_ procs pt kids pending app]; [exact K1|]. rewrite map_map. exact K2.
    + injection E as <-. constructor; cbn [at_ procs pt kids]; [exact K1|]. destruct (negb al && negb match ks with [] => true | _ => false end); exact K2.
    + injection E as <-. constructor; cbn [at_ procs pt kids]; [exact K1|]. destruct ch; exact K2.
    + injection E as <-. destruct ks as [|k ks]; constructor; cbn [at_ with_procs procs pt kids pending app]; [exact K1|exact K2| |].
      * rewrite map_fst_same by apply dooms_all_fst. exact K1.
      * intros pid I. apply (runs_mapped dooms_all) in I; [|apply dooms_all_runs]. destruct I as (_ & X). discriminate.
  - (* Exits *) destruct (existsb _ ps); [|discriminate]. injection E as <-. constructor; cbn [procs pt kids].
    + rewrite map_fst_same by apply ends_fst. exact K1.
    + intros q I. apply (runs_mapped (ends pid)) in I; [|apply ends_runs]. rewrite pending_woken. apply K2. tauto.
  - (* Term *) injection E as <-. constructor; cbn [procs pt kids]; [exact K1|]. rewrite pending_woken. exact K2.
  - (* Alarm *) destruct ar; [|discriminate]. injection E as <-. constructor; cbn [procs pt kids]; [exact K1|]. rewrite pending_woken. exact K2.
  - (* Asks *) destruct (existsb _ ks && (0 <=? fd)); [|discriminate]. injection E as <-. constructor; cbn [procs pt kids]; assumption.
  - (* Ready *) destruct conn; destruct p; try discriminate.
    + injection E as <-. constructor; cbn [at_ procs pt kids]; assumption.
    + destruct (nfound po asks); [discriminate|]. injection E as <-. constructor; cbn [at_ procs pt kids]; assumption.
  - destruct p; try discriminate. injection E as <-. constructor; cbn [at_ procs pt kids]; assumption.
  - destruct p; try discriminate. injection E as <-. constructor; cbn [at_ procs pt kids]; assumption.
  - destruct p; try discriminate. injection E as <-. constructor; cbn [at_ procs pt kids]; assumption.
  - (* Forks *) destruct p; try discriminate. destruct (existsb (fun p => fst p =? pid) ps) eqn:X; [discriminate|]. cbn [orb] in E.
    destruct (existsb _ ks || (fd <? 0)); [discriminate|]. injection E as <-. constructor; cbn [at_ with_procs procs pt kids map fst pending app].
    + constructor; [|exact K1]. intros I. apply in_map_iff in I. destruct I as (q & Y & I).
      assert (true = false); [|discriminate]. rewrite <- X. symmetry. apply existsb_exists. exists q. split; [exact I|]. rewrite Y. apply Z.eqb_refl.
    + intros q [I|I]; [injection I as <-; left; reflexivity|]. right. apply K2. exact I.
  - destruct p; try discriminate. injection E as <-. constructor; cbn [at_ procs pt kids]; assumption.
  - (* Alloc *) destruct ok; destruct p; try discriminate; injection E as <-; constructor; cbn [at_ with_procs procs pt kids map k_pid pending app] in *.
    + exact K1.
    + exact K2.
    + rewrite map_fst_same by apply dooms_fst. exact K1.
    + intros q I. apply (runs_mapped (dooms pid)) in I; [|apply dooms_runs]. destruct I as (I & X). destruct (K2 _ I) as [<-|Y]; [|exact Y].
      unfold dooms in X. cbn [fst snd] in X. rewrite Z.eqb_refl in X. discriminate.
  - (* Grow *) destruct ok; destruct p; try discriminate; injection E as <-; constructor; cbn [at_ procs pt kids]; assumption.
  - (* Reaped *) destruct p; try discriminate. destruct (existsb _ ps) eqn:X; [|discriminate]. cbn [with_procs kids] in E.
    assert (P1 : NoDup (map fst (filter (fun p => negb (fst p =? pid)) ps))) by (apply nodup_map_filter; exact K1).
    assert (P2 : forall q, In (q, Runs) (filter (fun p => negb (fst p =? pid)) ps) -> In (q, Runs) ps /\ q <> pid).
    { intros q I. apply filter_In in I. cbn [fst] in I. split; [tauto|]. intros ->. rewrite Z.eqb_refl in I. destruct I. discriminate. }
    destruct (find_kid ks pid) as [k|] eqn:F.
    + injection E as <-.
      match goal with |- safe (free_kid ?st k shrink) => destruct (free_kid_rest st k shrink) as (R1 & R2 & _); destruct (free_kid_kids st k shrink) as [(R3 & _)|(R3 & _)] end.
      { cbn [kids]. destruct (find_kid_in _ _ _ F) as (_ & ->). exact F. }
      * constructor; rewrite ?R1, ?R2, ?R3; cbn [procs pt kids]; [exact P1|]. intros q I. apply P2 in I. apply K2. tauto.
      * constructor; rewrite ?R1, ?R2, ?R3; cbn [procs pt kids pending app]; [exact P1|]. intros q I. apply P2 in I. destruct (find_kid_in _ _ _ F) as (_ & ->).
        apply remove_kid_other; [tauto|]. apply (K2 q). tauto.
    + injection E as <-. constructor; cbn [at_ procs pt kids pending app]; [exact P1|]. intros q I. apply P2 in I. apply (K2 q). tauto.
  - (* NoChild *) destruct p; try discriminate. destruct (existsb is_exited ps); [discriminate|]. injection E as <-. constructor; cbn [at_ procs pt kids]; assumption.
Qed.

Lemma safe_reached : forall max dieby al s, reached max dieby al s -> safe s.
Proof.
  intros max dieby al s R. induction R as [|s e s' R IH A E]; [|eapply safe_step; eassumption]. constructor; cbn; [constructor|]. intros pid [].
Qed.

(** the counter *)
Definition needs_room (p : point) : Z := match p with Forking | Adding _ _ => 1 | _ => 0 end.
Record counted (max : Z) (s : state) : Prop := {
  counted_kids : sessions s = Z.of_nat (length (kids s));
  counted_max : sessions s + needs_room (pt s) <= max
}.

Lemma room_woken : forall p, needs_room (woken p) = needs_room p.
Proof. intros []; reflexivity. Qed.
Lemma room_back : forall a, needs_room (back a) = 0.
Proof. intros []; reflexivity. Qed.
Lemma room_nonneg : forall p, 0 <= needs_room p.
Proof. intros []; cbn; lia. Qed.

Lemma counted_step : forall max dieby s e s', 0 < max < 2 ^ 32 - 1 -> counted max s -> step max dieby s e = Some s' -> counted max s'.
Proof.
  intros max dieby s e s' M [K1 K2] E. destruct s as [p ks po se ch ex al ar ps asks]. cbn [sessions pt kids] in K1, K2. pose proof (room_nonneg p) as RN.
  assert (B : 0 <= se <= max) by lia.
  assert (KEEP : forall st, kids st = ks -> sessions st = se -> needs_room (pt st) <= needs_room p -> counted max st).
  { intros st A1 A2 A3. constructor; [rewrite A1, A2; exact K1|lia]. }
  destruct e; cbn [step pt exit chld kids sessions procs armed asking alrm polled] in E.
  - destruct p; try discriminate; injection E as <-; try (apply KEEP; cbn; [reflexivity|reflexivity|lia]).
    + apply KEEP; cbn; try reflexivity; destruct ex; cbn; lia.
    + apply KEEP; cbn; try reflexivity; destruct ex; cbn; lia.
    + apply KEEP; cbn; try reflexivity; destruct ex; cbn; lia.
    + unfold too_many, u32. rewrite Z.mod_small by lia. destruct (negb (max =? 0) && (max <? se + 1)) eqn:T; [apply KEEP; cbn; try reflexivity; lia|].
      constructor; cbn; [exact K1|lia].
    + unfold too_many, u32. rewrite Z.mod_small by lia. destruct (negb (max =? 0) && (max <? se + 1)) eqn:T; [apply KEEP; cbn; try reflexivity; lia|].
      constructor; cbn; [exact K1|lia].
    + apply KEEP; cbn; try reflexivity; destruct ex; cbn; lia.
    + apply KEEP; cbn; try reflexivity. destruct ch; [cbn; lia|]. rewrite room_back. lia.
    + apply KEEP; cbn; try reflexivity; rewrite room_back; lia.
    + constructor; cbn; [rewrite map_length; exact K1|lia].
    + apply KEEP; cbn; try reflexivity. destruct (negb al && negb match ks with [] => true | _ => false end); cbn; lia.
    + apply KEEP; cbn; try reflexivity. destruct ch; cbn; lia.
    + destruct ks; apply KEEP; cbn; try reflexivity; lia.
  - destruct (existsb _ ps); [|discriminate]. injection E as <-. apply KEEP; cbn [kids sessions pt]; try reflexivity; rewrite room_woken; lia.
  - injection E as <-. apply KEEP; cbn [kids sessions pt]; try reflexivity; rewrite room_woken; lia.
  - destruct ar; [|discriminate]. injection E as <-. apply KEEP; cbn [kids sessions pt]; try reflexivity; rewrite room_woken; lia.
  - destruct (existsb _ ks && (0 <=? fd)); [|discriminate]. injection E as <-. apply KEEP; cbn; try reflexivity; lia.
  - destruct conn; destruct p; try discriminate.
    + injection E as <-. apply KEEP; cbn; try reflexivity; lia.
    + destruct (nfound po asks); [discriminate|]. injection E as <-. apply KEEP; cbn; try reflexivity; lia.
  - destruct p; try discriminate. injection E as <-. apply KEEP; cbn; try reflexivity; lia.
  - destruct p; try discriminate. injection E as <-. apply KEEP; cbn; try reflexivity; lia.
  - destruct p; try discriminate. injection E as <-. apply KEEP; cbn; try reflexivity; lia.
  - destruct p; try discriminate. destruct (existsb _ ps || existsb _ ks || (fd <? 0)); [discriminate|]. injection E as <-. apply KEEP; cbn; try reflexivity; lia.
  - destruct p; try discriminate. injection E as <-. apply KEEP; cbn; try reflexivity; lia.
  - destruct ok; destruct p; try discriminate; injection E as <-.
    + cbn in K2. constructor; cbn [sessions kids pt needs_room length]; unfold u32; rewrite Z.mod_small by lia; lia.
    + apply KEEP; cbn; try reflexivity; lia.
  - destruct ok; destruct p; try discriminate; injection E as <-; apply KEEP; cbn; try reflexivity; lia.
  - destruct p; try discriminate. destruct (existsb _ ps); [|discriminate]. cbn [with_procs kids] in E.
    destruct (find_kid ks pid) as [k|] eqn:F; [|injection E as <-; apply KEEP; cbn; try reflexivity; lia].
    injection E as <-.
    match goal with |- counted max (free_kid ?st k shrink) => destruct (free_kid_rest st k shrink) as (R1 & _); destruct (free_kid_kids st k shrink) as [(R3 & R4)|(R3 & R4)] end.
    { cbn [kids]. destruct (find_kid_in _ _ _ F) as (_ & ->). exact F. }
    + apply KEEP; [rewrite R3; reflexivity|rewrite R4; reflexivity|rewrite R1; cbn; lia].
    + destruct (find_kid_in _ _ _ F) as (_ & P). pose proof (remove_kid_length _ _ _ F) as L. cbn [kids sessions pt] in *. rewrite P in R3.
      constructor; rewrite ?R1, ?R3, ?R4; cbn; unfold u32; rewrite Z.mod_small by lia; lia.
  - destruct p; try discriminate. destruct (existsb is_exited ps); [discriminate|]. injection E as <-. apply KEEP; cbn; try reflexivity; lia.
Qed.

Lemma counted_reached : forall max dieby al s, 0 < max < 2 ^ 32 - 1 -> reached max dieby al s -> counted max s.
Proof.
  intros max dieby al s M R. induction R as [|s e s' R IH A E]; [|eapply counted_step; eassumption]. constructor; cbn; lia.
Qed.

Lemma limit_ok : forall max dieby al s, 0 < max < 2 ^ 32 - 1 -> reached max dieby al s -> total (serving s) <= max.
Proof.
  intros max dieby al s M R. destruct (safe_reached _ _ _ _ R) as [K1 K2]. destruct (counted_reached _ _ _ _ M R) as [C1 C2].
  assert (L : (length (serving s) <= length (pending (pt s) ++ map k_pid (kids s)))%nat).
  { apply NoDup_incl_length; [unfold serving; apply nodup_map_filter; exact K1|]. intros pid I. apply K2. apply in_serving. exact I. }
  rewrite app_length, map_length in L. unfold total. pose proof (room_nonneg (pt s)).
  destruct (pt s); cbn [pending length needs_room] in *; lia.
Qed.

(** ** without failures *)
Definition left (p : point) : bool :=
  match p with Left | LeftTest | Suspending | Suspended | Finish | Ended | Crashed | Reap ToLeft | Wait ToLeft | Clear ToLeft => true | _ => false end.
Record sound (s : state) : Prop := {
  sound_pids : forall pid, In pid (map fst (procs s)) <-> In pid (pending (pt s) ++ map k_pid (kids s));
  sound_unique : NoDup (pending (pt s) ++ map k_pid (kids s));
  sound_closed : left (pt s) = true -> forall k, In k (kids s) -> k_fd k < 0;
  sound_open : left (pt s) = false -> NoDup (map k_fd (kids s)) /\ forall k, In k (kids s) -> 0 <= k_fd k /\ (In (k_fd k) (polled s) \/ pt s = Growing (k_fd k));
  sound_adding : forall pid fd, pt s = Adding pid fd -> 0 <= fd /\ ~ In fd (map k_fd (kids s));
  sound_alive : pt s <> Crashed
}.

Lemma among_in : forall f l, among f l = true <-> In f l.
Proof.
  intros f l. unfold among. rewrite existsb_exists. split.
  - intros (x & I & E). assert (x = f) by lia. subst x. exact I.
  - intros I. exists f. split; [exact I|apply Z.eqb_refl].
Qed.

(** steps that keep processes and tables *)
Lemma sound_keep : forall s s', sound s -> procs s' = procs s -> kids s' = kids s -> polled s' = polled s -> pending (pt s') = pending (pt s) ->
  left (pt s') = left (pt s) -> (forall fd, pt s = Growing fd -> pt s' = Growing fd) -> (forall pid fd, pt s' = Adding pid fd -> pt s = Adding pid fd) -> pt s' <> Crashed -> sound s'.
Proof.
  intros s s' [A B C D F G] E1 E2 E3 E4 E5 E6 E7 E8. constructor; rewrite ?E1, ?E2, ?E3, ?E4, ?E5; auto.
  - intros L. destruct (D L) as (D1 & D2). split; [exact D1|]. intros k I. destruct (D2 k I) as (X & [Y|Y]); [auto|]. split; [exact X|]. right. apply E6. exact Y.
  - intros pid fd X. apply (F pid fd). apply E7. exact X.
Qed.

Lemma left_woken : forall p, left (woken p) = left p.
Proof. intros []; reflexivity. Qed.
Lemma left_back : forall a, left (back a) = left (Reap a).
Proof. intros []; reflexivity. Qed.

Lemma sound_step : forall max dieby s e s', sound s -> no_failure s e -> step max dieby s e = Some s' -> sound s'.
Proof.
  intros max dieby s e s' K NF E. pose proof K as [A B C D F G]. destruct s as [p ks po se ch ex al ar ps asks]. cbn [procs pt kids polled] in *.
  assert (KEEP : forall st, procs st = ps -> kids st = ks -> polled st = po -> pending (pt st) = pending p -> left (pt st) = left p ->
    (forall fd, p = Growing fd -> pt st = Growing fd) -> (forall pid fd, pt st = Adding pid fd -> p = Adding pid fd) -> pt st <> Crashed -> sound st).
  { intros st. intros. eapply sound_keep; [exact K|..]; assumption. }
  destruct e; cbn [step pt exit chld kids sessions procs armed asking alrm polled] in E.
  - destruct p; try discriminate; injection E as <-;
      try (apply KEEP; cbn; try reflexivity; try discriminate; fail).
    + apply KEEP; cbn; try reflexivity; destruct ex; try reflexivity; discriminate.
    + apply KEEP; cbn; try reflexivity; destruct ex; try reflexivity; discriminate.
    + apply KEEP; cbn; try reflexivity; destruct ex; try reflexivity; discriminate.
    + apply KEEP; cbn; try reflexivity; destruct (too_many max se); try reflexivity; discriminate.
    + apply KEEP; cbn; try reflexivity; destruct (too_many max se); try reflexivity; discriminate.
    + apply KEEP; cbn; try reflexivity; destruct ex; try reflexivity; discriminate.
    + destruct ch; destruct a; apply KEEP; cbn; try reflexivity; discriminate.
    + destruct a; apply KEEP; cbn; try reflexivity; discriminate.
    + constructor; cbn [procs pt kids polled pending app left] in *; try discriminate.
      * rewrite map_map. exact A.
      * rewrite map_map. exact B.
      * intros _ k I. apply in_map_iff in I. destruct I as (k0 & <- & _). cbn. lia.
    + destruct (negb al && negb match ks with [] => true | _ => false end); apply KEEP; cbn; try reflexivity; discriminate.
    + destruct ch; apply KEEP; cbn; try reflexivity; discriminate.
    + destruct ks as [|k ks]; [apply KEEP; cbn; try reflexivity; discriminate|].
      constructor; cbn [at_ with_procs procs pt kids polled pending app left] in *; try discriminate; [|exact B|exact C].
      rewrite map_fst_same by apply dooms_all_fst. exact A.
  - destruct (existsb _ ps); [|discriminate]. injection E as <-. constructor; cbn [procs pt kids polled]; rewrite ?pending_woken, ?left_woken; auto.
    + rewrite map_fst_same by apply ends_fst. exact A.
    + intros L. destruct (D L) as (D1 & D2). split; [exact D1|]. intros k I. destruct (D2 k I) as (X & [Y|Y]); [auto|]. split; [exact X|]. right. rewrite Y. reflexivity.
    + intros q fd X. apply (F q fd). destruct p; try discriminate; exact X.
    + destruct p; try discriminate; exact G.
  - injection E as <-. apply KEEP; cbn [procs pt kids polled]; try reflexivity; [apply pending_woken|apply left_woken|intros fd ->; reflexivity|intros q fd X; destruct p; try discriminate; exact X|destruct p; try discriminate; exact G].
  - destruct ar; [|discriminate]. injection E as <-. apply KEEP; cbn [procs pt kids polled]; try reflexivity; [apply pending_woken|apply left_woken|intros fd ->; reflexivity|intros q fd X; destruct p; try discriminate; exact X|destruct p; try discriminate; exact G].
  - destruct (existsb _ ks && (0 <=? fd)); [|discriminate]. injection E as <-. apply KEEP; cbn [procs pt kids polled]; auto.
  - destruct conn; destruct p; try discriminate.
    + injection E as <-. apply KEEP; cbn; try reflexivity; discriminate.
    + destruct (nfound po asks); [discriminate|]. injection E as <-. apply KEEP; cbn; try reflexivity; discriminate.
  - destruct p; try discriminate. injection E as <-. apply KEEP; cbn; try reflexivity; discriminate.
  - destruct p; try discriminate. injection E as <-. apply KEEP; cbn; try reflexivity; discriminate.
  - destruct p; try discriminate. injection E as <-. apply KEEP; cbn; try reflexivity; discriminate.
  - (* Forks *) destruct p; try discriminate. destruct (existsb (fun p => fst p =? pid) ps) eqn:X; [discriminate|]. cbn [orb] in E.
    destruct (existsb (fun k => k_fd k =? fd) ks) eqn:X2; [discriminate|]. cbn [orb] in E. destruct (Z.ltb_spec fd 0); [discriminate|]. injection E as <-.
    assert (NI : ~ In pid (map fst ps)).
    { intros I. apply in_map_iff in I. destruct I as (q & Y & I). assert (true = false); [|discriminate]. rewrite <- X. symmetry. apply existsb_exists. exists q. split; [exact I|]. rewrite Y. apply Z.eqb_refl. }
    constructor; cbn [at_ with_procs procs pt kids polled map fst pending app left] in *; try discriminate.
    + intros q. specialize (A q). cbn [In]; rewrite A; reflexivity.
    + constructor; [|exact B]. intros I. apply NI. apply A. exact I.
    + intros _. destruct (D eq_refl) as (D1 & D2). split; [exact D1|]. intros k I. destruct (D2 k I) as (Y & [Z0|Z0]); [auto|discriminate].
    + intros q f Y. injection Y as <- <-. split; [lia|]. intros I. apply in_map_iff in I. destruct I as (k & Y & I).
      assert (true = false); [|discriminate]. rewrite <- X2. symmetry. apply existsb_exists. exists k. split; [exact I|]. rewrite Y. apply Z.eqb_refl.
  - destruct p; try discriminate. injection E as <-. apply KEEP; cbn; try reflexivity; discriminate.
  - (* Alloc *) destruct ok; [|destruct NF]. destruct p; try discriminate. injection E as <-. destruct (F _ _ eq_refl) as (F1 & F2).
    constructor; cbn [procs pt kids polled map k_pid k_fd pending app left] in *; try discriminate; [exact A|exact B|].
    intros _. destruct (D eq_refl) as (D1 & D2). split; [constructor; assumption|]. intros k [<-|I]; [cbn [k_fd]; auto|]. destruct (D2 k I) as (Y & [Z0|Z0]); [auto|discriminate].
  - (* Grow *) destruct ok; [|destruct NF]. destruct p; try discriminate. injection E as <-.
    constructor; cbn [procs pt kids polled pending app left] in *; try discriminate; [exact A|exact B|].
    intros _. destruct (D eq_refl) as (D1 & D2). split; [exact D1|]. intros k I. destruct (D2 k I) as (Y & [Z0|Z0]); split; auto; left; apply in_or_app; [left; exact Z0|].
    injection Z0 as <-. right. left. reflexivity.
  - (* Reaped *) destruct shrink; [|destruct NF]. destruct p; try discriminate. destruct (existsb _ ps) eqn:X; [|discriminate]. cbn [with_procs kids] in E.
    assert (IN : In pid (map fst ps)).
    { apply existsb_exists in X. destruct X as (q & I & Y). apply in_map_iff. exists q. split; [lia|exact I]. }
    cbn [pending app] in A, B.
    destruct (find_kid_some ks pid) as (k & FK); [apply A; exact IN|]. rewrite FK in E. injection E as <-.
    destruct (find_kid_in _ _ _ FK) as (KI & KP).
    assert (A' : forall q, In q (map fst (filter (fun p => negb (fst p =? pid)) ps)) <-> In q (map k_pid (remove_kid ks pid))).
    { intros q. rewrite filter_fst, filter_In, A. split.
      - intros (I & N). apply remove_kid_other; [lia|exact I].
      - intros I. split; [apply in_map_iff in I; destruct I as (k0 & Y & I); apply in_map_iff; exists k0; split; [exact Y|eapply remove_kid_in; exact I]|].
        destruct (Z.eqb_spec q pid) as [->|]; [|reflexivity]. exfalso. exact (remove_kid_gone _ _ B I). }
    unfold free_kid. cbn [with_procs pt kids polled sessions chld exit alrm armed procs asking]. rewrite KP.
    destruct (left (Wait a)) eqn:L.
    + destruct (Z.ltb_spec (k_fd k) 0) as [Y|Y]; [|specialize (C eq_refl k KI); lia].
      constructor; cbn [procs pt kids polled pending app]; try discriminate; [exact A'|apply remove_kid_nodup; exact B| |rewrite L; discriminate].
      intros _ k0 I. apply C; [reflexivity|]. eapply remove_kid_in. exact I.
    + destruct (D eq_refl) as (D1 & D2). destruct (D2 k KI) as (D3 & [D4|D4]); [|discriminate].
      destruct (Z.ltb_spec (k_fd k) 0) as [Y|Y]; [lia|]. fold (among (k_fd k) po). rewrite (proj2 (among_in (k_fd k) po) D4).
      constructor; cbn [procs pt kids polled pending app]; try discriminate; [exact A'|apply remove_kid_nodup; exact B|rewrite L; discriminate|].
      intros _. split; [apply remove_kid_nodup; exact D1|]. intros k0 I. pose proof (remove_kid_in _ _ _ I) as I0. destruct (D2 k0 I0) as (D5 & [D6|D6]); [|discriminate].
      split; [exact D5|]. left. apply remove_fd_other; [|exact D6]. intros Z0.
      assert (k0 = k).
      { clear -D1 I0 KI Z0. induction ks as [|x ks IH]; [destruct I0|]. cbn [map] in D1. inversion D1 as [|y z N1 N2]; subst.
        destruct I0 as [<-|I0]; destruct KI as [<-|KI]; [reflexivity| | |apply IH; assumption]; exfalso; apply N1; apply in_map_iff; [exists k|exists k0]; split; congruence. }
      subst k0. apply (remove_kid_gone _ pid B). apply in_map_iff. exists k. auto.
  - (* NoChild *) destruct p; try discriminate. destruct (existsb is_exited ps); [discriminate|]. injection E as <-. destruct a; apply KEEP; cbn; try reflexivity; discriminate.
Qed.

Lemma sound_reached : forall max dieby (al : state -> event -> Prop) s, (forall s e, al s e -> no_failure s e) -> reached max dieby al s -> sound s.
Proof.
  intros max dieby al s W R. induction R as [|s e s' R IH A E]; [|eapply sound_step; [exact IH|apply W; exact A|exact E]].
  constructor; cbn; try discriminate; [tauto|constructor|intros _; split; [constructor|intros k []]].
Qed.

(** ** the decision to refuse *)
Lemma full_step : forall max dieby s e s', (pt s = Refusing -> too_many max (sessions s) = true) -> step max dieby s e = Some s' ->
  pt s' = Refusing -> too_many max (sessions s') = true.
Proof.
  intros max dieby s e s' K E P. destruct s as [p ks po se ch ex al ar ps asks]. cbn [pt sessions] in K.
  assert (W : forall q, woken q = Refusing -> q = Refusing) by (intros []; cbn; congruence).
  destruct e; cbn [step pt exit chld kids sessions procs armed asking alrm polled] in E.
  - destruct p; try discriminate; injection E as <-; cbn [at_ pt sessions] in *; try discriminate; try (destruct ex; discriminate).
    + destruct (too_many max se); discriminate.
    + destruct (too_many max se); [reflexivity|discriminate].
    + destruct ch; [discriminate|]. destruct a; discriminate.
    + destruct a; discriminate.
    + destruct (negb al && negb match ks with [] => true | _ => false end); discriminate.
    + destruct ch; discriminate.
  - destruct (existsb _ ps); [|discriminate]. injection E as <-. cbn [pt sessions] in *. apply W in P. exact (K P).
  - injection E as <-. cbn [pt sessions] in *. apply W in P. exact (K P).
  - destruct ar; [|discriminate]. injection E as <-. cbn [pt sessions] in *. apply W in P. exact (K P).
  - destruct (existsb _ ks && (0 <=? fd)); [|discriminate]. injection E as <-. cbn [pt sessions] in *. exact (K P).
  - destruct conn; destruct p; try discriminate; [injection E as <-; discriminate|]. destruct (nfound po asks); [discriminate|]. injection E as <-. discriminate.
  - destruct p; try discriminate. injection E as <-. discriminate.
  - destruct p; try discriminate. injection E as <-. discriminate.
  - destruct p; try discriminate. injection E as <-. discriminate.
  - destruct p; try discriminate. destruct (existsb _ ps || existsb _ ks || (fd <? 0)); [discriminate|]. injection E as <-. discriminate.
  - destruct p; try discriminate. injection E as <-. discriminate.
  - destruct ok; destruct p; try discriminate; injection E as <-; discriminate.
  - destruct ok; destruct p; try discriminate; injection E as <-; discriminate.
  - destruct p; try discriminate. destruct (existsb _ ps); [|discriminate]. cbn [with_procs kids] in E. destruct (find_kid ks pid) as [k|].
    + injection E as <-. match type of P with pt (free_kid ?st k shrink) = _ => destruct (free_kid_rest st k shrink) as (R1 & _) end. rewrite R1 in P. discriminate.
    + injection E as <-. discriminate.
  - destruct p; try discriminate. destruct (existsb is_exited ps); [discriminate|]. injection E as <-. discriminate.
Qed.

Lemma full_reached : forall max dieby al s, reached max dieby al s -> pt s = Refusing -> too_many max (sessions s) = true.
Proof.
  intros max dieby al s R. induction R as [|s e s' R IH A E]; [discriminate|]. eapply full_step; [exact IH|exact E].
Qed.

(** ** ended processes are seen *)
Definition gone (s : state) : Prop := exists pid, In (pid, Exited) (procs s).
Record seen (s : state) : Prop := {
  seen_chld : gone s -> chld s = true;
  seen_clear : (exists a, pt s = Clear a) -> ~ gone s;
  seen_doomed : pt s <> Ended -> forall pid, ~ In (pid, Doomed) (procs s)
}.

Lemma woken_clear : forall p a, woken p = Clear a -> p = Clear a.
Proof. intros []; cbn; congruence. Qed.
Lemma ends_doomed : forall pid p q, ends pid p = (q, Doomed) -> p = (q, Doomed).
Proof. intros pid [a b] q E. unfold ends in E. cbn [fst] in E. destruct (a =? pid); [discriminate|exact E]. Qed.

Lemma seen_step : forall max dieby s e s', seen s -> timely s e -> step max dieby s e = Some s' -> seen s'.
Proof.
  intros max dieby s e s' [A B C] [NF T] E. destruct s as [p ks po se ch ex al ar ps asks]. unfold gone in *. cbn [procs pt chld] in *.
  assert (KEEP : forall st, procs st = ps -> chld st = ch -> (forall a, pt st = Clear a -> p = Clear a) -> p <> Ended -> seen st).
  { intros st X1 X2 X3 X5. constructor; unfold gone; rewrite ?X1, ?X2; [exact A| |].
    - intros (a & X4). apply B. exists a. apply X3. exact X4.
    - intros _. exact (C X5). }
  assert (WE : forall q, woken q = Ended <-> q = Ended) by (intros []; cbn; split; congruence).
  assert (WOKE : forall st, procs st = ps -> chld st = ch -> pt st = woken p -> seen st).
  { intros st X1 X2 X3. constructor; unfold gone; rewrite ?X1, ?X2, ?X3; [exact A| |rewrite WE; exact C]. intros (a & X). apply B. exists a. apply woken_clear. exact X. }
  destruct e; cbn [step pt exit chld kids sessions procs armed asking alrm polled] in E.
  - destruct p; try discriminate; injection E as <-; try (apply KEEP; cbn; try reflexivity; discriminate; fail).
    + destruct ex; apply KEEP; cbn; try reflexivity; discriminate.
    + destruct ex; apply KEEP; cbn; try reflexivity; discriminate.
    + destruct ex; apply KEEP; cbn; try reflexivity; discriminate.
    + destruct (too_many max se); apply KEEP; cbn; try reflexivity; discriminate.
    + destruct (too_many max se); apply KEEP; cbn; try reflexivity; discriminate.
    + destruct ex; apply KEEP; cbn; try reflexivity; discriminate.
    + destruct ch; apply KEEP; cbn; try reflexivity; try discriminate. intros b X. destruct a; discriminate.
    + specialize (B (ex_intro _ a eq_refl)). constructor; unfold gone; cbn [procs pt chld]; [intros X; contradiction| |].
      * intros (b & X). destruct a; discriminate.
      * intros _. apply C. discriminate.
    + destruct (negb al && negb match ks with [] => true | _ => false end); apply KEEP; cbn; try reflexivity; discriminate.
    + destruct ch; apply KEEP; cbn; try reflexivity; discriminate.
    + destruct ks as [|k ks]; [apply KEEP; cbn; try reflexivity; discriminate|]. constructor; unfold gone; cbn [at_ with_procs procs pt chld].
      * intros (pid & I). apply A. apply in_map_iff in I. destruct I as ([q []] & X & I); try discriminate. cbn in X. injection X as ->. eauto.
      * intros (a & X). discriminate.
      * intros X. congruence.
  - destruct (existsb _ ps); [|discriminate]. injection E as <-. constructor; unfold gone; cbn [procs pt chld].
    + reflexivity.
    + intros (a & X). apply woken_clear in X. subst p. destruct T.
    + rewrite WE. intros X q I. apply in_map_iff in I. destruct I as (r & Y & I). apply ends_doomed in Y. subst r. exact (C X q I).
  - injection E as <-. apply WOKE; reflexivity.
  - destruct ar; [|discriminate]. injection E as <-. apply WOKE; reflexivity.
  - destruct (existsb _ ks && (0 <=? fd)); [|discriminate]. injection E as <-. constructor; unfold gone; cbn [procs pt chld]; assumption.
  - destruct conn; destruct p; try discriminate.
    + injection E as <-. apply KEEP; cbn; try reflexivity; discriminate.
    + destruct (nfound po asks); [discriminate|]. injection E as <-. apply KEEP; cbn; try reflexivity; discriminate.
  - destruct p; try discriminate. injection E as <-. apply KEEP; cbn; try reflexivity; discriminate.
  - destruct p; try discriminate. injection E as <-. apply KEEP; cbn; try reflexivity; discriminate.
  - destruct p; try discriminate. injection E as <-. apply KEEP; cbn; try reflexivity; discriminate.
  - destruct p; try discriminate. destruct (existsb _ ps || existsb _ ks || (fd <? 0)); [discriminate|]. injection E as <-.
    constructor; unfold gone; cbn [at_ with_procs procs pt chld].
    + intros (q & [I|I]); [discriminate|]. apply A. eauto.
    + intros (a & X). discriminate.
    + intros _ q [I|I]; [discriminate|]. revert I. apply C. discriminate.
  - destruct p; try discriminate. injection E as <-. apply KEEP; cbn; try reflexivity; discriminate.
  - destruct ok; [|destruct NF]. destruct p; try discriminate. injection E as <-. apply KEEP; cbn; try reflexivity; discriminate.
  - destruct ok; destruct p; try discriminate; injection E as <-; apply KEEP; cbn; try reflexivity; discriminate.
  - destruct p; try discriminate. destruct (existsb _ ps) eqn:X; [|discriminate]. cbn [with_procs kids] in E.
    assert (A' : (exists q, In (q, Exited) (filter (fun p => negb (fst p =? pid)) ps)) -> ch = true).
    { intros (q & I). apply filter_In in I. apply A. exists q. tauto. }
    assert (C' : forall q, ~ In (q, Doomed) (filter (fun p => negb (fst p =? pid)) ps)).
    { intros q I. apply filter_In in I. revert q I. intros q (I & _). revert I. apply C. discriminate. }
    destruct (find_kid ks pid) as [k|].
    + injection E as <-. match goal with |- seen (free_kid ?st k shrink) => destruct (free_kid_rest st k shrink) as (R1 & R2 & R3 & _) end.
      constructor; unfold gone; rewrite ?R1, ?R2, ?R3; cbn [procs pt chld]; [exact A'| |intros _; exact C']. intros (b & Y). discriminate.
    + injection E as <-. constructor; unfold gone; cbn [at_ procs pt chld]; [exact A'| |intros _; exact C']. intros (b & Y). discriminate.
  - destruct p; try discriminate. destruct (existsb is_exited ps) eqn:X; [discriminate|]. injection E as <-. constructor; unfold gone; cbn [at_ procs pt chld]; [exact A| |].
    + intros _ (q & I). assert (true = false); [|discriminate]. rewrite <- X. symmetry. apply existsb_exists. exists (q, Exited). auto.
    + intros _. apply C. discriminate.
Qed.

Lemma seen_reached : forall max dieby s, reached max dieby timely s -> seen s.
Proof.
  intros max dieby s R. induction R as [|s e s' R IH A E]; [|eapply seen_step; eassumption].
  constructor; unfold gone; cbn; [intros (p & [])|intros (a & X); discriminate|auto].
Qed.

Lemma split_states : forall l : list (Z * pstate), (forall pid, ~ In (pid, Doomed) l) ->
  (length l = length (filter (fun p => match snd p with Runs => true | _ => false end) l) + length (filter is_exited l))%nat.
Proof.
  induction l as [|[p q] l IH]; intros D; [reflexivity|]. pose proof (IH (fun r I => D r (or_intror I))) as X.
  destruct q; cbn; cbn in X; [lia| |lia]. exfalso. apply (D p). left. reflexivity.
Qed.

Lemma same_length : forall (a b : list Z), NoDup a -> NoDup b -> (forall x, In x a <-> In x b) -> length a = length b.
Proof.
  intros a b A B H. assert (L1 : (length a <= length b)%nat) by (apply NoDup_incl_length; [exact A|intros x; apply H]).
  assert (L2 : (length b <= length a)%nat) by (apply NoDup_incl_length; [exact B|intros x; apply H]). lia.
Qed.

Lemma refused_ok : forall max dieby s, 0 <= max < 2 ^ 32 - 1 -> reached max dieby timely s -> pt s = Refusing ->
  total (serving s) + total (ended s) = max /\ (ended s = [] \/ chld s = true).
Proof.
  intros max dieby s M R P.
  assert (NF : forall s e, timely s e -> no_failure s e) by (intros ? ? []; assumption).
  pose proof (sound_reached _ _ _ _ NF R) as [A B _ _ _ _]. pose proof (seen_reached _ _ _ R) as [S1 _ S2]. pose proof (full_reached _ _ _ _ R P) as F.
  pose proof (safe_reached _ _ _ _ R) as [SF _]. rewrite P in A, B. cbn [pending app] in A, B.
  pose proof (same_length _ _ SF B A) as L. rewrite !map_length in L.
  split.
  - unfold too_many in F. assert (MX : 0 < max) by lia.
    pose proof (counted_reached max dieby timely s ltac:(lia) R) as [K1 K2]. unfold u32 in F. rewrite Z.mod_small in F by (rewrite P in K2; cbn in K2; lia).
    rewrite P in K2. cbn in K2.
    unfold total, serving, ended. rewrite !map_length. rewrite split_states in L by (apply S2; rewrite P; discriminate). lia.
  - unfold ended. destruct (filter is_exited (procs s)) as [|[q r] l] eqn:X; [left; reflexivity|]. right. apply S1.
    assert (I : In (q, r) (filter is_exited (procs s))) by (rewrite X; left; reflexivity). apply filter_In in I. destruct I as (I & Y). destruct r; try discriminate. exists q. exact I.
Qed.

Lemma crash_free : forall max dieby s, reached max dieby no_failure s -> pt s <> Crashed.
Proof. intros max dieby s R. apply (sound_reached max dieby no_failure s); [auto|exact R]. Qed.

(** ** the end *)
Lemma ended_step : forall max dieby s e s', safe s -> (pt s = Ended -> serving s = []) -> step max dieby s e = Some s' -> pt s' = Ended -> serving s' = [].
Proof.
  intros max dieby s e s' SF K E P. destruct s as [p ks po se ch ex al ar ps asks]. cbn [pt] in K. unfold serving in *. cbn [procs] in K.
  assert (W : forall q, woken q = Ended -> q = Ended) by (intros []; cbn; congruence).
  destruct e; cbn [step pt exit chld kids sessions procs armed asking alrm polled] in E.
  - destruct p; try discriminate; injection E as <-; cbn [at_ pt sessions] in *; try discriminate; try (destruct ex; discriminate).
    + destruct (too_many max se); discriminate.
    + destruct (too_many max se); discriminate.
    + destruct ch; [discriminate|]. destruct a; discriminate.
    + destruct a; discriminate.
    + destruct (negb al && negb match ks with [] => true | _ => false end); discriminate.
    + destruct ch; discriminate.
    + destruct SF as [_ SF]. cbn [procs pt kids pending app] in SF.
      match goal with |- ?l = [] => destruct l as [|q l'] eqn:X; [reflexivity|] end. exfalso.
      match type of X with ?t = _ => assert (I : In q t) by (rewrite X; left; reflexivity) end. apply in_serving in I. destruct ks as [|k ks]; cbn [procs with_procs at_] in I.
      * exact (SF _ I).
      * apply (runs_mapped dooms_all) in I; [|apply dooms_all_runs]. destruct I as (_ & Y). discriminate.
  - destruct (existsb _ ps); [|discriminate]. injection E as <-. cbn [pt procs] in *. apply W in P. specialize (K P).
    match goal with |- ?l = [] => destruct l as [|q l'] eqn:X; [reflexivity|] end. exfalso.
    match type of X with ?t = _ => assert (I : In q t) by (rewrite X; left; reflexivity) end. apply in_serving in I. apply (runs_mapped (ends pid)) in I; [|apply ends_runs].
    destruct I as (I & _). apply in_serving in I. rewrite K in I. destruct I.
  - injection E as <-. cbn [pt procs] in *. apply W in P. exact (K P).
  - destruct ar; [|discriminate]. injection E as <-. cbn [pt procs] in *. apply W in P. exact (K P).
  - destruct (existsb _ ks && (0 <=? fd)); [|discriminate]. injection E as <-. cbn [pt procs] in *. exact (K P).
  - destruct conn; destruct p; try discriminate; [injection E as <-; discriminate|]. destruct (nfound po asks); [discriminate|]. injection E as <-. discriminate.
  - destruct p; try discriminate. injection E as <-. discriminate.
  - destruct p; try discriminate. injection E as <-. discriminate.
  - destruct p; try discriminate. injection E as <-. discriminate.
  - destruct p; try discriminate. destruct (existsb _ ps || existsb _ ks || (fd <? 0)); [discriminate|]. injection E as <-. discriminate.
  - destruct p; try discriminate. injection E as <-. discriminate.
  - destruct ok; destruct p; try discriminate; injection E as <-; discriminate.
  - destruct ok; destruct p; try discriminate; injection E as <-; discriminate.
  - destruct p; try discriminate. destruct (existsb _ ps); [|discriminate]. cbn [with_procs kids] in E. destruct (find_kid ks pid) as [k|].
    + injection E as <-. match type of P with pt (free_kid ?st k shrink) = _ => destruct (free_kid_rest st k shrink) as (R1 & _) end. rewrite R1 in P. discriminate.
    + injection E as <-. discriminate.
  - destruct p; try discriminate. destruct (existsb is_exited ps); [discriminate|]. injection E as <-. discriminate.
Qed.

Lemma ended_ok : forall max dieby al s, reached max dieby al s -> pt s = Ended -> serving s = [].
Proof.
  intros max dieby al s R. induction R as [|s e s' R IH A E]; [discriminate|]. eapply ended_step; [eapply safe_reached; exact R|exact IH|exact E].
Qed.

(** how many connections may still be served once the daemon was told to end *)
Definition may_fork (p : point) : nat :=
  match p with Enter | Polling | Accepting | Limit | Limit2 | Forking | Reap ToAccept | Wait ToAccept | Clear ToAccept | Reap ToLimit | Wait ToLimit | Clear ToLimit => 1 | _ => 0 end.
Lemma woken_fork : forall p, (may_fork (woken p) <= may_fork p)%nat.
Proof. intros []; cbn; lia. Qed.

Lemma fork_step : forall max dieby s e s', exit s = true -> step max dieby s e = Some s' -> exit s' = true /\ (forks [e] + may_fork (pt s') <= may_fork (pt s))%nat.
Proof.
  intros max dieby s e s' X E. destruct s as [p ks po se ch ex al ar ps asks]. cbn [exit] in X. subst ex.
  destruct e; cbn [step pt exit chld kids sessions procs armed asking alrm polled] in E; unfold forks; cbn [filter length pt plus].
  - destruct p; try discriminate; injection E as <-; cbn [at_ pt exit]; try (split; [reflexivity|cbn; lia]).
    + split; [reflexivity|]. destruct (too_many max se); cbn; lia.
    + split; [reflexivity|]. destruct (too_many max se); cbn; lia.
    + split; [reflexivity|]. destruct ch; destruct a; cbn; lia.
    + split; [reflexivity|]. destruct a; cbn; lia.
    + split; [reflexivity|]. destruct (negb al && negb match ks with [] => true | _ => false end); cbn; lia.
    + split; [reflexivity|]. destruct ch; cbn; lia.
    + destruct ks; cbn; split; try reflexivity; lia.
  - destruct (existsb _ ps); [|discriminate]. injection E as <-. cbn [pt exit]. split; [reflexivity|apply woken_fork].
  - injection E as <-. cbn [pt exit]. split; [reflexivity|apply woken_fork].
  - destruct ar; [|discriminate]. injection E as <-. cbn [pt exit]. split; [reflexivity|apply woken_fork].
  - destruct (existsb _ ks && (0 <=? fd)); [|discriminate]. injection E as <-. cbn [pt exit]. split; [reflexivity|lia].
  - destruct conn; destruct p; try discriminate.
    + injection E as <-. cbn. split; [reflexivity|lia].
    + destruct (nfound po asks); [discriminate|]. injection E as <-. cbn. split; [reflexivity|lia].
  - destruct p; try discriminate. injection E as <-. cbn. split; [reflexivity|lia].
  - destruct p; try discriminate. injection E as <-. cbn. split; [reflexivity|lia].
  - destruct p; try discriminate. injection E as <-. cbn. split; [reflexivity|lia].
  - destruct p; try discriminate. destruct (existsb _ ps || existsb _ ks || (fd <? 0)); [discriminate|]. injection E as <-. cbn. split; [reflexivity|lia].
  - destruct p; try discriminate. injection E as <-. cbn. split; [reflexivity|lia].
  - destruct ok; destruct p; try discriminate; injection E as <-; cbn; split; try reflexivity; lia.
  - destruct ok; destruct p; try discriminate; injection E as <-; cbn; split; try reflexivity; lia.
  - destruct p; try discriminate. destruct (existsb _ ps); [|discriminate]. cbn [with_procs kids] in E. destruct (find_kid ks pid) as [k|].
    + injection E as <-. match goal with |- exit (free_kid ?st k shrink) = _ /\ _ => destruct (free_kid_rest st k shrink) as (R1 & _ & _ & R2) end. rewrite R1, R2. cbn [with_procs pt exit]. split; [reflexivity|destruct a; cbn; lia].
    + injection E as <-. cbn. split; [reflexivity|lia].
  - destruct p; try discriminate. destruct (existsb is_exited ps); [discriminate|]. injection E as <-. cbn. split; [reflexivity|destruct a; cbn; lia].
Qed.

Lemma fork_run : forall max dieby l s s', exit s = true -> run max dieby s l = Some s' -> (forks l + may_fork (pt s') <= may_fork (pt s))%nat.
Proof.
  intros max dieby. induction l as [|e l IH]; intros s s' X E; cbn [run] in E.
  - injection E as <-. cbn. lia.
  - destruct (step max dieby s e) as [s1|] eqn:Y; [|discriminate]. destruct (fork_step _ _ _ _ _ X Y) as (X1 & F). specialize (IH _ _ X1 E).
    assert (FK : forks (e :: l) = (forks [e] + forks l)%nat) by (unfold forks; destruct e; reflexivity). lia.
Qed.

Lemma fork_ok : forall max dieby l s s', exit s = true -> run max dieby s l = Some s' -> (forks l <= 1)%nat.
Proof. intros max dieby l s s' X E. pose proof (fork_run _ _ _ _ _ X E). assert (may_fork (pt s) <= 1)%nat by (destruct (pt s); try destruct a; cbn; lia). lia. Qed.

(** ** traces *)
Lemma reached_run : forall max dieby al l s s', reached max dieby al s -> (forall t e, al t e) -> run max dieby s l = Some s' -> reached max dieby al s'.
Proof.
  intros max dieby al. induction l as [|e l IH]; intros s s' R A E; cbn [run] in E; [injection E as <-; exact R|].
  destruct (step max dieby s e) as [s1|] eqn:Y; [|discriminate]. eapply IH; [eapply next; [exact R|apply A|exact Y]|exact A|exact E].
Qed.
Fixpoint allowed_run (max dieby : Z) (al : state -> event -> Prop) (s : state) (l : list event) : Prop :=
  match l with [] => True | e :: r => al s e /\ match step max dieby s e with Some s' => allowed_run max dieby al s' r | None => True end end.
Lemma reached_allowed : forall max dieby al l s s', reached max dieby al s -> allowed_run max dieby al s l -> run max dieby s l = Some s' -> reached max dieby al s'.
Proof.
  intros max dieby al. induction l as [|e l IH]; intros s s' R A E; cbn [run] in E; [injection E as <-; exact R|]. cbn [allowed_run] in A. destruct A as (A1 & A2).
  destruct (step max dieby s e) as [s1|] eqn:Y; [|discriminate]. eapply IH; [eapply next; [exact R|exact A1|exact Y]|exact A2|exact E].
Qed.

(** ** the messages of the processes *)
Definition ready (po asks : list Z) (k : kid) : bool := among (k_fd k) po && among (k_fd k) asks.

Lemma ready_rest : forall po asks f ks, ~ In f (map k_fd ks) -> filter (ready po (filter (fun x => negb (x =? f)) asks)) ks = filter (ready po asks) ks.
Proof.
  intros po asks f. induction ks as [|k ks IH]; intros N; [reflexivity|]. cbn [map In] in N.
  assert (R : ready po (filter (fun x => negb (x =? f)) asks) k = ready po asks k).
  { unfold ready. f_equal. apply eq_true_iff_eq. rewrite !among_in, filter_In. intuition lia. }
  cbn [filter]. rewrite R, IH by tauto. reflexivity.
Qed.

Lemma clean_ok : forall ks po asks n, NoDup (map k_fd ks) -> (1 <= n)%nat -> (length (filter (ready po asks) ks) <= n)%nat ->
  forall f, In f (clean ks po asks n) -> In f asks /\ ~ (In f po /\ In f (map k_fd ks)).
Proof.
  induction ks as [|k ks IH]; intros po asks n N P L f I.
  - cbn in *. tauto.
  - cbn [map] in N. inversion N as [|x y N1 N2]; subst. cbn [clean] in I. cbn [filter] in L. fold (ready po asks k) in I. destruct (ready po asks k) eqn:R.
    + cbn [length] in L. destruct n as [|[|n]]; [lia| |].
      * apply filter_In in I. destruct I as (I & X). split; [exact I|]. cbn [map In]. intros (Y & [Z0|Z0]); [rewrite Z0, Z.eqb_refl in X; discriminate|].
        apply in_map_iff in Z0. destruct Z0 as (k' & E' & I'). assert (F : In k' (filter (ready po asks) ks)).
        { apply filter_In. split; [exact I'|]. unfold ready. rewrite E'. apply andb_true_intro. split; apply among_in; assumption. }
        destruct (filter (ready po asks) ks); [destruct F|cbn [length] in L; lia].
      * destruct (IH po (filter (fun f => negb (f =? k_fd k)) asks) (S n) N2 ltac:(lia) ltac:(rewrite ready_rest by exact N1; lia) f I) as (A & B). apply filter_In in A. split; [tauto|].
        cbn [map In]. intros (Y & [Z0|Z0]); [rewrite Z0, Z.eqb_refl in A; destruct A; discriminate|]. apply B. auto.
    + destruct (IH po asks n N2 P L f I) as (A & B). split; [exact A|]. cbn [map In]. intros (Y & [Z0|Z0]); [|apply B; auto].
      unfold ready in R. apply andb_false_iff in R. subst f. destruct R as [R|R]; [apply among_in in Y|apply among_in in A]; congruence.
Qed.

Lemma clean_less : forall ks po asks n f, In f (clean ks po asks n) -> In f asks.
Proof.
  induction ks as [|k ks IH]; intros po asks n f I; cbn [clean] in I; [exact I|]. destruct (among (k_fd k) po && among (k_fd k) asks); [|eauto].
  destruct n as [|[|n]]; [apply filter_In in I; tauto|apply filter_In in I; tauto|]. apply IH in I. apply filter_In in I. tauto.
Qed.

Lemma remove_kid_fd : forall ks pid k f, find_kid ks pid = Some k -> f <> k_fd k -> In f (map k_fd ks) -> In f (map k_fd (remove_kid ks pid)).
Proof.
  induction ks as [|a ks IH]; intros pid k f F N I; cbn [find_kid remove_kid map] in *; [discriminate|]. destruct (k_pid a =? pid).
  - injection F as ->. destruct I as [I|I]; [congruence|exact I].
  - destruct I as [I|I]; [left; exact I|right; eapply IH; eassumption].
Qed.

Definition asked (s : state) : Prop := left (pt s) = false -> forall f, In f (asking s) -> In f (map k_fd (kids s)).

Lemma asked_step : forall max dieby s e s', asked s -> step max dieby s e = Some s' -> asked s'.
Proof.
  intros max dieby s e s' K E. destruct s as [p ks po se ch ex al ar ps asks]. unfold asked in K. cbn [pt asking kids] in K.
  assert (KEEP : forall st, kids st = ks -> asking st = asks -> (left (pt st) = false -> left p = false) -> asked st).
  { intros st X1 X2 X3 X4. rewrite X1, X2. apply K. apply X3. exact X4. }
  destruct e; cbn [step pt exit chld kids sessions procs armed asking alrm polled] in E.
  - destruct p; try discriminate; injection E as <-; try (apply KEEP; cbn; try reflexivity; auto; fail).
    + apply KEEP; cbn [at_ pt kids asking]; try reflexivity. destruct ch; [auto|rewrite left_back; auto].
    + apply KEEP; cbn [at_ pt kids asking]; try reflexivity. rewrite left_back; auto.
    + unfold asked. cbn. discriminate.
    + apply KEEP; cbn [at_ pt kids asking]; try reflexivity. destruct (negb al && negb match ks with [] => true | _ => false end); cbn; auto.
    + apply KEEP; cbn [at_ pt kids asking]; try reflexivity. destruct ch; cbn; auto.
    + destruct ks; apply KEEP; cbn; auto.
  - destruct (existsb _ ps); [|discriminate]. injection E as <-. apply KEEP; cbn [pt kids asking]; try reflexivity. rewrite left_woken. auto.
  - injection E as <-. apply KEEP; cbn [pt kids asking]; try reflexivity. rewrite left_woken. auto.
  - destruct ar; [|discriminate]. injection E as <-. apply KEEP; cbn [pt kids asking]; try reflexivity. rewrite left_woken. auto.
  - destruct (existsb _ ks) eqn:X; [|discriminate]. destruct (0 <=? fd); [|discriminate]. injection E as <-. intros L. cbn [pt kids asking] in *. intros f [<-|I]; [|exact (K L f I)].
    apply existsb_exists in X. destruct X as (k & I & X). apply in_map_iff. exists k. split; [lia|exact I].
  - destruct conn; destruct p; try discriminate.
    + injection E as <-. apply KEEP; cbn; auto.
    + destruct (nfound po asks); [discriminate|]. injection E as <-. intros L f I. cbn [pt kids asking] in *. apply clean_less in I. exact (K eq_refl f I).
  - destruct p; try discriminate. injection E as <-. apply KEEP; cbn; auto.
  - destruct p; try discriminate. injection E as <-. apply KEEP; cbn; auto.
  - destruct p; try discriminate. injection E as <-. apply KEEP; cbn; auto.
  - destruct p; try discriminate. destruct (existsb _ ps || existsb _ ks || (fd <? 0)); [discriminate|]. injection E as <-. apply KEEP; cbn; auto.
  - destruct p; try discriminate. injection E as <-. apply KEEP; cbn; auto.
  - destruct ok; destruct p; try discriminate; injection E as <-.
    + intros L f I. cbn [pt kids asking map k_fd] in *. right. exact (K eq_refl f I).
    + apply KEEP; cbn; auto.
  - destruct ok; destruct p; try discriminate; injection E as <-; apply KEEP; cbn; auto.
  - destruct p; try discriminate. destruct (existsb _ ps); [|discriminate]. cbn [with_procs kids] in E. destruct (find_kid ks pid) as [k|] eqn:F.
    + injection E as <-. destruct (find_kid_in _ _ _ F) as (_ & KP). unfold free_kid. cbn [with_procs pt kids polled sessions chld exit alrm armed procs asking]. rewrite KP.
      assert (G1 : left (Wait a) = false -> forall f, In f (filter (fun x => negb (x =? k_fd k)) asks) -> In f (map k_fd (remove_kid ks pid))).
      { intros L f I. apply filter_In in I. eapply remove_kid_fd; [exact F|lia|]. apply K; [exact L|tauto]. }
      assert (G2 : left (Wait a) = false -> forall f, In f (filter (fun x => negb (x =? k_fd k)) asks) -> In f (map k_fd ks)).
      { intros L f I. apply filter_In in I. apply K; [exact L|tauto]. }
      destruct (k_fd k <? 0); [exact G1|]. destruct (existsb (fun f => f =? k_fd k) po); [|exact G2]. destruct shrink; [exact G1|exact G2].
    + injection E as <-. intros L; discriminate.
  - destruct p; try discriminate. destruct (existsb is_exited ps); [discriminate|]. injection E as <-. apply KEEP; cbn [at_ pt kids asking]; auto.
Qed.

Lemma asked_reached : forall max dieby al s, reached max dieby al s -> asked s.
Proof.
  intros max dieby al s R. induction R as [|s e s' R IH A E]; [intros L f []|]. eapply asked_step; eassumption.
Qed.

Lemma served_ok : forall max dieby s s', reached max dieby no_failure s -> step max dieby s (Ready false) = Some s' -> asking s' = [].
Proof.
  intros max dieby s s' R E. pose proof (sound_reached max dieby no_failure s ltac:(auto) R) as [_ _ _ D _ _]. pose proof (asked_reached _ _ _ _ R) as A.
  destruct s as [p ks po se ch ex al ar ps asks]. unfold asked in A. cbn [pt kids polled asking] in *. cbn [step pt kids polled asking] in E.
  destruct p; try discriminate. cbn [left] in *. destruct (D eq_refl) as (D1 & D2). specialize (A eq_refl).
  destruct (nfound po asks) as [|n] eqn:NF; [discriminate|]. injection E as <-. cbn [asking].
  assert (L : (length (filter (ready po asks) ks) <= S n)%nat).
  { rewrite <- NF. unfold nfound. rewrite <- (map_length k_fd). apply NoDup_incl_length; [apply nodup_map_filter; exact D1|].
    intros f I. apply in_map_iff in I. destruct I as (k & <- & I). apply filter_In in I. destruct I as (I & X). unfold ready in X. apply andb_prop in X.
    apply filter_In. split; [apply among_in; tauto|tauto]. }
  destruct (clean ks po asks (S n)) as [|f l] eqn:X; [reflexivity|]. exfalso.
  destruct (clean_ok ks po asks (S n) D1 ltac:(lia) L f ltac:(rewrite X; left; reflexivity)) as (I & N). apply N. pose proof (A f I) as I'. split; [|exact I'].
  apply in_map_iff in I'. destruct I' as (k & <- & I'). destruct (D2 k I') as (_ & [Y|Y]); [exact Y|discriminate].
Qed.

(** ** a process that stays in the tables *)
Definition spent (s : state) : Prop := procs s = [] /\ sessions s = 1 /\ match pt s with Forking | Adding _ _ | Growing _ => False | _ => True end.

Lemma spent_step : forall dieby s e s', spent s -> step 1 dieby s e = Some s' -> spent s'.
Proof.
  intros dieby s e s' (P & N & Q) E. destruct s as [p ks po se ch ex al ar ps asks]. cbn [procs sessions pt] in *. subst ps se. unfold spent.
  assert (W : forall q, match q with Forking | Adding _ _ | Growing _ => False | _ => True end -> match woken q with Forking | Adding _ _ | Growing _ => False | _ => True end) by (intros []; cbn; auto).
  destruct e; cbn [step pt exit chld kids sessions procs armed asking alrm polled existsb] in E.
  - destruct p; try discriminate; injection E as <-; try destruct ex; try destruct ch; try destruct a; try destruct al; try destruct ks; cbn; auto.
  - discriminate.
  - injection E as <-. cbn [procs sessions pt]. split; [reflexivity|split; [reflexivity|first [exact Q|exact (W p Q)]]].
  - destruct ar; [|discriminate]. injection E as <-. cbn [procs sessions pt]. split; [reflexivity|split; [reflexivity|first [exact Q|exact (W p Q)]]].
  - destruct (existsb _ ks && (0 <=? fd)); [|discriminate]. injection E as <-. cbn [procs sessions pt]. split; [reflexivity|split; [reflexivity|first [exact Q|exact (W p Q)]]].
  - destruct conn; destruct p; try discriminate; [injection E as <-; cbn; auto|]. destruct (nfound po asks); [discriminate|]. injection E as <-. cbn; auto.
  - destruct p; try discriminate. injection E as <-. cbn; auto.
  - destruct p; try discriminate. injection E as <-. cbn; auto.
  - destruct p; try discriminate. injection E as <-. cbn; auto.
  - destruct p; try discriminate. destruct Q.
  - destruct p; try discriminate. destruct Q.
  - destruct ok; destruct p; try discriminate; destruct Q.
  - destruct ok; destruct p; try discriminate; destruct Q.
  - destruct p; discriminate.
  - destruct p; try discriminate. injection E as <-. cbn; auto.
Qed.

Lemma spent_run : forall dieby l s s', spent s -> run 1 dieby s l = Some s' -> spent s'.
Proof.
  intros dieby. induction l as [|e l IH]; intros s s' P E; cbn [run] in E; [injection E as <-; exact P|].
  destruct (step 1 dieby s e) as [s1|] eqn:Y; [|discriminate]. eapply IH; [eapply spent_step; eassumption|exact E].
Qed.

Lemma run_app : forall max dieby l1 l2 s s1, run max dieby s l1 = Some s1 -> run max dieby s (l1 ++ l2) = run max dieby s1 l2.
Proof.
  intros max dieby. induction l1 as [|e l IH]; intros l2 s s1 E; cbn [run app] in *; [injection E as ->; reflexivity|]. destruct (step max dieby s e); [|discriminate]. apply IH. exact E.
Qed.
Fixpoint times (n : nat) (l : list event) : list event := match n with O => [] | S n => l ++ times n l end.
Lemma run_times : forall max dieby s l n, run max dieby s l = Some s -> run max dieby s (times n l) = Some s.
Proof. intros max dieby s l n E. induction n as [|n IH]; [reflexivity|]. cbn [times]. rewrite (run_app _ _ _ _ _ _ E). exact IH. Qed.
Lemma forks_times : forall l n, forks (times n l) = (n * forks l)%nat.
Proof.
  intros l n. induction n as [|n IH]; [reflexivity|]. cbn [times]. unfold forks in *. rewrite filter_app, app_length, IH. lia.
Qed.
