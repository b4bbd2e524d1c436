(** Property theorems about the signals of the caller when the process of a session is started: C146 *)
From Coq Require Import List Bool Arith Lia.
From Verif Require Import Fork_Model.
Import ListNotations.

(** ** Specification *)

(** what is done with a signal after a session was started: what was done before, but SIGCHLD is handled if nothing was set *)
Definition own (f : sig -> disp) (s : sig) : disp := match s with CHLD => match f CHLD with Dfl => Nothing | d => d end | _ => f s end.
Definition own_mask (m : sig -> bool) (s : sig) : bool := match s with CHLD => false | _ => m s end.
(** what the new process does with a signal *)
Definition in_session (f : sig -> disp) (s : sig) : disp :=
  match s with USR1 | USR2 | INT | ALRM => Catch | PIPE | HUP | TERM => Ign | _ => own f s end.

(** ** Proofs *)

Lemma eqb_spec : forall a b, reflect (a = b) (sig_eqb a b).
Proof. intros [] []; cbn; try (constructor; congruence). destruct (Nat.eqb_spec n n0); constructor; congruence. Qed.
Lemma supd_same : forall {A} (f : sig -> A) s v, supd f s v s = v.
Proof. intros. unfold supd. destruct (eqb_spec s s); congruence. Qed.
Lemma supd_other : forall {A} (f : sig -> A) s v t, t <> s -> supd f s v t = f t.
Proof. intros. unfold supd. destruct (eqb_spec t s); congruence. Qed.

Lemma arrive_keeps : forall l t, hd (fold_left arrive l t) = hd t /\ mk (fold_left arrive l t) = mk t.
Proof.
  induction l as [|s l IH]; intros t; [split; reflexivity|]. cbn [fold_left]. destruct (IH (arrive t s)) as (-> & ->). unfold arrive. destruct (mk t s); split; reflexivity.
Qed.
Lemma arrive_log : forall l t s d, In (s, d) (lg (fold_left arrive l t)) -> In (s, d) (lg t) \/ (mk t s = false /\ d = hd t s).
Proof.
  induction l as [|x l IH]; intros t s d I; [auto|]. cbn [fold_left] in I. apply IH in I. unfold arrive in I. destruct (mk t x) eqn:M; cbn [lg mk hd] in I; [exact I|].
  destruct I as [[I|I]|I]; auto. injection I as <- <-. auto.
Qed.
Lemma arrive_stays : forall l t s, (exists d, In (s, d) (lg t)) \/ (mk t s = true /\ pd t s = true) ->
  (exists d, In (s, d) (lg (fold_left arrive l t))) \/ (mk (fold_left arrive l t) s = true /\ pd (fold_left arrive l t) s = true).
Proof.
  induction l as [|x l IH]; intros t s Q; [exact Q|]. cbn [fold_left]. apply IH. unfold arrive. destruct (mk t x) eqn:M; cbn [lg mk pd].
  - destruct Q as [Q|(Q1 & Q2)]; [auto|]. right. split; [exact Q1|]. unfold supd. destruct (sig_eqb s x); auto.
  - destruct Q as [(d & Q)|Q]; [left; exists d; right; exact Q|auto].
Qed.
Lemma arrive_in : forall l t s, In s l -> (exists d, In (s, d) (lg (fold_left arrive l t))) \/ (mk (fold_left arrive l t) s = true /\ pd (fold_left arrive l t) s = true).
Proof.
  induction l as [|x l IH]; intros t s I; [destruct I|]. cbn [fold_left]. destruct I as [->|I]; [|apply IH; exact I]. apply arrive_stays. unfold arrive. destruct (mk t s) eqn:M; cbn [lg mk pd].
  - right. split; [exact M|]. apply supd_same.
  - left. exists (hd t s). left. reflexivity.
Qed.

Section S.
Variable all : list sig.
Variable arr : nat -> list sig.
Variable fail : nat -> bool.

Definition same (w v : world) : Prop :=
  hd (cur w) = hd (cur v) /\ mk (cur w) = mk (cur v) /\ old w = old v /\ omask w = omask v /\
  option_map hd (kid w) = option_map hd (kid v) /\ option_map mk (kid w) = option_map mk (kid v) /\ option_map pd (kid w) = option_map pd (kid v).
Lemma same_does : forall c w v, same w v -> same (does all c w) (does all c v).
Proof.
  intros c w v (E1 & E2 & E3 & E4 & E5 & E6 & E7).
  destruct c; unfold same, does, on_cur, setmask, sigaction; cbn [cur old omask kid hd mk pd option_map]; rewrite ?E1, ?E2, ?E3, ?E4; repeat split; auto.
  all: destruct (hd (cur v) CHLD); cbn [cur old omask kid hd mk pd option_map]; auto; rewrite ?E1; reflexivity.
Qed.
Fixpoint runs (l : list call) (v : world) : world := match l with [] => v | c :: l => runs l (does all c v) end.
Lemma runs_app : forall a b v, runs (a ++ b) v = runs b (runs a v).
Proof. induction a as [|c a IH]; intros b v; [reflexivity|]. apply IH. Qed.
Lemma hook_pure : forall l i w v w', same w v -> hook all arr fail l i w = (w', true) -> same w' (runs l v).
Proof.
  induction l as [|c l IH]; intros i w v w' SM E; cbn [hook runs] in *; [injection E as <-; exact SM|].
  destruct (fail i && _); [discriminate|]. eapply IH; [|exact E]. apply same_does. destruct SM as (E1 & E2 & E3 & E4 & E5 & E6 & E7). unfold same, on_cur. cbn [cur old omask kid].
  destruct (arrive_keeps (arr i) (cur w)) as (-> & ->). repeat split; auto.
Qed.

Definition before (t : sigs) : world := World t (fun _ => Dfl) (fun _ => false) None.
Lemma same_refl : forall w, same w w.
Proof. intros w. unfold same. repeat split. Qed.

Definition run (l : list call) (t : sigs) : world := runs l (before t).
Lemma hook_run : forall l t w, hook all arr fail l 0 (before t) = (w, true) -> same w (run l t).
Proof. intros l t w E. unfold run. eapply hook_pure; [apply same_refl|exact E]. Qed.
Lemma run_cur : forall t s, hd (cur (run calls t)) s = own (hd t) s /\ mk (cur (run calls t)) s = own_mask (mk t) s.
Proof. intros [f m p g] s. destruct (f CHLD) eqn:FC; (split; [destruct s; lazy -[orb]; rewrite ?FC; reflexivity|destruct s; lazy -[orb]; rewrite ?FC; reflexivity]). Qed.
Lemma run_mid : forall t s, hd (cur (run (firstn 10 calls) t)) s = in_session (hd t) s /\ mk (cur (run (firstn 10 calls) t)) s = mk t s || eight s.
Proof. intros [f m p g] s. destruct (f CHLD) eqn:FC; (split; [destruct s; lazy -[orb]; rewrite ?FC; reflexivity|destruct s; lazy -[orb]; rewrite ?FC; reflexivity]). Qed.
Lemma run_kid : forall t, kid (run calls t) = Some (Sigs (hd (cur (run (firstn 10 calls) t))) (mk (cur (run (firstn 10 calls) t))) (fun _ => false) []).
Proof.
  intros t. unfold run at 1. rewrite <- (firstn_skipn 10 calls) at 1. rewrite runs_app. unfold run. generalize (runs (firstn 10 calls) (before t)). intros v. reflexivity.
Qed.

Lemma started : forall t w, start all arr fail t = (w, true) ->
  (forall s, hd (cur w) s = own (hd t) s) /\ (forall s, mk (cur w) s = own_mask (mk t) s) /\
  exists k, kid w = Some k /\ (forall s, hd k s = in_session (hd t) s) /\ (forall s, mk k s = mk t s || eight s) /\ (forall s, pd k s = false).
Proof.
  intros t w E. pose proof (hook_run calls t w E) as SS. clear E. revert SS. pose proof (run_cur t) as RC. pose proof (run_mid t) as RM. pose proof (run_kid t) as RK. revert RC RM RK.
  generalize (run calls t) (run (firstn 10 calls) t). intros v u RC RM RK SS. destruct SS as (H1 & H2 & _ & _ & H5 & H6 & H7).
  rewrite H1, H2. split; [intros s; apply RC|]. split; [intros s; apply RC|]. rewrite RK in *. cbn [option_map hd mk pd] in *.
  destruct (kid w) as [k|]; [|discriminate]. exists k. split; [reflexivity|]. cbn [option_map] in *.
  assert (H5' : hd k = hd (cur u)) by congruence. assert (H6' : mk k = mk (cur u)) by congruence. assert (H7' : pd k = fun _ => false) by congruence.
  rewrite H5', H6', H7'. split; [intros s; apply RM|]. split; [intros s; apply RM|reflexivity].
Qed.

(** *** What was handled while the process was started *)

Definition middle (c : call) : bool := match c with Block | Unblock => false | Set_ s _ | Restore s => eight s | _ => true end.
(** while the eight signals are blocked *)
Definition quiet (t : sigs) (w : world) : Prop :=
  (forall s, eight s = true -> mk (cur w) s = true) /\ (forall s, eight s = false -> hd (cur w) s = hd t s) /\
  (forall s d, In (s, d) (lg (cur w)) -> In (s, d) (lg t) \/ d = hd t s \/ d = own (hd t) s).
Lemma quiet_arrive : forall t w l, quiet t w -> quiet t (on_cur (fun x => fold_left arrive l x) w).
Proof.
  intros t w l (Q1 & Q2 & Q3). unfold quiet, on_cur. cbn [cur]. destruct (arrive_keeps l (cur w)) as (-> & ->). split; [exact Q1|]. split; [exact Q2|].
  intros s d I. apply arrive_log in I. destruct I as [I|(M & ->)]; [auto|]. right. left. destruct (eight s) eqn:E; [specialize (Q1 _ E); congruence|auto].
Qed.
Lemma quiet_does : forall t w c, middle c = true -> quiet t w -> quiet t (does all c w).
Proof.
  intros t w c M (Q1 & Q2 & Q3). destruct c as [|s d| | | |s|]; try discriminate; cbn [middle] in M; unfold quiet, does, on_cur, sigaction; cbn [cur hd mk lg]; auto.
  - split; [exact Q1|]. split; [|exact Q3]. intros x X. rewrite supd_other by congruence. auto.
  - destruct (hd (cur w) CHLD); cbn [cur hd mk lg]; auto. split; [exact Q1|]. split; [|exact Q3]. intros x X. rewrite supd_other by (intros ->; discriminate). auto.
  - split; [exact Q1|]. split; [|exact Q3]. intros x X. rewrite supd_other by congruence. auto.
Qed.
Lemma hook_quiet : forall l i t w w', forallb middle l = true -> quiet t w -> hook all arr fail (l ++ [Unblock]) i w = (w', true) ->
  exists j v, quiet t v /\ w' = does all Unblock (on_cur (fun x => fold_left arrive (arr j) x) v).
Proof.
  induction l as [|c l IH]; intros i t w w' M Q E; cbn [app hook] in E.
  - destruct (fail i && _); [discriminate|]. injection E as <-. exists i, w. split; [exact Q|reflexivity].
  - cbn [forallb] in M. apply andb_true_iff in M. destruct M as (M1 & M2). destruct (fail i && _); [discriminate|]. eapply IH; [exact M2| |exact E]. apply quiet_does; [exact M1|]. apply quiet_arrive, Q.
Qed.
Lemma due_log : forall (f : sig -> disp) l s d, In (s, d) (map (fun s => (s, f s)) l) -> d = f s.
Proof. intros f l s d I. apply in_map_iff in I. destruct I as (x & X & _). congruence. Qed.

Lemma logged : forall t w s d, start all arr fail t = (w, true) -> In (s, d) (lg (cur w)) -> In (s, d) (lg t) \/ d = hd t s \/ d = own (hd t) s.
Proof.
  intros t w s d E I. pose proof (started _ _ E) as (H1 & _).
  change (start all arr fail t) with (hook all arr fail (Block :: removelast (tl calls) ++ [Unblock]) 0 (before t)) in E. cbn [hook] in E. destruct (fail 0 && _); [discriminate|].
  apply hook_quiet with (t := t) in E; [|reflexivity|].
  - destruct E as (j & v & Q & ->). apply quiet_arrive with (l := arr j) in Q. destruct Q as (_ & _ & Q3). cbn [does on_cur cur setmask lg hd] in *. apply in_app_or in I. destruct I as [I|I]; [|auto].
    apply due_log in I. right. right. rewrite I. apply H1.
  - unfold quiet. cbn [does cur setmask mk hd lg on_cur before]. destruct (arrive_keeps (arr 0) t) as (-> & ->). split; [intros x ->; apply orb_true_r|]. split; [reflexivity|].
    intros x y J. apply in_app_or in J. destruct J as [J|J].
    + apply due_log in J. auto.
    + apply arrive_log in J. destruct J as [J|(_ & ->)]; auto.
Qed.

(** *** No signal is lost *)

Definition kept (s : sig) (w : world) : Prop := (exists d, In (s, d) (lg (cur w))) \/ (mk (cur w) s = true /\ pd (cur w) s = true).
Definition heard (s : sig) (w : world) : Prop := hd (cur w) s <> Ign /\ old w s <> Ign.
Lemma kept_mask : forall s m t, In s all -> (exists d, In (s, d) (lg t)) \/ pd t s = true ->
  (exists d, In (s, d) (lg (setmask all m t))) \/ (mk (setmask all m t) s = true /\ pd (setmask all m t) s = true).
Proof.
  intros s m t A [(d & I)|P]; unfold setmask; cbn [lg mk pd].
  - left. exists d. apply in_or_app. auto.
  - destruct (m s) eqn:M; [right; rewrite P; auto|]. left. exists (hd t s). apply in_or_app. left. apply in_map_iff. exists s. split; [reflexivity|]. apply filter_In. split; [exact A|]. rewrite P, M. reflexivity.
Qed.
Lemma kept_does : forall s c w, In s all -> c <> Set_ s Ign -> heard s w -> heard s (does all c w) /\ (kept s w -> kept s (does all c w)).
Proof.
  intros s c w AI NI (H1 & H2).
  assert (SA : forall x d o, (x = s -> d <> Ign) -> kept s w -> kept s (World (sigaction x d (cur w)) o (omask w) (kid w))).
  { intros x d o D [(e & I)|(M & P)]; unfold kept, sigaction; cbn [cur lg mk pd]; [left; eauto|]. right. split; [exact M|]. destruct d; try exact P. rewrite supd_other; [exact P|].
    intros ->. apply D; reflexivity. }
  destruct c as [|x d| | | |x|]; cbn [does on_cur].
  - split; [split; assumption|]. intros K. unfold kept. cbn [cur]. apply kept_mask; [exact AI|]. destruct K as [K|(_ & K)]; auto.
  - split.
    + unfold heard. cbn [cur old sigaction hd]. unfold supd. destruct (eqb_spec s x) as [<-|N]; [|split; assumption]. split; [|exact H1]. intros ->. apply NI. reflexivity.
    + apply SA. intros -> ->. apply NI. reflexivity.
  - split; [split; assumption|auto].
  - destruct (hd (cur w) CHLD) eqn:X; try (split; [split; assumption|auto]). split.
    + unfold heard, on_cur. cbn [cur old sigaction hd]. unfold supd. destruct (sig_eqb s CHLD); (split; [congruence|exact H2]).
    + apply SA. intros _. discriminate.
  - split; [split; assumption|]. intros K. exact K.
  - split.
    + unfold heard, on_cur. cbn [cur old sigaction hd]. unfold supd. destruct (eqb_spec s x) as [<-|N]; (split; [congruence|exact H2]).
    + apply SA. intros ->. exact H2.
  - split; [split; assumption|]. intros K. unfold kept. cbn [cur]. apply kept_mask; [exact AI|]. destruct K as [K|(_ & K)]; auto.
Qed.
Lemma heard_arrive : forall s l w, heard s w -> heard s (on_cur (fun x => fold_left arrive l x) w).
Proof. intros s l w H. unfold heard, on_cur. cbn [cur old]. destruct (arrive_keeps l (cur w)) as (-> & _). exact H. Qed.
Lemma hook_kept : forall s l i w w', In s all -> ~ In (Set_ s Ign) l -> heard s w -> hook all arr fail l i w = (w', true) ->
  (kept s w \/ exists j, i <= j < i + length l /\ In s (arr j)) -> kept s w'.
Proof.
  intros s. induction l as [|c l IH]; intros i w w' AI NI H E K; cbn [hook] in E.
  - injection E as <-. destruct K as [K|(j & J & _)]; [exact K|]. cbn [length] in J. lia.
  - destruct (fail i && _); [discriminate|]. apply heard_arrive with (l := arr i) in H.
    destruct (kept_does s c (on_cur (fun t => fold_left arrive (arr i) t) w)) as (H' & K'); [exact AI|intros ->; apply NI; left; reflexivity|exact H|].
    eapply IH; [exact AI| |exact H'|exact E|]; [intros I; apply NI; right; exact I|]. destruct K as [K|(j & J & I)].
    + left. apply K'. unfold kept, on_cur. cbn [cur]. apply arrive_stays. exact K.
    + destruct (Nat.eq_dec i j) as [<-|N]; [left; apply K'; unfold kept, on_cur; cbn [cur]; apply arrive_in; exact I|]. right. exists j. cbn [length] in J. split; [lia|exact I].
Qed.
End S.

(** ** C146: starting a session leaves the signals of the caller alone *)

(** Missing: the claim if a call fails, see [C146_failed_fork_refuted].  If the session was started, each signal is handled as before (SIGCHLD is at least noticed), and is blocked if it was
    blocked before (SIGCHLD never); and all that was handled meanwhile was handled so. *)
Theorem C146_caller_partial : forall all arr fail t w, start all arr fail t = (w, true) ->
  (forall s, hd (cur w) s = own (hd t) s) /\ (forall s, mk (cur w) s = own_mask (mk t) s) /\
  (forall s d, In (s, d) (lg (cur w)) -> In (s, d) (lg t) \/ d = hd t s \/ d = own (hd t) s).
Proof.
  intros all arr fail t w E. pose proof (started _ _ _ _ _ E) as (H1 & H2 & _). split; [exact H1|]. split; [exact H2|]. intros s d I. eapply logged; eauto.
Qed.

(** the new process catches the signals that start and stop a session from its first moment on; none can end it by default *)
Theorem C146_session : forall all arr fail t w, start all arr fail t = (w, true) ->
  exists k, kid w = Some k /\ (forall s, hd k s = in_session (hd t) s) /\ (forall s, eight s = true -> mk k s = true) /\ (forall s, pd k s = false).
Proof.
  intros all arr fail t w E. destruct (started _ _ _ _ _ E) as (_ & _ & k & K1 & K2 & K3 & K4). exists k. split; [exact K1|]. split; [exact K2|]. split; [|exact K4].
  intros s X. rewrite K3, X. apply orb_true_r.
Qed.

Definition late (c : call) : bool := match c with Restore _ | Unblock => true | _ => false end.
Definition early (c : call) : bool := match c with Restore _ | Unblock | Fork => false | _ => true end.
Lemma hook_late : forall all arr fail l i v w, forallb late l = true -> hook all arr fail l i v = (w, false) -> kid w = None.
Proof.
  intros all arr fail. induction l as [|c l IH]; intros i v w L E; cbn [hook] in E; [discriminate|]. cbn [forallb] in L. apply andb_true_iff in L. destruct L as (L1 & L2).
  destruct (fail i && _); [|eapply IH; eauto]. injection E as <-. destruct c; try discriminate; reflexivity.
Qed.
Lemma hook_early : forall all arr fail l r i v w, forallb early l = true -> forallb late r = true -> kid v = None -> hook all arr fail (l ++ Fork :: r) i v = (w, false) -> kid w = None.
Proof.
  intros all arr fail. induction l as [|c l IH]; intros r i v w L R K E; cbn [app hook] in E.
  - destruct (fail i && _); [injection E as <-; exact K|]. eapply hook_late; eauto.
  - cbn [forallb] in L. apply andb_true_iff in L. destruct L as (L1 & L2). destruct (fail i && _).
    + injection E as <-. destruct c; try discriminate; exact K.
    + eapply IH; [exact L2|exact R| |exact E]. destruct c; try discriminate; try exact K. cbn [does]. destruct (hd _ CHLD); exact K.
Qed.
(** a failure leaves no process behind *)
Theorem C146_no_process : forall all arr fail t w, start all arr fail t = (w, false) -> kid w = None.
Proof.
  intros all arr fail t w E. eapply (hook_early all arr fail (firstn 10 calls) (skipn 11 calls)); [reflexivity|reflexivity| |exact E]. reflexivity.
Qed.

(** Missing: SIGTERM, SIGHUP and SIGPIPE, see [C146_lost_signal_refuted].  No other signal that arrives meanwhile is lost: it is handled, or stays pending if the caller had it blocked. *)
Theorem C146_no_loss_partial : forall all arr fail t w s j, start all arr fail t = (w, true) -> In s all -> s <> TERM -> s <> HUP -> s <> PIPE -> hd t s <> Ign -> lg t = [] ->
  j < length calls -> In s (arr j) -> (exists d, In (s, d) (lg (cur w)) /\ (d = hd t s \/ d = own (hd t) s)) \/ (own_mask (mk t) s = true /\ pd (cur w) s = true).
Proof.
  intros all arr fail t w s j E A N1 N2 N3 NI L J I.
  assert (K : kept s w).
  { eapply (hook_kept all arr fail s calls 0); [exact A| | |exact E|].
    - cbn. intros X. repeat (destruct X as [X|X]; [try discriminate; injection X; congruence|]). exact X.
    - split; [exact NI|discriminate].
    - right. exists j. split; [lia|exact I]. }
  destruct (C146_caller_partial _ _ _ _ _ E) as (_ & H2 & H3). destruct K as [(d & K)|(K1 & K2)].
  - left. exists d. split; [exact K|]. apply H3 in K. rewrite L in K. destruct K as [[]|K]. exact K.
  - right. rewrite <- H2. auto.
Qed.

Definition daemon : sigs := Sigs (fun _ => App 1) (fun _ => false) (fun _ => false) [].
Definition named : list sig := [USR1; USR2; HUP; TERM; INT; ALRM; PIPE; CHLD].

(** Refuted for SIGTERM: it arrives when the signals have just been blocked; setting it to be ignored discards it, and the handler of the caller never runs. *)
Theorem C146_lost_signal_refuted : exists all arr fail t w, start all arr fail t = (w, true) /\ (forall s, eight s = true -> In s all) /\ hd t TERM = App 1 /\ mk t TERM = false /\
  In TERM (arr 1) /\ lg (cur w) = [] /\ pd (cur w) TERM = false.
Proof.
  exists named, (fun i => match i with 1 => [TERM] | _ => [] end), (fun _ => false), daemon. eexists. split; [lazy; reflexivity|].
  split; [intros []; cbn; tauto || discriminate|]. cbn. tauto.
Qed.

(** Refuted when fork fails: the handlers for the new process stay in the caller; SIGTERM is ignored from then on, and a SIGINT that was pending only sets a flag nobody looks at. *)
Theorem C146_failed_fork_refuted : exists all arr fail t w, start all arr fail t = (w, false) /\ hd t TERM = App 1 /\ hd (cur w) TERM = Ign /\ hd (cur w) INT = Catch /\
  mk (cur w) TERM = false /\ In (INT, Catch) (lg (cur w)).
Proof.
  exists named, (fun i => match i with 5 => [INT] | _ => [] end), (fun i => Nat.eqb i 10), daemon. eexists. split; [lazy; reflexivity|]. cbn. tauto.
Qed.

(** Refuted when a sigaction fails: the signals stay blocked in the caller. *)
Theorem C146_failed_handler_refuted : exists all arr fail t w, start all arr fail t = (w, false) /\ (forall s, mk t s = false) /\ (forall s, eight s = true -> mk (cur w) s = true).
Proof.
  exists named, (fun _ => []), (fun i => Nat.eqb i 4), daemon. eexists. split; [lazy; reflexivity|]. split; [reflexivity|]. intros []; cbn; auto.
Qed.

(** a session is started while SIGUSR1 and another signal arrive *)
Example C146_witness : exists w, start (Other 3 :: named) (fun i => match i with 5 => [USR1; Other 3] | _ => [] end) (fun _ => false) daemon = (w, true) /\
  lg (cur w) = [(USR1, App 1); (Other 3, App 1)].
Proof. eexists. split; [lazy; reflexivity|]. reflexivity. Qed.

Print Assumptions C146_caller_partial.
Print Assumptions C146_session.
Print Assumptions C146_no_process.
Print Assumptions C146_no_loss_partial.
Print Assumptions C146_lost_signal_refuted.
Print Assumptions C146_failed_fork_refuted.
Print Assumptions C146_failed_handler_refuted.
