(** Proofs about powstream: what holds whatever happens *)
From Coq Require Import ZArith List Bool Lia ZifyBool ZifyNat Arith.
From Verif Require Import Base BaseLemmas Arith_Model Sender_Spec Receiver_Spec Pow_Model Pow_Spec.
Import ListNotations.
Open Scope Z_scope.

(** ** Weakest preconditions *)
Definition wp {A} (m : M A) (Q : A -> world -> Prop) (H : halt -> world -> Prop) (w : world) : Prop :=
  match m w with (Ret a, w') => Q a w' | (Halt h, w') => H h w' end.
Lemma wp_bind : forall A B (m : M A) (f : A -> M B) Q H w, wp m (fun a w' => wp (f a) Q H w') H w -> wp (bind m f) Q H w.
Proof. intros A B m f Q H w. unfold wp, bind. destruct (m w) as [[a|h] w']; auto. Qed.
Lemma wp_ret : forall A (a : A) (Q : A -> world -> Prop) H w, Q a w -> wp (ret a) Q H w.
Proof. auto. Qed.
Lemma wp_stop : forall A h (Q : A -> world -> Prop) (H : halt -> world -> Prop) w, H h w -> wp (stop h) Q H w.
Proof. auto. Qed.
Lemma wp_mono : forall A (m : M A) (Q Q' : A -> world -> Prop) H w, wp m Q H w -> (forall a w', Q a w' -> Q' a w') -> wp m Q' H w.
Proof. intros A m Q Q' H w X Y. unfold wp in *. destruct (m w) as [[a|h] w']; auto. Qed.
Lemma wp_when : forall b m (Q : unit -> world -> Prop) H w, (b = true -> wp m Q H w) -> (b = false -> Q tt w) -> wp (when b m) Q H w.
Proof. intros [|]; intros; [auto|]. apply wp_ret. auto. Qed.

(** the same world but for its answers, flags and turn *)
Definition like (w w' : world) : Prop := w_c0 w' = w_c0 w /\ w_c1 w' = w_c1 w /\ w_serial w' = w_serial w /\ w_log w' = w_log w.
Lemma like_refl : forall w, like w w. Proof. unfold like. auto. Qed.
Lemma like_trans : forall w1 w2 w3, like w1 w2 -> like w2 w3 -> like w1 w3. Proof. unfold like. intros w1 w2 w3 (A & B & C & D) (A' & B' & C' & D'). repeat split; congruence. Qed.
Lemma like_conn : forall w w' b, like w w' -> conn_of b w' = conn_of b w. Proof. intros w w' [|] (A & B & _); cbn; congruence. Qed.

Definition wmod (b : bool) (f : conn -> conn) (w : world) : world :=
  mkWorld (if b then w_c0 w else f (w_c0 w)) (if b then f (w_c1 w) else w_c1 w) (w_which w) (w_first w) (w_hup w) (w_term w) (w_serial w) (w_env w) (w_log w).
Definition wemit (e : event) (w : world) : world :=
  mkWorld (w_c0 w) (w_c1 w) (w_which w) (w_first w) (w_hup w) (w_term w) (w_serial w) (w_env w) (w_log w ++ [e]).
Lemma conn_mod : forall b f w, conn_of b (wmod b f w) = f (conn_of b w). Proof. now intros [|]. Qed.
Lemma conn_mod_other : forall b f w, conn_of (negb b) (wmod b f w) = conn_of (negb b) w. Proof. now intros [|]. Qed.
Lemma conn_mod_if : forall b b' f w, conn_of b' (wmod b f w) = if eqb b' b then f (conn_of b w) else conn_of b' w. Proof. now intros [|] [|]. Qed.
Lemma conn_emit : forall b e w, conn_of b (wemit e w) = conn_of b w. Proof. now intros [|]. Qed.

Lemma the_other : forall b b' : bool, b' <> b -> b' = negb b. Proof. intros [|] [|] X; try reflexivity; now destruct X. Qed.

Lemma wp_getc : forall b (Q : conn -> world -> Prop) H w, Q (conn_of b w) w -> wp (getc b) Q H w.
Proof. auto. Qed.
Lemma wp_modc : forall b f (Q : unit -> world -> Prop) H w, Q tt (wmod b f w) -> wp (modc b f) Q H w.
Proof. auto. Qed.
Lemma wp_emit : forall e (Q : unit -> world -> Prop) H w, Q tt (wemit e w) -> wp (emit e) Q H w.
Proof. auto. Qed.
Lemma wp_ask : forall (Q : ans -> world -> Prop) (H : halt -> world -> Prop) w, H HNoMore w -> (forall a w', like w w' -> Q a w') -> wp ask Q H w.
Proof. intros Q H w X Y. unfold wp, ask. destruct (w_env w) as [|a t]; [exact X|]. apply Y. unfold like. auto. Qed.
Lemma wp_remaining : forall (Q : nat -> world -> Prop) H w, (forall n, Q n w) -> wp remaining Q H w.
Proof. unfold wp, remaining. auto. Qed.
Lemma wp_set_flags : forall a b (Q : unit -> world -> Prop) H w, (forall w', like w w' -> Q tt w') -> wp (set_flags a b) Q H w.
Proof. intros a b Q H w X. apply X. unfold like. auto. Qed.
Lemma wp_get_flags : forall (Q : bool * bool -> world -> Prop) H w, (forall f, Q f w) -> wp get_flags Q H w.
Proof. unfold wp, get_flags. auto. Qed.
Lemma wp_flags : forall (Q : bool * bool -> world -> Prop) H w, Q (w_hup w, w_term w) w -> wp get_flags Q H w.
Proof. auto. Qed.
Lemma wp_take_turn : forall (Q : bool -> world -> Prop) H w, (forall b w', like w w' -> Q b w') -> wp take_turn Q H w.
Proof. intros Q H w X. apply X. unfold like. auto. Qed.
Lemma wp_take_first : forall (Q : bool -> world -> Prop) H w, (forall b w', like w w' -> Q b w') -> wp take_first Q H w.
Proof. intros Q H w X. apply X. unfold like. auto. Qed.

(** ** Logs *)
Lemma apart_snoc : forall ends l e, apart ends l ->
  (forall id sid start now, e = EStart id sid start now -> forall id' sid' start' now', In (EStart id' sid' start' now') l -> ~ In (EOver id') l -> ends sid' start' <= start) ->
  apart ends (l ++ [e]).
Proof.
  intros ends l e A N before after id sid start now E id' sid' start' now' I NO.
  destruct after as [|x after] using rev_ind.
  - apply app_inj_tail in E. destruct E as (-> & ->). eapply N; eauto.
  - clear IHafter. change (EStart id sid start now :: after ++ [x]) with ((EStart id sid start now :: after) ++ [x]) in E. rewrite app_assoc in E. apply app_inj_tail in E. destruct E as (-> & ->).
    eapply A; eauto.
Qed.
Lemma stored_snoc : forall id l e, stored id (l ++ [e]) = (stored id l + match e with ESession i _ _ => if Nat.eqb i id then 1 else 0 | _ => 0 end)%nat.
Proof. intros id l e. unfold stored. rewrite filter_app, app_length. cbn [filter]. destruct e; try reflexivity. now destruct (Nat.eqb id0 id). Qed.
Lemma in_snoc : forall A (x y : A) l, In x (l ++ [y]) <-> In x l \/ x = y.
Proof. intros. rewrite in_app_iff. cbn. intuition congruence. Qed.

(** number of the session an event is about *)
Definition about (e : event) : nat :=
  match e with EStart i _ _ _ | EOver i | ESum i _ _ _ _ | ESession i _ _ | EWhole i _ _ | EBroken i | EMissed i => i | EFailed => 0 end.
Definition is_start (e : event) : bool := match e with EStart _ _ _ _ => true | _ => false end.
Definition is_session (e : event) : bool := match e with ESession _ _ _ => true | _ => false end.
(** the log grew, but no session was started *)
Definition calm (w w' : world) : Prop := w_serial w' = w_serial w /\ exists l, w_log w' = w_log w ++ l /\ Forall (fun e => is_start e = false) l.
Lemma calm_refl : forall w, calm w w. Proof. intros w. split; [reflexivity|]. exists []. now rewrite app_nil_r. Qed.
Lemma calm_like : forall w w', like w w' -> calm w w'. Proof. intros w w' (_ & _ & S & L). split; [exact S|]. exists []. now rewrite app_nil_r. Qed.
Lemma calm_trans : forall w1 w2 w3, calm w1 w2 -> calm w2 w3 -> calm w1 w3.
Proof.
  intros w1 w2 w3 (S1 & l1 & L1 & F1) (S2 & l2 & L2 & F2). split; [congruence|]. exists (l1 ++ l2). split; [rewrite L2, L1; now rewrite app_assoc|]. apply Forall_app. auto.
Qed.
Lemma calm_mod : forall b f w, calm w (wmod b f w). Proof. intros. split; [reflexivity|]. exists []. now rewrite app_nil_r. Qed.
Lemma calm_emit : forall e w, is_start e = false -> calm w (wemit e w). Proof. intros. split; [reflexivity|]. exists [e]. auto. Qed.
Lemma calm_dead : forall w w' id, calm w w' -> ~ runs id (w_log w) -> ~ runs id (w_log w').
Proof.
  intros w w' id (_ & l & E & F) D ((sid & start & now & I) & NO). rewrite E in I, NO. apply D. split.
  - apply in_app_iff in I. destruct I as [I|I]; [eauto|]. rewrite Forall_forall in F. specialize (F _ I). discriminate.
  - intros X. apply NO, in_app_iff. now left.
Qed.

(** sums of deltas *)
Fixpoint part (d : nat -> Z) (k n : nat) : Z := match n with O => 0 | S n => d k + part d (S k) n end.
Lemma part_app : forall n m d k, part d k (n + m) = part d k n + part d (k + n) m.
Proof. induction n as [|n IH]; intros m d k; cbn [part Nat.add]; [now rewrite Nat.add_0_r|]. rewrite IH. replace (S k + n)%nat with (k + S n)%nat by lia. ring. Qed.
Lemma part_total : forall n d, part d 0 (S n) = total d n.
Proof.
  induction n as [|n IH]; intros d; [cbn; ring|]. replace (S (S n)) with (S n + 1)%nat by lia. rewrite part_app, IH. cbn [part total Nat.add]. ring.
Qed.

Section Proofs.
Context {N K : nat} {loss iotime retry delay_start : Z} {sender printfiles : bool} {delta : Z -> nat -> Z}.
Notation npackets := (npackets N K).
Definition ends : Z -> Z -> Z := ends_at delta npackets.
Notation next_delta := (next_delta delta).
Notation add_deltas := (add_deltas delta).
Notation write_session := (write_session N K sender printfiles delta).
Notation reset_session := (reset_session N K sender printfiles delta).
Notation close_sessions := (close_sessions N K sender printfiles delta).
Notation sig_check := (sig_check N K sender printfiles delta).

(** ** The invariant *)
Definition W (x : option bool) (w : world) : Prop :=
  (forall e, In e (w_log w) -> (about e < w_serial w)%nat) /\
  (forall b, (c_id (conn_of b w) < w_serial w)%nat) /\
  (c_id (w_c0 w) = c_id (w_c1 w) -> c_id (w_c0 w) = 0%nat) /\
  (forall sid start now, ~ In (EStart 0 sid start now) (w_log w)) /\
  (forall id, runs id (w_log w) -> exists b, id = c_id (conn_of b w)) /\
  (forall b, runs (c_id (conn_of b w)) (w_log w) -> c_cntrl (conn_of b w) = true /\ c_stop (conn_of b w) = true) /\
  apart ends (w_log w) /\
  (forall id, (stored id (w_log w) <= 1)%nat) /\
  (forall b, x <> Some b -> c_fp (conn_of b w) = true -> c_np (conn_of b w) || c_started (conn_of b w) = true ->
     stored (c_id (conn_of b w)) (w_log w) = 0%nat /\ c_id (conn_of b w) <> 0%nat) /\
  (sender = false -> forall b, (c_np (conn_of b w) = true -> c_sctx (conn_of b w) <> None /\ c_fp (conn_of b w) = true) /\
     (c_fp (conn_of b w) = true -> c_started (conn_of b w) = true -> c_sctx (conn_of b w) <> None)).
(** the next session of a connection begins after the one that runs on the other *)
Definition after_other (w : world) : Prop := forall b sid start now, runs (c_id (conn_of b w)) (w_log w) -> In (EStart (c_id (conn_of b w)) sid start now) (w_log w) ->
  c_ptr (conn_of (negb b) w) = true /\ ends sid start <= c_next (conn_of (negb b) w).
Definition I (w : world) : Prop := W None w /\ after_other w.
(** what holds of the log when the program halts *)
Definition H (h : halt) (w : world) : Prop :=
  apart ends (w_log w) /\ (forall id, (stored id (w_log w) <= 1)%nat) /\
  (sender = false -> h <> HCrash /\ h <> HDeep) /\ (printfiles = false -> h <> HGarbage).

Lemma W_H : forall x w h, W x w -> h <> HCrash -> h <> HGarbage -> h <> HDeep -> H h w.
Proof. intros x w h (_ & _ & _ & _ & _ & _ & A & B & _). unfold H. tauto. Qed.
Lemma W_crash : forall x w h, W x w -> sender = true -> h <> HGarbage -> H h w.
Proof. intros x w h (_ & _ & _ & _ & _ & _ & A & B & _) S0. unfold H. rewrite S0. split; [exact A|]. split; [exact B|]. split; [discriminate|tauto]. Qed.
Lemma W_like : forall x w w', like w w' -> W x w -> W x w'.
Proof.
  intros x w w' L (A1 & A2 & A3 & A4 & A5 & A6 & A7 & A8 & A9 & A10). pose proof (fun b => like_conn w w' b L) as LC. destruct L as (L0 & L1 & S & L). unfold W. rewrite S, L, L0, L1.
  split; [exact A1|]. split; [intros b; rewrite LC; apply A2|]. split; [exact A3|]. split; [exact A4|]. split; [intros id R; destruct (A5 id R) as (b & E); exists b; now rewrite LC|].
  split; [intros b; rewrite LC; apply A6|]. split; [exact A7|]. split; [exact A8|]. split; [intros b; rewrite LC; apply A9|]. intros S0 b. rewrite LC. now apply A10.
Qed.
Lemma after_like : forall w w', like w w' -> after_other w -> after_other w'.
Proof. intros w w' L A b sid start now. pose proof (fun b => like_conn w w' b L) as LC. destruct L as (_ & _ & _ & L). rewrite L, !LC. apply A. Qed.
Lemma I_like : forall w w', like w w' -> I w -> I w'.
Proof. intros w w' L (A & B). split; [eapply W_like|eapply after_like]; eauto. Qed.

(** a connection changes *)
Lemma W_mod_new : forall x b f w, W x w -> let c := conn_of b w in c_id (f c) = c_id c ->
  (runs (c_id c) (w_log w) -> c_cntrl (f c) = true /\ c_stop (f c) = true) ->
  (x <> Some b -> c_fp (f c) = true -> c_np (f c) || c_started (f c) = true -> stored (c_id c) (w_log w) = 0%nat /\ c_id c <> 0%nat) ->
  (sender = false -> (c_np (f c) = true -> c_sctx (f c) <> None /\ c_fp (f c) = true) /\ (c_fp (f c) = true -> c_started (f c) = true -> c_sctx (f c) <> None)) ->
  W x (wmod b f w).
Proof.
  intros x b f w (A1 & A2 & A3 & A4 & A5 & A6 & A7 & A8 & A9 & A10) c Eid Hl Hn Hr. unfold W. change (w_log (wmod b f w)) with (w_log w). change (w_serial (wmod b f w)) with (w_serial w).
  assert (IDS: forall b', c_id (conn_of b' (wmod b f w)) = c_id (conn_of b' w)). { intros b'. rewrite conn_mod_if. destruct (eqb b' b) eqn:E; [apply eqb_prop in E; subst; exact Eid|reflexivity]. }
  split; [exact A1|]. split; [intros b'; rewrite IDS; apply A2|]. split.
  { pose proof (IDS false) as I0. pose proof (IDS true) as I1. cbn [conn_of] in I0, I1. rewrite I0, I1. exact A3. }
  split; [exact A4|]. split; [intros id R; destruct (A5 id R) as (b' & E); exists b'; now rewrite IDS|].
  split. { intros b'. rewrite IDS, !conn_mod_if. destruct (eqb b' b) eqn:E; [apply eqb_prop in E; subst; exact Hl|apply A6]. }
  split; [exact A7|]. split; [exact A8|]. split.
  { intros b' X. rewrite IDS, !conn_mod_if. destruct (eqb b' b) eqn:E; [apply eqb_prop in E; subst|now apply A9]. intros F ST. now apply Hn. }
  intros S0 b'. rewrite !conn_mod_if. destruct (eqb b' b) eqn:E; [apply eqb_prop in E; subst; auto|now apply A10].
Qed.
Lemma W_mod : forall x b f w, W x w -> let c := conn_of b w in c_id (f c) = c_id c ->
  (runs (c_id c) (w_log w) -> c_cntrl (f c) = true /\ c_stop (f c) = true) ->
  (x <> Some b -> c_fp (f c) = true -> c_np (f c) || c_started (f c) = true -> c_fp c = true /\ (c_np c || c_started c = true)) ->
  (sender = false -> (c_np (f c) = true -> c_sctx (f c) <> None /\ c_fp (f c) = true) /\ (c_fp (f c) = true -> c_started (f c) = true -> c_sctx (f c) <> None)) ->
  W x (wmod b f w).
Proof.
  intros x b f w V c Eid Hl Hn Hr. apply W_mod_new; [exact V|exact Eid|exact Hl| |exact Hr]. intros X F ST. destruct (Hn X F ST) as (F' & ST'). destruct V as (_ & _ & _ & _ & _ & _ & _ & _ & A9 & _). now apply A9.
Qed.
(** ... by fields that do not matter here *)
Definition core (c : conn) := (c_id c, c_cntrl c, c_stop c, c_fp c, c_np c, c_started c).
Lemma W_mod_core : forall x b f w, W x w -> core (f (conn_of b w)) = core (conn_of b w) ->
  (c_sctx (f (conn_of b w)) = None -> c_sctx (conn_of b w) = None) -> W x (wmod b f w).
Proof.
  intros x b f w V E SC. injection E as E1 E2 E3 E4 E5 E6. apply W_mod; [exact V|exact E1|rewrite E2, E3|rewrite E4, E5, E6; auto|rewrite E4, E5, E6]; destruct V as (_ & _ & _ & _ & _ & A6 & _ & _ & _ & A10); [apply A6|].
  intros S0. destruct (A10 S0 b) as (X & Y). split; [intros Z0; destruct (X Z0) as (X1 & X2); split; [tauto|exact X2]|tauto].
Qed.
Lemma runs_snoc : forall e id l, is_start e = false -> runs id (l ++ [e]) -> runs id l /\ e <> EOver id.
Proof.
  intros e id l NS ((sid & start & now & X) & NO). rewrite in_snoc in X. destruct X as [X|X]; [|subst; discriminate].
  split; [split; [eauto|]|]; intros Y; apply NO, in_snoc; auto.
Qed.
Lemma W_emit : forall x e w, W x w -> (about e < w_serial w)%nat -> is_start e = false -> is_session e = false -> W x (wemit e w).
Proof.
  intros x e w (A1 & A2 & A3 & A4 & A5 & A6 & A7 & A8 & A9 & A10) AB NS NE. unfold W. change (w_log (wemit e w)) with (w_log w ++ [e]). change (w_serial (wemit e w)) with (w_serial w).
  change (w_c0 (wemit e w)) with (w_c0 w). change (w_c1 (wemit e w)) with (w_c1 w).
  assert (ST: forall id, stored id (w_log w ++ [e]) = stored id (w_log w)). { intros id. rewrite stored_snoc. destruct e; try lia. discriminate. }
  split. { intros y X. rewrite in_snoc in X. destruct X as [X| ->]; auto. }
  split; [intros b; rewrite conn_emit; apply A2|]. split; [exact A3|]. split. { intros sid start now X. rewrite in_snoc in X. destruct X as [X|X]; [exact (A4 _ _ _ X)|]. subst. discriminate. }
  split. { intros id R. apply runs_snoc in R; [|exact NS]. destruct (A5 id) as (b & E); [apply R|]. exists b. now rewrite conn_emit. }
  split. { intros b R. rewrite conn_emit in *. apply runs_snoc in R; [|exact NS]. apply A6, R. }
  split. { apply apart_snoc; [exact A7|]. intros. subst. discriminate. }
  split; [intros id; rewrite ST; apply A8|]. split; [intros b; rewrite conn_emit, ST; apply A9|]. intros S0 b. rewrite conn_emit. now apply A10.
Qed.
Lemma W_id : forall x w b, W x w -> (c_id (conn_of b w) < w_serial w)%nat.
Proof. intros x w b (_ & A & _). apply A. Qed.
Lemma emit_over_dead : forall w id, ~ runs id (w_log (wemit (EOver id) w)).
Proof. intros w id (_ & X). apply X. cbn. apply in_snoc. now right. Qed.
Lemma W_dead : forall x w b, W x w -> c_cntrl (conn_of b w) = false \/ c_stop (conn_of b w) = false -> ~ runs (c_id (conn_of b w)) (w_log w).
Proof. intros x w b (_ & _ & _ & _ & _ & A6 & _) X R. destruct (A6 b R). destruct X; congruence. Qed.
(** the records are stored *)
Lemma W_store : forall b w from upto, W None w -> c_fp (conn_of b w) = true -> c_started (conn_of b w) = true -> W (Some b) (wemit (ESession (c_id (conn_of b w)) from upto) w).
Proof.
  intros b w from upto (A1 & A2 & A3 & A4 & A5 & A6 & A7 & A8 & A9 & A10) FP ST. set (e := ESession _ _ _). unfold W. change (w_log (wemit e w)) with (w_log w ++ [e]). change (w_serial (wemit e w)) with (w_serial w).
  change (w_c0 (wemit e w)) with (w_c0 w). change (w_c1 (wemit e w)) with (w_c1 w).
  destruct (A9 b ltac:(discriminate) FP ltac:(rewrite ST; apply orb_true_r)) as (NS & NZ).
  split. { intros y X. rewrite in_snoc in X. destruct X as [X| ->]; [auto|apply A2]. }
  split; [intros b'; rewrite conn_emit; apply A2|]. split; [exact A3|]. split. { intros sid start now X. rewrite in_snoc in X. destruct X as [X|X]; [exact (A4 _ _ _ X)|]. discriminate. }
  split. { intros id R. apply runs_snoc in R; [|reflexivity]. destruct (A5 id) as (b' & E); [apply R|]. exists b'. now rewrite conn_emit. }
  split. { intros b' R. rewrite conn_emit in *. apply runs_snoc in R; [|reflexivity]. apply A6, R. }
  split. { apply apart_snoc; [exact A7|]. intros. discriminate. }
  split. { intros id. rewrite stored_snoc. unfold e. destruct (Nat.eqb_spec (c_id (conn_of b w)) id) as [<-|]; [lia|specialize (A8 id); lia]. }
  split.
  { intros b' X. rewrite conn_emit. intros F' S'. destruct (A9 b' ltac:(discriminate) F' S') as (NS' & NZ'). split; [|exact NZ']. rewrite stored_snoc, NS'. unfold e.
    destruct (Nat.eqb_spec (c_id (conn_of b w)) (c_id (conn_of b' w))) as [E|]; [|reflexivity]. exfalso. destruct b, b'; try (now apply X); cbn in E, NZ; [pose proof (A3 (eq_sym E))|pose proof (A3 E)]; congruence. }
  intros S0 b'. rewrite conn_emit. now apply A10.
Qed.
Lemma W_some : forall b w, W None w -> W (Some b) w.
Proof. intros b w (A1 & A2 & A3 & A4 & A5 & A6 & A7 & A8 & A9 & A10). unfold W. repeat (split; [assumption|]). split; [|assumption]. intros b' _. apply A9. discriminate. Qed.

(** ** Signals *)
Definition cleared (c : conn) : Prop := c_cntrl c = false /\ c_fp c = false /\ c_testfp c = false /\ c_np c = false /\ c_stop c = false /\ c_started c = false /\ c_ptr c = false /\ c_fetch c = false.
Definition closed (w : world) : Prop := forall b, cleared (conn_of b w).
Lemma closed_after : forall x w, W x w -> closed w -> after_other w.
Proof. intros x w V C b sid start now R. exfalso. revert R. eapply W_dead; eauto. left. apply C. Qed.

(** a signal check *)
Definition checks (m : M bool) : Prop := forall w, W None w -> wp m (fun r w' => W None w' /\ calm w w' /\ (r = false /\ like w w' \/ closed w' /\ (r = true \/ sender = true))) H w.

Ltac asks := apply wp_bind; apply wp_ask; [eapply W_H; [eassumption|discriminate|discriminate|discriminate]|].

Lemma fetch_ok : forall m b, sender = true -> checks m -> forall w, W None w ->
  wp (fetch_session m b) (fun r w' => if r then W None w' /\ calm w w' /\ w_log w' = w_log w /\ w_serial w' = w_serial w /\ (exists v, conn_of b w' = set_fetch v (conn_of b w)) /\ conn_of (negb b) w' = conn_of (negb b) w
     else W None w' /\ calm w w' /\ ((exists v, conn_of b w' = set_fetch v (conn_of b w)) /\ conn_of (negb b) w' = conn_of (negb b) w /\ w_log w' = w_log w \/ closed w')) H w.
Proof.
  intros m b SN MC w V. unfold fetch_session. apply wp_bind, wp_getc. apply wp_bind.
  assert (FM: forall v w, W None w -> W None (wmod b (set_fetch v) w)). { intros v w1 V1. apply W_mod_core; auto. }
  apply wp_mono with (Q := fun r w' => W None w' /\ calm w w' /\ ((exists v, conn_of b w' = set_fetch v (conn_of b w)) /\ conn_of (negb b) w' = conn_of (negb b) w /\ w_log w' = w_log w /\ w_serial w' = w_serial w \/ closed w' /\ (r = false -> c_fetch (conn_of b w') = false))).
  - destruct (c_fetch (conn_of b w)) eqn:CF.
    { apply wp_ret. split; [exact V|]. split; [apply calm_refl|]. left. split; [exists true; unfold set_fetch; destruct (conn_of b w); cbn in CF; subst; reflexivity|]. auto. }
    asks. intros a w1 L1. pose proof (W_like _ _ _ L1 V) as V1. destruct (a_ok a).
    + apply wp_bind, wp_modc. apply wp_bind. pose proof (FM true w1 V1) as V2. eapply wp_mono; [apply MC; exact V2|]. intros s w2 (V3 & CA & S2). apply wp_ret. split; [exact V3|].
      split; [eapply calm_trans; [apply calm_like; exact L1|]; eapply calm_trans; [apply calm_mod|exact CA]|]. destruct S2 as [(-> & S2)|(C & S2)].
      * left.
        rewrite !(like_conn _ _ _ S2), conn_mod, conn_mod_other, !(like_conn _ _ _ L1). split; [eauto|]. split; [reflexivity|]. destruct S2 as (_ & _ & SS & SL). rewrite SS, SL. cbn. destruct L1 as (_ & _ & LS & LL). auto.
      * right. split; [exact C|]. intros _. apply C.
    + apply wp_ret. split; [exact V1|]. split; [apply calm_like; exact L1|]. left. rewrite !(like_conn _ _ _ L1). split; [exists false; unfold set_fetch; destruct (conn_of b w); cbn in CF; subst; reflexivity|].
      destruct L1 as (_ & _ & LS & LL). auto.
  - intros r w1 (V1 & C1 & D). destruct r.
    + apply wp_ret. split; [exact V1|]. split; [exact C1|]. destruct D as [(X & Y & Z0 & _)|(X & _)]; auto.
    + apply wp_bind, wp_getc. destruct D as [(X & Y & LL & SS)|(_ & Z0)]; [|rewrite Z0 by reflexivity; apply wp_stop; eapply W_crash; eauto; discriminate].
      destruct (c_fetch (conn_of b w1)); cbn [negb]; [|apply wp_stop; eapply W_crash; eauto; discriminate]. asks. intros a w2 L2. pose proof (W_like _ _ _ L2 V1) as V2.
      assert (LW: w_log w2 = w_log w /\ w_serial w2 = w_serial w). { destruct L2 as (_ & _ & A & B). split; congruence. }
      destruct (a_ok a).
      * apply wp_ret. split; [exact V2|]. split; [eapply calm_trans; [exact C1|apply calm_like; exact L2]|]. rewrite !(like_conn _ _ _ L2). tauto.
      * apply wp_bind, wp_modc, wp_ret. split; [now apply FM|]. split; [eapply calm_trans; [exact C1|]; eapply calm_trans; [apply calm_like; exact L2|apply calm_mod]|]. left.
        rewrite conn_mod, conn_mod_other, !(like_conn _ _ _ L2). destruct X as (v & X). split; [exists false; now rewrite X|]. split; [exact Y|]. apply LW.
Qed.

Lemma add_deltas_ok : forall n b t x w, W x w -> c_sctx (conn_of b w) <> None \/ sender = true ->
  wp (add_deltas n b t) (fun t' w' => W x w' /\ (exists v, conn_of b w' = set_sctx v (conn_of b w) /\ (v = None -> c_sctx (conn_of b w) = None)) /\ conn_of (negb b) w' = conn_of (negb b) w /\
    w_log w' = w_log w /\ w_serial w' = w_serial w) H w.
Proof.
  induction n as [|n IH]; intros b t x w V SC; cbn [Pow_Model.add_deltas].
  - apply wp_ret. split; [exact V|]. split; [exists (c_sctx (conn_of b w)); split; [now destruct (conn_of b w)|auto]|auto].
  - apply wp_bind. unfold Pow_Model.next_delta. apply wp_bind, wp_getc. destruct (c_sctx (conn_of b w)) as [(sid & k)|] eqn:E.
    + apply wp_bind, wp_modc, wp_ret. eapply wp_mono; [apply IH|].
      * apply W_mod_core; [exact V|reflexivity|discriminate].
      * left. rewrite conn_mod. discriminate.
      * intros t' w' (V' & (v & E' & NV) & E1 & E2 & E3). rewrite conn_mod in E', NV. rewrite conn_mod_other in E1. split; [exact V'|]. split; [|auto]. exists v. split; [exact E'|]. intros ->. specialize (NV eq_refl). discriminate.
    + apply wp_stop. destruct SC as [SC|SC]; [now destruct SC|]. eapply W_crash; eauto. discriminate.
Qed.
Lemma rewind_ok : forall b x w, W x w -> c_sctx (conn_of b w) <> None \/ sender = true ->
  wp (rewind b) (fun _ w' => W x w' /\ (exists v, conn_of b w' = set_sctx v (conn_of b w) /\ v <> None) /\ conn_of (negb b) w' = conn_of (negb b) w /\
    w_log w' = w_log w /\ w_serial w' = w_serial w) H w.
Proof.
  intros b x w V SC. unfold rewind. apply wp_bind, wp_getc. destruct (c_sctx (conn_of b w)) as [(sid & k)|] eqn:E.
  - apply wp_modc. rewrite conn_mod, conn_mod_other. split; [apply W_mod_core; [exact V|reflexivity|discriminate]|]. split; [|auto]. eexists. split; [reflexivity|discriminate].
  - apply wp_stop. destruct SC as [SC|SC]; [now destruct SC|]. eapply W_crash; eauto. discriminate.
Qed.
Lemma calm_log : forall w w', w_log w' = w_log w -> w_serial w' = w_serial w -> calm w w'.
Proof. intros w w' L S. split; [exact S|]. exists []. now rewrite app_nil_r. Qed.
(** the parts of a connection that [after_other] and the callers look at are unchanged *)
Definition kept (c c' : conn) : Prop := core c' = core c /\ c_ptr c' = c_ptr c /\ c_next c' = c_next c /\ c_testfp c' = c_testfp c.
Lemma kept_refl : forall c, kept c c. Proof. unfold kept. auto. Qed.
Lemma kept_after : forall w w', (forall b, kept (conn_of b w) (conn_of b w')) -> calm w w' -> after_other w -> after_other w'.
Proof.
  intros w w' KP (_ & l & E & F) A b sid start now R X. destruct (KP b) as (CO & _). destruct (KP (negb b)) as (_ & -> & -> & _). injection CO as CO _ _ _ _ _. rewrite CO in R, X.
  rewrite E in X. apply in_app_iff in X. destruct X as [X|X]; [|rewrite Forall_forall in F; specialize (F _ X); discriminate].
  apply (A b sid start now); [|exact X]. destruct R as (_ & R). split; [eauto|]. intros Y. apply R. rewrite E. apply in_app_iff. now left.
Qed.

(** one connection is kept, the other unchanged *)
Definition spares (b : bool) (w w' : world) : Prop := kept (conn_of b w) (conn_of b w') /\ conn_of (negb b) w' = conn_of (negb b) w.
Lemma spares_refl : forall b w, spares b w w. Proof. intros. split; [apply kept_refl|reflexivity]. Qed.
Lemma spares_like : forall b w w1 w2, spares b w w1 -> like w1 w2 -> spares b w w2.
Proof. intros b w w1 w2 (A & B) L. unfold spares. rewrite !(like_conn _ _ _ L). auto. Qed.
Lemma spares_emit : forall b w w1 e, spares b w w1 -> spares b w (wemit e w1).
Proof. intros b w w1 e (A & B). unfold spares. rewrite !conn_emit. auto. Qed.
Lemma spares_kept : forall b w w', spares b w w' -> forall b', kept (conn_of b' w) (conn_of b' w').
Proof. intros b w w' (A & B) b'. destruct (bool_dec b' b) as [->|NE]; [exact A|]. rewrite (the_other _ _ NE), B. apply kept_refl. Qed.

Lemma write_ok : forall m b aval newend, (sender = true -> checks m) -> forall w, W None w ->
  wp (write_session m b aval newend) (fun _ w' => W (Some b) w' /\ calm w w' /\ (spares b w w' \/ closed w')) H w.
Proof.
  intros m b aval newend MC w V. unfold Pow_Model.write_session. apply wp_bind, wp_getc.
  assert (KR: forall w', W None w' -> calm w w' -> (spares b w w' \/ closed w') -> W (Some b) w' /\ calm w w' /\ (spares b w w' \/ closed w')).
  { intros w' A B C. split; [now apply W_some|]. auto. }
  destruct (negb (c_fp (conn_of b w)) || negb (c_started (conn_of b w)) || negb (aval =? 0)) eqn:GO.
  { apply wp_ret. apply KR; [exact V|apply calm_refl|]. left. apply spares_refl. }
  apply orb_false_iff in GO. destruct GO as (GO & _). apply orb_false_iff in GO. destruct GO as (FP & ST). apply negb_false_iff in FP, ST.
  apply wp_bind.
  apply wp_mono with (Q := fun (go : bool) (w' : world) => W None w' /\ calm w w' /\ if go then spares b w w' else spares b w w' \/ closed w').
  { destruct sender eqn:SN.
    - destruct (c_testfp (conn_of b w)); cbn [negb].
      + asks. intros a w1 L1. pose proof (W_like _ _ _ L1 V) as V1. pose proof (spares_like _ _ _ _ (spares_refl b w) L1) as S1. destruct (a_ok a); cbn [negb].
        * eapply wp_mono; [apply fetch_ok; [exact SN|apply MC; reflexivity|exact V1]|]. intros r w2. rewrite !(like_conn _ _ _ L1). destruct r.
          -- intros (V2 & C & LL & _ & (v & X) & Y). split; [exact V2|]. split; [eapply calm_trans; [apply calm_like; exact L1|exact C]|]. split; [rewrite X; unfold kept; auto|exact Y].
          -- intros (V2 & C & D). split; [exact V2|]. split; [eapply calm_trans; [apply calm_like; exact L1|exact C]|]. destruct D as [((v & X) & Y & _)|D]; [left|now right].
             split; [rewrite X; unfold kept; auto|exact Y].
        * apply wp_ret. split; [exact V1|]. split; [apply calm_like; exact L1|]. now left.
      + apply wp_ret. split; [exact V|]. split; [apply calm_refl|]. left. apply spares_refl.
    - apply wp_ret. split; [exact V|]. split; [apply calm_refl|]. apply spares_refl. }
  intros go w1 (V1 & C1 & X). destruct go; cbn [negb]; [|apply wp_ret; now apply KR].
  asks. intros a w2 L2. pose proof (W_like _ _ _ L2 V1) as V2. pose proof (spares_like _ _ _ _ X L2) as KP2.
  assert (C2: calm w w2) by (eapply calm_trans; [exact C1|apply calm_like; exact L2]).
  destruct (a_ok a); cbn [negb]; [|apply wp_ret; apply KR; auto].
  apply wp_bind.
  apply wp_mono with (Q := fun _ w' => W None w' /\ calm w w' /\ spares b w w').
  { destruct newend; [|apply wp_ret; auto]. asks. intros a3 w3 L3. pose proof (W_like _ _ _ L3 V2) as V3. pose proof (spares_like _ _ _ _ KP2 L3) as KP3.
    assert (C3: calm w w3) by (eapply calm_trans; [exact C2|apply calm_like; exact L3]).
    destruct (a_ok a3); cbn [negb]; [|apply wp_ret; auto].
    assert (SC: c_sctx (conn_of b w3) <> None \/ sender = true).
    { destruct sender eqn:SN; [now right|left]. destruct V3 as (_ & _ & _ & _ & _ & _ & _ & _ & _ & A10). destruct (A10 SN b) as (_ & Y). destruct KP3 as ((CO & _) & _). injection CO as _ _ _ CF _ CS. apply Y; congruence. }
    apply wp_bind. eapply wp_mono; [apply rewind_ok; eassumption|]. intros _ w4 (V4 & (v4 & E4 & NV4) & O4 & LL4 & S4).
    apply wp_bind. eapply wp_mono; [apply add_deltas_ok; [eassumption|left; rewrite E4; exact NV4]|]. intros t w5 (V5 & (v5 & E5 & _) & O5 & LL5 & S5). apply wp_ret. split; [exact V5|].
    split; [eapply calm_trans; [exact C3|]; eapply calm_trans; [apply calm_log; [exact LL4|exact S4]|apply calm_log; [exact LL5|exact S5]]|].
    destruct KP3 as (KP3 & O3). split; [rewrite E5, E4; exact KP3|congruence]. }
  intros e w3 (V3 & C3 & KP3). destruct e as [endnum|]; [|apply wp_ret; apply KR; auto].
  asks. intros a3 w4 L4. pose proof (W_like _ _ _ L4 V3) as V4. pose proof (spares_like _ _ _ _ KP3 L4) as KP4.
  assert (C4: calm w w4) by (eapply calm_trans; [exact C3|apply calm_like; exact L4]).
  apply wp_bind. apply wp_mono with (Q := fun _ w' => w' = w4). { destruct ((a_num a3 =? 0) || (a_num a3 =? 1)); [now apply wp_ret|]. apply wp_stop. eapply W_H; [exact V4|discriminate|discriminate|discriminate]. }
  intros _ w4' ->. apply wp_bind.
  apply wp_mono with (Q := fun _ w' => W (Some b) w' /\ calm w w' /\ spares b w w').
  { apply wp_when; [intros _|intros _; split; [now apply W_some|auto]]. apply wp_emit. destruct KP4 as (KP4 & O4). pose proof KP4 as (CO & _). injection CO as CI _ _ CF _ CS.
    split; [|split]. - rewrite <- CI. apply W_store; congruence. - eapply calm_trans; [exact C4|now apply calm_emit]. - apply spares_emit. split; assumption. }
  intros _ w5 (V5 & C5 & KP5). asks. intros a4 w6 L6. pose proof (W_like _ _ _ L6 V5) as V6. pose proof (spares_like _ _ _ _ KP5 L6) as KP6.
  assert (C6: calm w w6) by (eapply calm_trans; [exact C5|apply calm_like; exact L6]).
  apply wp_bind. apply wp_mono with (Q := fun _ w' => W (Some b) w' /\ calm w w' /\ spares b w w').
  { destruct (a_ok a4); cbn [negb]; [|apply wp_ret; auto]. asks. intros a5 w7 L7. pose proof (W_like _ _ _ L7 V6) as V7. pose proof (spares_like _ _ _ _ KP6 L7) as KP7.
    assert (C7: calm w w7) by (eapply calm_trans; [exact C6|apply calm_like; exact L7]).
    apply wp_bind. apply wp_mono with (Q := fun _ w' => w' = w7). { destruct ((a_num a5 =? 0) || (a_num a5 =? 1)); [now apply wp_ret|]. apply wp_stop. eapply W_H; [exact V7|discriminate|discriminate|discriminate]. }
    intros _ w7' ->. apply wp_bind. apply wp_mono with (Q := fun _ w' => W (Some b) w' /\ calm w w' /\ spares b w w'); [|intros; now apply wp_ret].
    apply wp_when; [intros _|auto]. apply wp_emit. split; [|split].
    - apply W_emit; try reflexivity; [exact V7|]. cbn [about]. destruct KP7 as ((CO & _) & _). injection CO as CI _ _ _ _ _. rewrite <- CI. eapply W_id; eauto.
    - eapply calm_trans; [exact C7|now apply calm_emit].
    - now apply spares_emit. }
  intros named w7 (V7 & C7 & KP7). destruct (printfiles && negb (((a_num a3 =? 0) && a_ok a3) && named)) eqn:G; [|apply wp_ret; auto].
  apply wp_stop. destruct V7 as (_ & _ & _ & _ & _ & _ & A & B & _). unfold H. split; [exact A|]. split; [exact B|]. split; [split; discriminate|]. intros PF. rewrite PF in G. discriminate.
Qed.

Lemma close_cntrl_ok : forall x b w, W x w -> wp (close_cntrl b) (fun _ w' => W x w' /\ calm w w' /\ conn_of b w' = set_cntrl false (conn_of b w) /\ conn_of (negb b) w' = conn_of (negb b) w /\
  ~ runs (c_id (conn_of b w)) (w_log w')) H w.
Proof.
  intros x b w V. unfold close_cntrl. apply wp_bind, wp_getc. apply wp_when; intros E.
  - apply wp_bind, wp_emit, wp_modc. rewrite conn_mod, conn_mod_other, !conn_emit.
    assert (D: ~ runs (c_id (conn_of b w)) (w_log (wemit (EOver (c_id (conn_of b w))) w))) by apply emit_over_dead.
    split; [|split; [|split; [reflexivity|split; [reflexivity|exact D]]]].
    + apply W_mod; [apply W_emit; try reflexivity; [exact V|eapply W_id; eauto]|reflexivity| | |]; rewrite ?conn_emit.
      * intros R. now destruct D.
      * cbn. auto.
      * intros S0. cbn. destruct V as (_ & _ & _ & _ & _ & _ & _ & _ & _ & A10). now apply A10.
    + eapply calm_trans; [|apply calm_mod]. now apply calm_emit.
  - split; [exact V|]. split; [apply calm_refl|]. split; [destruct (conn_of b w); cbn in E; subst; reflexivity|]. split; [reflexivity|]. eapply W_dead; eauto.
Qed.
(** a connection that is cleared is not used any more *)
Lemma W_clear : forall b f w, W (Some b) w -> (forall c, c_id (f c) = c_id c /\ c_fp (f c) = false /\ c_np (f c) = false) ->
  (runs (c_id (conn_of b w)) (w_log w) -> c_cntrl (f (conn_of b w)) = true /\ c_stop (f (conn_of b w)) = true) -> W None (wmod b f w).
Proof.
  intros b f w V F L. destruct (F (conn_of b w)) as (F1 & F2 & F3).
  assert (V1: W (Some b) (wmod b f w)). { apply W_mod; [exact V|exact F1|exact L|congruence|]. intros _. rewrite F2, F3. split; intros; discriminate. }
  destruct V1 as (A1 & A2 & A3 & A4 & A5 & A6 & A7 & A8 & A9 & A10). unfold W. repeat (split; [assumption|]). split; [|assumption]. intros b' _.
  destruct (bool_dec b' b) as [->|NE]; [|apply A9; congruence]. rewrite conn_mod, F2. discriminate.
Qed.
Lemma W_out : forall x w, W x w -> closed w -> W None w.
Proof.
  intros x w (A1 & A2 & A3 & A4 & A5 & A6 & A7 & A8 & A9 & A10) C. unfold W. repeat (split; [assumption|]). split; [|assumption]. intros b _ F. destruct (C b) as (_ & X & _). congruence.
Qed.

Lemma reset_ok : forall m p, (sender = true -> checks m) -> forall w, W None w ->
  wp (reset_session m p (negb p)) (fun _ w' => W None w' /\ calm w w' /\ cleared (conn_of p w') /\ (conn_of (negb p) w' = set_ptr false (conn_of (negb p) w) \/ cleared (conn_of (negb p) w'))) H w.
Proof.
  intros m p MC w V. unfold Pow_Model.reset_session. apply wp_bind, wp_getc. apply wp_bind.
  apply wp_mono with (Q := fun _ w' => W None w' /\ calm w w' /\ forall b, conn_of b w' = conn_of b w).
  { destruct (c_np (conn_of p w) && c_stop (conn_of p w) && c_cntrl (conn_of p w)).
    - apply wp_bind, wp_emit. assert (V1: W None (wemit (EOver (c_id (conn_of p w))) w)) by (apply W_emit; try reflexivity; [exact V|eapply W_id; eauto]).
      asks. intros a w1 L1. apply wp_ret. split; [eapply W_like; eauto|]. split; [eapply calm_trans; [|apply calm_like; exact L1]; now apply calm_emit|]. intros b. rewrite (like_conn _ _ _ L1). apply conn_emit.
    - apply wp_ret. split; [exact V|]. split; [apply calm_refl|auto]. }
  intros aval w1 (V1 & C1 & E1). apply wp_bind.
  apply wp_mono with (Q := fun _ w' => W None w' /\ calm w w' /\ forall b, conn_of b w' = conn_of b w).
  { apply wp_when; [intros _|auto]. apply wp_emit. split; [apply W_emit; try reflexivity; [exact V1|]; cbn [about]; rewrite <- E1; eapply W_id; eauto|].
    split; [eapply calm_trans; [exact C1|now apply calm_emit]|]. intros b. rewrite conn_emit. apply E1. }
  intros _ w2 (V2 & C2 & E2). apply wp_bind. eapply wp_mono; [apply write_ok; [exact MC|exact V2]|]. intros _ w3 (V3 & C3 & KP). cbv beta in KP.
  assert (KP': conn_of (negb p) w3 = conn_of (negb p) w \/ closed w3). { destruct KP as [(_ & KP)|KP]; [left; rewrite KP; apply E2|now right]. }
  apply wp_bind, wp_modc.
  assert (V4: W (Some p) (wmod p (set_fetch false) w3)) by (apply W_mod_core; auto).
  apply wp_bind. eapply wp_mono; [apply close_cntrl_ok; exact V4|]. intros _ w5 (V5 & C5 & E5 & O5 & D5). cbv beta in *. rewrite conn_mod in E5, D5. rewrite conn_mod_other in O5.
  apply wp_bind, wp_modc, wp_modc. set (f := fun c => set_fp false _).
  assert (V6: W None (wmod p f w5)). { apply W_clear; [exact V5|auto|]. rewrite E5. intros R. now destruct D5. }
  assert (E6: conn_of p (wmod (negb p) (set_ptr false) (wmod p f w5)) = f (conn_of p w5)). { rewrite conn_mod_if. replace (eqb p (negb p)) with false by now destruct p. apply conn_mod. }
  split; [apply W_mod_core; auto|]. split.
  { eapply calm_trans; [exact C2|]. eapply calm_trans; [exact C3|]. eapply calm_trans; [apply calm_mod|]. eapply calm_trans; [exact C5|]. eapply calm_trans; apply calm_mod. }
  rewrite E6, E5. split; [unfold cleared, f; cbn; auto 10|]. rewrite conn_mod, conn_mod_other, O5. destruct KP' as [KP'|KP']; [left; now rewrite KP'|right; destruct (KP' (negb p)) as (X1 & X2 & X3 & X4 & X5 & X6 & X7 & X8); unfold cleared; cbn; auto 10].
Qed.
Lemma close_ok : forall m, (sender = true -> checks m) -> forall w, W None w -> wp (close_sessions m) (fun _ w' => W None w' /\ calm w w' /\ closed w') H w.
Proof.
  intros m MC w V. unfold Pow_Model.close_sessions. apply wp_bind. eapply wp_mono; [apply (reset_ok m false MC w V)|]. cbn [negb]. intros _ w1 (V1 & C1 & CL & _).
  eapply wp_mono; [apply (reset_ok m true MC w1 V1)|]. cbn [negb]. intros _ w2 (V2 & C2 & CL2 & KP). split; [exact V2|]. split; [eapply calm_trans; eauto|].
  intros [|]; [exact CL2|]. destruct KP as [KP|KP]; [|exact KP]. rewrite KP. destruct CL as (A & B & C & D & E & F & G & I0). unfold cleared. cbn. auto 10.
Qed.

(** without -t the flags do not change when the sessions are closed *)
Definition steady {A} (m : M A) : Prop := forall w, (w_hup (snd (m w)), w_term (snd (m w))) = (w_hup w, w_term w).
Lemma steady_bind : forall A B (m : M A) (f : A -> M B), steady m -> (forall a, steady (f a)) -> steady (bind m f).
Proof. intros A B m f X Y w. unfold bind. specialize (X w). destruct (m w) as [[a|h] w']; cbn [snd] in *; [rewrite <- X; apply Y|exact X]. Qed.
Lemma steady_ask : steady ask. Proof. intros w. unfold ask. now destruct (w_env w). Qed.
Ltac steadies tac := repeat (first [tac | apply steady_ask | (intros ?; reflexivity) | apply steady_bind; [|intros ?] | match goal with |- steady (match ?x with _ => _ end) => destruct x end]).
Lemma steady_deltas : forall n b t, steady (add_deltas n b t).
Proof. induction n as [|n IH]; intros b t; cbn [Pow_Model.add_deltas]; [intros w; reflexivity|]. apply steady_bind; [unfold Pow_Model.next_delta; steadies fail|intros d; apply IH]. Qed.
Lemma steady_write : forall m b aval newend, sender = false -> steady (write_session m b aval newend).
Proof. intros m b aval newend SN. unfold Pow_Model.write_session, rewind, when. rewrite SN. steadies ltac:(apply steady_deltas). Qed.
Lemma steady_reset : forall m p q, sender = false -> steady (reset_session m p q).
Proof. intros m p q SN. unfold Pow_Model.reset_session, close_cntrl, when. steadies ltac:(now apply steady_write). Qed.
Lemma steady_close : forall m, sender = false -> steady (close_sessions m).
Proof. intros m SN. unfold Pow_Model.close_sessions. apply steady_bind; [|intros _]; now apply steady_reset. Qed.
Lemma wp_steady : forall A (m : M A) Q H0 w, steady m -> wp m Q H0 w -> wp m (fun a w' => Q a w' /\ (w_hup w', w_term w') = (w_hup w, w_term w)) H0 w.
Proof. intros A m Q H0 w X. specialize (X w). unfold wp. destruct (m w) as [[a|h] w']; auto. Qed.

Lemma sig_ok : forall d, (sender = false -> d <> 0%nat) -> checks (sig_check d).
Proof.
  induction d as [|d IH]; intros D w V; cbn [Pow_Model.sig_check].
  - apply wp_stop. destruct sender eqn:SN; [eapply W_crash; eauto; discriminate|now destruct D].
  - asks. intros a w1 L1. apply wp_bind, wp_get_flags. intros f1. apply wp_bind, wp_set_flags. intros w2 L2. apply wp_bind.
    assert (L12: like w w2) by (eapply like_trans; eauto). pose proof (W_like _ _ _ L12 V) as V2.
    apply wp_flags. cbn [fst snd]. apply wp_bind.
    apply wp_mono with (Q := fun _ w' => (like w w' /\ w_hup w' = false) \/ (W None w' /\ closed w' /\ calm w w' /\ (sender = true \/ w_hup w' || w_term w' = true))).
    { apply wp_when; intros F2.
      - assert (C: wp (close_sessions (sig_check d)) (fun _ w' => W None w' /\ calm w2 w' /\ closed w') H w2). { apply close_ok; [|exact V2]. intros SN. apply IH. rewrite SN. discriminate. }
        pose proof (steady_close (sig_check d)) as SC. destruct sender eqn:SN.
        + eapply wp_mono; [exact C|]. intros _ w3 (V3 & C3 & CL). right. split; [exact V3|]. split; [exact CL|]. split; [eapply calm_trans; [apply calm_like; exact L12|exact C3]|now left].
        + eapply wp_mono; [apply wp_steady; [now apply SC|exact C]|]. intros _ w3 ((V3 & C3 & CL) & FL). injection FL as FL1 FL2. right. split; [exact V3|]. split; [exact CL|].
          split; [eapply calm_trans; [apply calm_like; exact L12|exact C3]|]. right. now rewrite FL1, FL2.
      - left. split; [exact L12|]. apply orb_false_iff in F2. apply F2. }
    intros _ w3 X. apply wp_bind, wp_flags. cbn [fst snd].
    destruct (w_term w3) eqn:T3. { apply wp_stop. destruct X as [(X & _)|(X & _)]; [eapply W_H; [eapply W_like; eauto|discriminate|discriminate|discriminate]|eapply W_H; [exact X|discriminate|discriminate|discriminate]]. }
    destruct (w_hup w3) eqn:H3.
    + destruct X as [(_ & X)|(V3 & CL & C3 & _)]; [discriminate|]. apply wp_bind, wp_set_flags. intros w4 L4. apply wp_ret. split; [eapply W_like; eauto|]. split; [eapply calm_trans; [exact C3|now apply calm_like]|].
      right. split; [|auto]. intros b. rewrite (like_conn _ _ _ L4). apply CL.
    + apply wp_ret. destruct X as [(X & _)|(V3 & CL & C3 & [X|X])]; [|split; [exact V3|split; [exact C3|right; split; auto]]|discriminate]. split; [eapply W_like; eauto|]. split; [now apply calm_like|]. auto.
Qed.

(** ** Setup of a session *)
Context {depth : nat}.
Hypothesis DEEP : sender = false -> depth <> 0%nat.
Hypothesis SOME : (0 < N)%nat.
Notation check := (check N K sender printfiles delta depth).
Notation sleep := (sleep N K sender printfiles delta depth).
Notation setup_rest := (setup_rest N K delay_start sender printfiles delta depth).
Notation setup_session := (setup_session N K retry delay_start sender printfiles delta depth).

Lemma after_emit : forall e w, is_start e = false -> after_other w -> after_other (wemit e w).
Proof. intros e w NS A. eapply kept_after; [| |exact A]; [intros b; rewrite conn_emit; apply kept_refl|now apply calm_emit]. Qed.
(** [J p]: a session is set up on p, and nothing runs there *)
Definition J (p : bool) (w : world) : Prop := W None w /\ after_other w /\ ~ runs (c_id (conn_of p w)) (w_log w) /\ c_np (conn_of p w) = false /\ c_started (conn_of p w) = false.
(** the other connection is not touched, but for the time of its next session *)
Definition fr (b : bool) (w w' : world) : Prop := (exists v n, conn_of b w' = set_ptr v (set_next n (conn_of b w))) \/ (sender = true /\ c_fp (conn_of b w') = false).
Lemma fr_eq : forall b w w', conn_of b w' = conn_of b w -> fr b w w'.
Proof. intros b w w' E. left. exists (c_ptr (conn_of b w)), (c_next (conn_of b w)). rewrite E. now destruct (conn_of b w). Qed.
Lemma fr_trans : forall b w1 w2 w3, fr b w1 w2 -> fr b w2 w3 -> fr b w1 w3.
Proof.
  intros b w1 w2 w3 A [(v & n & B)|B]; [|now right]. destruct A as [(v' & n' & A)|(A1 & A2)]; [left; exists v, n; rewrite B, A; reflexivity|right; split; [exact A1|rewrite B; exact A2]].
Qed.
Lemma fr_like : forall b w w', like w w' -> fr b w w'. Proof. intros b w w' L. apply fr_eq. now apply like_conn. Qed.
Lemma J_like : forall p w w', like w w' -> J p w -> J p w'.
Proof.
  intros p w w' L (A & B & C & D & E). unfold J. rewrite (like_conn _ _ _ L). replace (w_log w') with (w_log w) by (destruct L as (_ & _ & _ & L); congruence).
  split; [eapply W_like; eauto|]. split; [eapply after_like; eauto|]. auto.
Qed.
Lemma J_closed : forall p w, W None w -> closed w -> J p w.
Proof. intros p w V C. split; [exact V|]. split; [eapply closed_after; eauto|]. split; [eapply W_dead; [exact V|left; apply C]|]. split; apply C. Qed.
Lemma J_W : forall p w, J p w -> W None w. Proof. intros p w (A & _). exact A. Qed.
Lemma J_I : forall p w, J p w -> I w. Proof. intros p w (A & B & _). split; assumption. Qed.
Lemma J_mod : forall p f w, J p w -> let c := conn_of p w in c_id (f c) = c_id c -> c_np (f c) = false -> c_started (f c) = false ->
  (c_ptr c = true -> c_ptr (f c) = true /\ c_next c <= c_next (f c)) -> J p (wmod p f w).
Proof.
  intros p f w (V & A & D & NP & ST) c Eid NP' ST' PT. split; [|split; [|split]].
  - apply W_mod; [exact V|exact Eid|intros R; now destruct D| |]; subst c; rewrite NP', ST'; [discriminate|]. intros _. split; intros; discriminate.
  - intros b sid start now. change (w_log (wmod p f w)) with (w_log w). destruct (bool_dec b p) as [->|NE].
    + rewrite conn_mod. subst c. rewrite Eid. intros R. now destruct D.
    + rewrite (the_other _ _ NE), conn_mod_other, negb_involutive, conn_mod. intros R X. destruct (A (negb p) sid start now R X) as (P1 & P2). rewrite negb_involutive in P1, P2. destruct (PT P1) as (Q1 & Q2). split; [exact Q1|]. subst c. lia.
  - change (w_log (wmod p f w)) with (w_log w). rewrite conn_mod. subst c. now rewrite Eid.
  - rewrite conn_mod. auto.
Qed.
Lemma serial_pos : forall x w, W x w -> (0 < w_serial w)%nat.
Proof. intros x w V. pose proof (W_id x w true V). lia. Qed.
Lemma J_emit : forall p e w, J p w -> (about e < w_serial w)%nat -> is_start e = false -> is_session e = false -> J p (wemit e w).
Proof.
  intros p e w (V & A & D & NP & ST) AB NS NE. unfold J. rewrite conn_emit. split; [now apply W_emit|]. split; [now apply after_emit|]. split; [|auto]. intros R. apply D. change (w_log (wemit e w)) with (w_log w ++ [e]) in R. now apply runs_snoc in R.
Qed.
Lemma check_ok : checks check. Proof. apply sig_ok. exact DEEP. Qed.
Lemma check_J : forall p w, J p w -> wp check (fun r w' => J p w' /\ (r = true -> closed w') /\ (r = false -> fr (negb p) w w' /\ (like w w' \/ sender = true /\ closed w'))) H w.
Proof.
  intros p w JW. eapply wp_mono; [apply check_ok; eapply J_W; eauto|]. intros r w' (V & C & X). destruct X as [(-> & L)|(CL & X)].
  - split; [eapply J_like; eauto|]. split; [discriminate|]. intros _. split; [now apply fr_like|auto].
  - split; [now apply J_closed|]. split; [auto|]. intros ->. destruct X as [X|X]; [discriminate|]. split; [|auto]. right. split; [exact X|]. apply CL.
Qed.
(** the result of the setup of a session on p *)
Definition Setup (p : bool) (w : world) (r : bool) (w' : world) : Prop := I w' /\
  (r = true -> closed w' \/ c_np (conn_of p w') = false /\ fr (negb p) w w') /\
  (r = false -> fr (negb p) w w' /\ (sender = false -> c_np (conn_of p w') = true -> c_cntrl (conn_of p w') = true)).
Lemma Setup_fr : forall p w w1 r w', fr (negb p) w w1 -> Setup p w1 r w' -> Setup p w r w'.
Proof. intros p w w1 r w' F (A & B & C). split; [exact A|]. split; [intros E; destruct (B E) as [X|(X & Y)]; [now left|right; split; [exact X|eapply fr_trans; eauto]]|intros E; destruct (C E) as (X & Y); split; [eapply fr_trans; eauto|exact Y]]. Qed.
Lemma Setup_fail : forall p w w', J p w' -> fr (negb p) w w' -> Setup p w true w'.
Proof. intros p w w' JW F. split; [eapply J_I; eauto|]. split; [|discriminate]. intros _. right. split; [apply JW|exact F]. Qed.
Lemma Setup_closed : forall p w w', J p w' -> closed w' -> Setup p w true w'.
Proof. intros p w w' JW C. split; [eapply J_I; eauto|]. split; [auto|discriminate]. Qed.
Lemma fetch_clean_ok : forall p w, J p w -> wp (fetch_clean p) (Setup p w) H w.
Proof.
  intros p w JW. unfold fetch_clean. apply wp_bind, wp_modc, wp_bind, wp_emit, wp_ret. apply Setup_fail.
  - apply J_emit; try reflexivity; [|cbn; eapply serial_pos, J_W; exact JW]. apply J_mod; try reflexivity; [exact JW|apply JW|apply JW|cbn; auto with zarith].
  - apply fr_eq. rewrite conn_emit. apply conn_mod_other.
Qed.
Lemma sctx_clean_ok : forall p w, J p w -> wp (sctx_clean p) (Setup p w) H w.
Proof.
  intros p w JW. unfold sctx_clean. apply wp_bind, wp_modc. eapply wp_mono; [apply fetch_clean_ok|].
  - apply J_mod; try reflexivity; [exact JW|apply JW|apply JW|cbn; auto with zarith].
  - intros r w'. apply Setup_fr. apply fr_eq, conn_mod_other.
Qed.
Lemma kept_sym_core : forall c c', core c' = core c -> c_id c' = c_id c /\ c_cntrl c' = c_cntrl c /\ c_stop c' = c_stop c /\ c_fp c' = c_fp c /\ c_np c' = c_np c /\ c_started c' = c_started c.
Proof. intros c c' E. injection E. auto 10. Qed.
(** closing the connection p: what runs there is over *)
Lemma close_J : forall p w, W None w -> (forall sid start now, runs (c_id (conn_of (negb p) w)) (w_log w) -> In (EStart (c_id (conn_of (negb p) w)) sid start now) (w_log w) -> c_ptr (conn_of p w) = true /\ ends sid start <= c_next (conn_of p w)) ->
  c_np (conn_of p w) = false -> c_started (conn_of p w) = false ->
  wp (close_cntrl p) (fun _ w' => J p w' /\ conn_of p w' = set_cntrl false (conn_of p w) /\ conn_of (negb p) w' = conn_of (negb p) w) H w.
Proof.
  intros p w V A NP ST. eapply wp_mono; [apply close_cntrl_ok; exact V|]. cbv beta. intros _ w' (V' & C & E & O & D). split; [|auto]. split; [exact V'|].
  split. { intros b sid start now. destruct (bool_dec b p) as [->|NE]; [rewrite E; intros R; now destruct D|]. rewrite (the_other _ _ NE), O, negb_involutive, E. cbn [c_ptr c_next set_cntrl]. intros R X.
    destruct C as (_ & l & L & F). rewrite L in X. apply in_app_iff in X. destruct X as [X|X]; [|rewrite Forall_forall in F; specialize (F _ X); discriminate].
    eapply A; [|exact X]. destruct R as (_ & R). split; [eauto|]. intros Y. apply R. rewrite L. apply in_app_iff. now left. }
  rewrite E. cbn. auto.
Qed.
Lemma J_other : forall p w, after_other w -> forall sid start now, runs (c_id (conn_of (negb p) w)) (w_log w) -> In (EStart (c_id (conn_of (negb p) w)) sid start now) (w_log w) -> c_ptr (conn_of p w) = true /\ ends sid start <= c_next (conn_of p w).
Proof. intros p w A sid start now R X. pose proof (A (negb p) sid start now R X) as Y. now rewrite negb_involutive in Y. Qed.
Lemma cntrl_clean_ok : forall p w, W None w -> (forall sid start now, runs (c_id (conn_of (negb p) w)) (w_log w) -> In (EStart (c_id (conn_of (negb p) w)) sid start now) (w_log w) -> c_ptr (conn_of p w) = true /\ ends sid start <= c_next (conn_of p w)) ->
  c_np (conn_of p w) = false -> c_started (conn_of p w) = false -> wp (cntrl_clean p) (Setup p w) H w.
Proof.
  intros p w V A NP ST. unfold cntrl_clean. apply wp_bind. eapply wp_mono; [apply close_J; assumption|]. cbv beta. intros _ w1 (JW & E & O). eapply wp_mono; [apply sctx_clean_ok; exact JW|]. intros r w'. apply Setup_fr. now apply fr_eq.
Qed.
Lemma cntrl_clean_J : forall p w, J p w -> wp (cntrl_clean p) (Setup p w) H w.
Proof. intros p w (V & A & _ & NP & ST). apply cntrl_clean_ok; auto. now apply J_other. Qed.
Lemma file_clean_ok : forall p w, J p w -> wp (file_clean p) (Setup p w) H w.
Proof.
  intros p w JW. unfold file_clean. apply wp_bind, wp_modc. eapply wp_mono; [apply cntrl_clean_J|].
  - apply J_mod; try reflexivity; [exact JW|apply JW|apply JW|cbn; auto with zarith].
  - intros r w'. apply Setup_fr. apply fr_eq, conn_mod_other.
Qed.
Lemma sleep_ok : forall n p w, J p w -> wp (sleep n) (fun r w' => J p w' /\ (r = true -> closed w') /\ (r = false -> fr (negb p) w w')) H w.
Proof.
  induction n as [|n IH]; intros p w JW; cbn [Pow_Model.sleep]; pose proof (J_W _ _ JW) as V.
  - apply wp_stop. eapply W_H; [exact V|discriminate|discriminate|discriminate].
  - asks. intros a w1 L1. pose proof (J_like _ _ _ L1 JW) as J1. destruct (a_ok a); [apply wp_ret; split; [exact J1|]; split; [discriminate|intros _; now apply fr_like]|].
    apply wp_bind. eapply wp_mono; [apply check_J; exact J1|]. intros s w2 (J2 & C & F). destruct s; [apply wp_ret; split; [exact J2|]; split; [auto|discriminate]|].
    eapply wp_mono; [apply IH; exact J2|]. intros r w3 (J3 & C3 & F3). split; [exact J3|]. split; [exact C3|]. intros E. eapply fr_trans; [apply fr_like; exact L1|]. eapply fr_trans; [apply F; reflexivity|auto].
Qed.

(** sums of deltas *)
Fixpoint acc (sid : Z) (k n : nat) (t : Z) : Z := match n with O => t | S n => acc sid (S k) n (OWPNum64Add t (delta sid k)) end.
Lemma acc_part : forall n sid k t, acc sid k (S n) t = (t + part (delta sid) k (S n)) mod 2 ^ 64.
Proof.
  induction n as [|n IH]; intros sid k t.
  - cbn [acc part]. unfold OWPNum64Add, u64. change M64 with (2 ^ 64). f_equal. ring.
  - change (acc sid k (S (S n)) t) with (acc sid (S k) (S n) (OWPNum64Add t (delta sid k))). rewrite IH. change (part (delta sid) k (S (S n))) with (delta sid k + part (delta sid) (S k) (S n)).
    unfold OWPNum64Add, u64. change M64 with (2 ^ 64). rewrite Zplus_mod_idemp_l. f_equal. ring.
Qed.
Lemma npackets_pos : (0 < npackets)%nat. Proof. unfold Pow_Model.npackets. destruct K; [exact SOME|lia]. Qed.
Lemma acc_ends : forall sid start, acc sid 0 npackets start = ends sid start.
Proof.
  intros sid start. unfold ends, ends_at, sched_stamp. pose proof npackets_pos as P. destruct npackets as [|n]; [lia|]. rewrite acc_part, part_total. replace (Z.to_nat (Z.of_nat (S n) - 1)) with n by lia. reflexivity.
Qed.
Lemma deltas_val : forall n b t x w sid k, W x w -> c_sctx (conn_of b w) = Some (sid, k) ->
  wp (add_deltas n b t) (fun t' w' => t' = acc sid k n t /\ W x w' /\ conn_of b w' = set_sctx (Some (sid, k + n)%nat) (conn_of b w) /\ conn_of (negb b) w' = conn_of (negb b) w /\
    w_log w' = w_log w /\ w_serial w' = w_serial w) H w.
Proof.
  induction n as [|n IH]; intros b t x w sid k V SC; cbn [Pow_Model.add_deltas acc].
  - apply wp_ret. split; [reflexivity|]. split; [exact V|]. rewrite Nat.add_0_r. split; [destruct (conn_of b w); cbn in SC; subst; reflexivity|auto].
  - apply wp_bind. unfold Pow_Model.next_delta. apply wp_bind, wp_getc. rewrite SC. apply wp_bind, wp_modc, wp_ret. eapply wp_mono; [apply IH with (sid := sid) (k := S k)|].
    + apply W_mod_core; [exact V|reflexivity|discriminate].
    + rewrite conn_mod. reflexivity.
    + intros t' w' (E & V' & E1 & E2 & E3 & E4). rewrite conn_mod in E1. rewrite conn_mod_other in E2. split; [exact E|]. split; [exact V'|]. split; [rewrite E1; replace (S k + n)%nat with (k + S n)%nat by lia; reflexivity|auto].
Qed.

(** a session is started *)
Definition bump (w : world) : world := mkWorld (w_c0 w) (w_c1 w) (w_which w) (w_first w) (w_hup w) (w_term w) (S (w_serial w)) (w_env w) (w_log w).
Lemma wp_new : forall (Q : nat -> world -> Prop) H w, Q (w_serial w) (bump w) -> wp new_session Q H w. Proof. auto. Qed.
Lemma stored_fresh : forall id log, (forall e, In e log -> (about e < id)%nat) -> stored id log = 0%nat.
Proof.
  intros id log. unfold stored. induction log as [|e log IH]; intros F; [reflexivity|]. cbn [filter]. pose proof (F e (or_introl eq_refl)) as X. destruct e; try (apply IH; intros; apply F; now right).
  cbn in X. destruct (Nat.eqb_spec id0 id); [lia|]. apply IH. intros. apply F. now right.
Qed.
(** [J2 p]: a session was just started on p *)
Definition J2 (p : bool) (w : world) : Prop := W None w /\ c_np (conn_of p w) = false /\ c_started (conn_of p w) = false /\
  (c_fp (conn_of p w) = true -> stored (c_id (conn_of p w)) (w_log w) = 0%nat /\ c_id (conn_of p w) <> 0%nat) /\
  (forall sid start now, runs (c_id (conn_of p w)) (w_log w) -> In (EStart (c_id (conn_of p w)) sid start now) (w_log w) -> sid = c_sid (conn_of p w) /\ start = c_next (conn_of p w)) /\
  (forall sid start now, runs (c_id (conn_of (negb p) w)) (w_log w) -> In (EStart (c_id (conn_of (negb p) w)) sid start now) (w_log w) -> c_ptr (conn_of p w) = true /\ ends sid start <= c_next (conn_of p w)).
Lemma J2_like : forall p w w', like w w' -> J2 p w -> J2 p w'.
Proof.
  intros p w w' L (A & B). unfold J2. rewrite !(like_conn _ _ _ L). replace (w_log w') with (w_log w) by (destruct L as (_ & _ & _ & L); congruence). split; [eapply W_like; eauto|exact B].
Qed.
Lemma J2_closed : forall p w, W None w -> closed w -> J2 p w.
Proof.
  intros p w V C. assert (D: forall b, ~ runs (c_id (conn_of b w)) (w_log w)) by (intros b; eapply W_dead; [exact V|left; apply C]).
  split; [exact V|]. split; [apply C|]. split; [apply C|]. split; [intros F; destruct (C p) as (_ & X & _); congruence|]. split; intros sid start now R; exfalso; exact (D _ R).
Qed.
Lemma start_J2 : forall p w sid now, J p w -> c_cntrl (conn_of p w) = true -> sid = c_sid (conn_of p w) ->
  J2 p (wmod p (fun c => set_id (w_serial w) (set_stop true (set_started false c))) (wemit (EStart (w_serial w) sid (c_next (conn_of p w)) now) (bump w))).
Proof.
  intros p w sid now (V & AO & D & NP & ST) CN SD. set (e := EStart _ _ _ _). set (f := fun c => _). set (w1 := wmod p f _).
  pose proof (J_other p w AO) as OT. pose proof V as (A1 & A2 & A3 & A4 & A5 & A6 & A7 & A8 & A9 & A10).
  assert (CP: conn_of p w1 = f (conn_of p w)) by (unfold w1; rewrite conn_mod, conn_emit; now destruct p).
  assert (CQ: conn_of (negb p) w1 = conn_of (negb p) w) by (unfold w1; rewrite conn_mod_other, conn_emit; now destruct p).
  assert (LG: w_log w1 = w_log w ++ [e]) by reflexivity. assert (SR: w_serial w1 = S (w_serial w)) by reflexivity.
  assert (IDP: c_id (conn_of p w1) = w_serial w) by (rewrite CP; reflexivity).
  assert (FRESH: stored (w_serial w) (w_log w1) = 0%nat). { rewrite LG, stored_snoc. cbn. rewrite stored_fresh; [reflexivity|exact A1]. }
  assert (NEW: forall s t n, In (EStart (w_serial w) s t n) (w_log w1) -> EStart (w_serial w) s t n = e). { intros s t n X. rewrite LG, in_snoc in X. destruct X as [X|X]; [apply A1 in X; cbn in X; lia|exact X]. }
  assert (OLD: forall id, id <> w_serial w -> runs id (w_log w1) -> runs id (w_log w)).
  { intros id NE ((s & t & n & X) & NO). rewrite LG in X, NO. apply in_snoc in X. destruct X as [X|X]; [|injection X as X; now destruct NE]. split; [eauto|]. intros Y. apply NO, in_snoc. now left. }
  assert (OLDIN: forall id s t n, id <> w_serial w -> In (EStart id s t n) (w_log w1) -> In (EStart id s t n) (w_log w)).
  { intros id s t n NE X. rewrite LG, in_snoc in X. destruct X as [X|X]; [exact X|]. injection X as X. now destruct NE. }
  pose proof (A2 (negb p)) as QL. pose proof (serial_pos _ _ V) as SP.
  assert (OTH: forall b, b <> p -> conn_of b w1 = conn_of b w) by (intros b NE; rewrite (the_other _ _ NE); exact CQ).
  assert (V1: W None w1).
  { unfold W. rewrite SR. split. { intros y X. rewrite LG, in_snoc in X. destruct X as [X| ->]; [apply A1 in X; lia|cbn; lia]. }
    split. { intros b. destruct (bool_dec b p) as [->|NE]; [rewrite IDP; lia|rewrite (OTH b NE); specialize (A2 b); lia]. }
    split. { intros X. exfalso. assert (Y: c_id (conn_of p w1) = c_id (conn_of (negb p) w1)) by (clear - X; clearbody w1; destruct p; cbn [conn_of negb]; congruence). rewrite IDP, CQ in Y. lia. }
    split. { intros s t n X. apply OLDIN in X; [|lia]. exact (A4 _ _ _ X). }
    split. { intros id R. destruct (Nat.eq_dec id (w_serial w)) as [->|NE]; [exists p; now rewrite IDP|]. destruct (A5 id (OLD id NE R)) as (b & E). exists b. destruct (bool_dec b p) as [->|NB]; [|now rewrite (OTH b NB)]. exfalso. apply D. rewrite <- E. now apply OLD. }
    split. { intros b R. destruct (bool_dec b p) as [->|NE]; [rewrite CP; cbn; auto|]. rewrite (OTH b NE) in *. apply A6. apply OLD; [|exact R]. specialize (A2 b). lia. }
    split. { rewrite LG. apply apart_snoc; [exact A7|]. intros id s t n E id' s' t' n' X NO. injection E as E1 E2 E3 E4. subst id s t n. assert (R: runs id' (w_log w)) by (split; eauto). destruct (A5 _ R) as (b & Eb).
             destruct (bool_dec b p) as [->|NE]; [subst; now destruct D|]. rewrite (the_other _ _ NE) in Eb. subst id'. now apply (OT s' t' n'). }
    split. { intros id. rewrite LG, stored_snoc. cbn. specialize (A8 id). lia. }
    split. { intros b _. destruct (bool_dec b p) as [->|NE]; [rewrite CP; cbn; rewrite NP; discriminate|]. rewrite (OTH b NE). intros F X. destruct (A9 b ltac:(discriminate) F X) as (Y1 & Y2). split; [|exact Y2]. rewrite LG, stored_snoc, Y1. reflexivity. }
    intros S0 b. destruct (bool_dec b p) as [->|NE]; [rewrite CP; cbn; rewrite NP; split; intros; discriminate|]. rewrite (OTH b NE). now apply A10. }
  split; [exact V1|]. rewrite CP. split; [cbn; exact NP|]. split; [reflexivity|]. split; [intros _; cbn; split; [exact FRESH|lia]|].
  split. { intros s t n R X. apply NEW in X. injection X as E2 E3 E4. subst. split; reflexivity. }
  rewrite CQ. intros s t n R X. apply (OT s t n); [apply OLD; [lia|exact R]|apply OLDIN in X; [exact X|lia]].
Qed.
Lemma check_J2 : forall p w, J2 p w -> wp check (fun r w' => J2 p w' /\ (r = true -> J p w' /\ closed w') /\ (r = false -> fr (negb p) w w' /\ (like w w' \/ sender = true /\ closed w'))) H w.
Proof.
  intros p w JW. eapply wp_mono; [apply check_ok; apply JW|]. intros r w' (V & C & X). destruct X as [(-> & L)|(CL & X)].
  - split; [eapply J2_like; eauto|]. split; [discriminate|]. intros _. split; [now apply fr_like|auto].
  - split; [now apply J2_closed|]. split; [intros _; split; [now apply J_closed|exact CL]|]. intros ->. destruct X as [X|X]; [discriminate|]. split; [|auto]. right. split; [exact X|]. apply CL.
Qed.
(** on the way, with what is known without -t *)
Definition T (g : conn -> Prop) (p : bool) (w w' : world) : Prop := J p w' /\ fr (negb p) w w' /\ (sender = false -> g (conn_of p w')).
Lemma T_like : forall g p w w1 w2, T g p w w1 -> like w1 w2 -> T g p w w2.
Proof. intros g p w w1 w2 (A & B & C) L. split; [eapply J_like; eauto|]. split; [eapply fr_trans; [exact B|now apply fr_like]|]. now rewrite (like_conn _ _ _ L). Qed.
Lemma T_mod : forall (g' g : conn -> Prop) p f w w1, T g p w w1 -> let c := conn_of p w1 in c_id (f c) = c_id c -> c_np (f c) = c_np c -> c_started (f c) = c_started c ->
  (c_ptr c = true -> c_ptr (f c) = true /\ c_next c <= c_next (f c)) -> (g c -> g' (f c)) -> T g' p w (wmod p f w1).
Proof.
  intros g' g p f w w1 (A & B & C) c E1 E2 E3 E4 E5. pose proof A as (_ & _ & _ & NP & ST). split; [apply J_mod; [exact A|exact E1|subst c; congruence|subst c; congruence|exact E4]|]. split; [eapply fr_trans; [exact B|apply fr_eq, conn_mod_other]|].
  intros SN. rewrite conn_mod. apply E5. now apply C.
Qed.
Lemma T_check : forall g p w w1 (k : bool -> M bool), T g p w w1 -> (forall w2, T g p w w2 -> wp (k false) (Setup p w) H w2) -> k true = ret true -> wp (bind check k) (Setup p w) H w1.
Proof.
  intros g p w w1 k (A & B & C) X E. apply wp_bind. eapply wp_mono; [apply check_J; exact A|]. intros s w2 (J2' & CL & F). destruct s; [rewrite E; apply wp_ret; apply Setup_closed; auto|].
  destruct (F eq_refl) as (F1 & F2). apply X. split; [exact J2'|]. split; [eapply fr_trans; eauto|]. intros SN. destruct F2 as [L|(S0 & _)]; [|congruence]. rewrite (like_conn _ _ _ L). auto.
Qed.
Lemma T_ask : forall g p w w1 (k : ans -> M bool), T g p w w1 -> (forall a w2, T g p w w2 -> wp (k a) (Setup p w) H w2) -> wp (bind ask k) (Setup p w) H w1.
Proof.
  intros g p w w1 k A X. apply wp_bind, wp_ask; [eapply W_H; [eapply J_W; apply A|discriminate|discriminate|discriminate]|]. intros a w2 L. apply X. eapply T_like; eauto.
Qed.
Lemma T_clean : forall g p w w1 (m : M bool), T g p w w1 -> (J p w1 -> wp m (Setup p w1) H w1) -> wp m (Setup p w) H w1.
Proof. intros g p w w1 m (A & B & _) X. eapply wp_mono; [apply X; exact A|]. intros r w'. now apply Setup_fr. Qed.

Lemma setup_rest_ok : forall p w, J p w -> wp (setup_rest p (negb p)) (Setup p w) H w.
Proof.
  intros p w JW. unfold Pow_Model.setup_rest. apply wp_bind, wp_getc. apply wp_bind.
  assert (T0: T (fun _ => True) p w w) by (split; [exact JW|]; split; [now apply fr_eq|auto]).
  apply wp_mono with (Q := fun _ w' => T (fun _ => True) p w w').
  { destruct (c_sctx (conn_of p w)); [now apply wp_ret|]. apply wp_bind, wp_ask; [eapply W_H; [eapply J_W; eauto|discriminate|discriminate|discriminate]|]. intros a w1 L. pose proof (T_like _ _ _ _ _ T0 L) as T1.
    apply wp_bind. apply wp_mono with (Q := fun _ w' => T (fun _ => True) p w w'); [|intros; now apply wp_ret]. apply wp_when; [intros _|auto]. apply wp_modc. eapply T_mod; [exact T1| | | | |]; cbn; auto with zarith. }
  clear T0. intros made w1 T1. destruct made; cbn [negb]; [|eapply T_clean; [exact T1|intros; now apply fetch_clean_ok]].
  eapply T_ask; [exact T1|]. clear w1 T1. intros a w1 T1. destruct (a_ok a); cbn [negb].
  2: { eapply T_check; [exact T1| |reflexivity]. intros w2 T2. eapply T_clean; [exact T2|intros; now apply sctx_clean_ok]. }
  apply wp_bind, wp_modc. assert (T2: T (fun c => c_cntrl c = true) p w (wmod p (set_cntrl true) w1)) by (eapply T_mod; [exact T1| | | | |]; cbn; auto with zarith). clear T1.
  eapply T_check; [exact T2| |reflexivity]. clear a w1 T2. intros w1 T1. eapply T_ask; [exact T1|]. clear w1 T1. intros a w1 T1. destruct (a_ok a); cbn [negb]; [|eapply T_clean; [exact T1|intros; now apply cntrl_clean_J]].
  apply wp_bind, wp_take_first. intros first w2 L2. pose proof (T_like _ _ _ _ _ T1 L2) as T2. clear T1 L2 w1. set (now := if first then _ else _). apply wp_bind, wp_getc. apply wp_bind.
  apply wp_mono with (Q := fun _ w' => T (fun c => c_cntrl c = true) p w w').
  { destruct (c_ptr (conn_of p w2) && negb (c_next (conn_of p w2) <? now)) eqn:E; [now apply wp_ret|]. apply wp_modc. eapply T_mod; [exact T2| | | | |]; cbn; auto. intros P. rewrite P in E. split; [reflexivity|]. cbn in E. lia. }
  clear w2 T2. intros _ w2 T2. eapply T_ask; [exact T2|]. clear w2 T2. intros a2 w2 T2. destruct (a_ok a2); cbn [negb]; [|eapply T_clean; [exact T2|intros; now apply cntrl_clean_J]].
  apply wp_bind, wp_modc. set (f := fun c => set_fp true _).
  assert (T3: T (fun c => c_cntrl c = true /\ c_fp c = true) p w (wmod p f w2)) by (eapply T_mod; [exact T2| | | | |]; cbn; auto with zarith). clear T2. revert T3. generalize (wmod p f w2) as w3. clear w2 f. intros w3 T3.
  eapply T_ask; [exact T3|]. clear w3 T3. intros a3 w3 T3. destruct (a_ok a3); cbn [negb]; [|eapply T_clean; [exact T3|intros; now apply file_clean_ok]].
  eapply T_check; [exact T3| |reflexivity]. clear w3 T3. intros w3 T3. apply wp_bind, wp_getc. set (start := c_next (conn_of p w3)).
  destruct (c_cntrl (conn_of p w3)) eqn:CN; cbn [negb]. 2: { apply wp_stop. destruct sender eqn:SN; [eapply W_crash; [eapply J_W; apply T3|exact SN|discriminate]|]. destruct T3 as (_ & _ & X). destruct (X SN). congruence. }
  assert (T4: T (fun c => c_cntrl c = true /\ c_fp c = true) p w w3 /\ c_next (conn_of p w3) = start) by auto. destruct T4 as (T4 & ST4). clearbody start. clear T3 CN. revert T4 ST4. generalize w3 as w4. clear w3. intros w4 T4 ST4.
  apply wp_bind, wp_ask; [eapply W_H; [eapply J_W; apply T4|discriminate|discriminate|discriminate]|]. intros a4 w5 L5. pose proof (T_like _ _ _ _ _ T4 L5) as T5. rewrite <- (like_conn _ _ p L5) in ST4. clear T4 L5 w4.
  destruct (a_ok a4); cbn [negb]; [|eapply T_clean; [exact T5|intros; now apply file_clean_ok]].
  apply wp_bind, wp_modc.
  assert (T6: T (fun c => c_cntrl c = true /\ c_fp c = true) p w (wmod p (set_sid (a_num a4)) w5)) by (eapply T_mod; [exact T5| | | | |]; cbn; auto with zarith).
  assert (ST6: c_next (conn_of p (wmod p (set_sid (a_num a4)) w5)) = start) by (rewrite conn_mod; exact ST4). clear T5 ST4. revert T6 ST6. generalize (wmod p (set_sid (a_num a4)) w5) as w6. clear w5. intros w6 T6 ST6.
  apply wp_bind. eapply wp_mono; [apply check_J; apply T6|]. intros s w7 (J7 & CL7 & F7). destruct s; [apply wp_ret; apply Setup_closed; auto|]. destruct (F7 eq_refl) as (F7a & F7b). clear CL7 F7.
  assert (T7: T (fun c => c_cntrl c = true /\ c_fp c = true) p w w7). { split; [exact J7|]. split; [eapply fr_trans; [apply T6|exact F7a]|]. intros SN. destruct F7b as [L|(S0 & _)]; [|congruence]. rewrite (like_conn _ _ _ L). now apply T6. }
  assert (ST7: c_cntrl (conn_of p w7) = true -> c_next (conn_of p w7) = start). { intros CN. destruct F7b as [L|(_ & CL)]; [rewrite (like_conn _ _ _ L); exact ST6|]. destruct (CL p). congruence. }
  clear T6 ST6 J7 F7a F7b w6.
  apply wp_bind, wp_ask; [eapply W_H; [eapply J_W; apply T7|discriminate|discriminate|discriminate]|]. intros a5 w8 L8. pose proof (T_like _ _ _ _ _ T7 L8) as T8. rewrite <- (like_conn _ _ p L8) in ST7. clear T7 L8 w7.
  apply wp_bind, wp_getc. destruct (a_ok a5); cbn [negb orb]; [|eapply T_clean; [exact T8|intros; now apply cntrl_clean_J]].
  destruct (c_cntrl (conn_of p w8)) eqn:CN; cbn [negb]; [|eapply T_clean; [exact T8|intros; now apply cntrl_clean_J]].
  rewrite <- (ST7 eq_refl). apply wp_bind, wp_new, wp_bind, wp_emit, wp_bind, wp_modc.
  destruct T8 as (J8 & FR8 & G8). pose proof (start_J2 p w8 (c_sid (conn_of p w8)) now J8 CN eq_refl) as J9. set (e := EStart _ _ _ _) in *. set (f := fun c => set_id _ _) in *. set (w9 := wmod p f _) in *.
  assert (FR9: fr (negb p) w w9). { eapply fr_trans; [exact FR8|]. apply fr_eq. unfold w9. rewrite conn_mod_other, conn_emit. now destruct p. }
  assert (G9: sender = false -> c_cntrl (conn_of p w9) = true /\ c_fp (conn_of p w9) = true). { intros SN. destruct (G8 SN) as (X & Y). unfold w9. rewrite conn_mod, conn_emit. unfold f. replace (conn_of p (bump w8)) with (conn_of p w8) by now destruct p. split; assumption. }
  clearbody w9. clear e f J8 FR8 G8 ST7 CN w8.
  apply wp_bind. eapply wp_mono; [apply check_J2; exact J9|]. intros s w10 (J10 & CL & F10). destruct s; [apply wp_ret; destruct (CL eq_refl); now apply Setup_closed|]. destruct (F10 eq_refl) as (F10a & F10b).
  assert (FR10: fr (negb p) w w10) by (eapply fr_trans; eauto).
  assert (G10: sender = false -> c_cntrl (conn_of p w10) = true /\ c_fp (conn_of p w10) = true). { intros SN. destruct F10b as [L|(S0 & _)]; [|congruence]. rewrite (like_conn _ _ _ L). auto. }
  clear J9 FR9 G9 CL F10 F10a F10b w9.
  apply wp_bind, wp_ask; [eapply W_H; [apply J10|discriminate|discriminate|discriminate]|]. intros a6 w11 L11. pose proof (J2_like _ _ _ L11 J10) as J11. rewrite <- (like_conn _ _ p L11) in G10.
  assert (FR11: fr (negb p) w w11) by (eapply fr_trans; [exact FR10|now apply fr_like]). clear J10 FR10 L11 w10.
  destruct J11 as (V11 & NP11 & S11 & FP11 & P11 & Q11).
  destruct (a_ok a6); cbn [negb]; [|eapply wp_mono; [apply cntrl_clean_ok; assumption|intros r w'; now apply Setup_fr]].
  apply wp_bind, wp_modc. set (f := fun c => set_np true _). set (w12 := wmod p f w11).
  assert (V12: W None w12). { unfold w12. apply W_mod_new; [exact V11|reflexivity| | |].
    - intros R. destruct V11 as (_ & _ & _ & _ & _ & A6 & _). exact (A6 p R).
    - intros _ F _. now apply FP11.
    - intros SN. cbn. destruct (G10 SN) as (_ & FP). split; [intros _; split; [discriminate|exact FP]|intros; discriminate]. }
  assert (E12: conn_of p w12 = f (conn_of p w11)) by apply conn_mod. assert (O12: conn_of (negb p) w12 = conn_of (negb p) w11) by apply conn_mod_other. assert (LG12: w_log w12 = w_log w11) by reflexivity. clearbody w12.
  apply wp_bind, wp_getc. apply wp_bind. eapply wp_mono; [apply deltas_val with (sid := c_sid (conn_of p w12)) (k := 0%nat); [exact V12|rewrite E12; reflexivity]|].
  intros e w13 (Ee & V13 & E13 & O13 & LG13 & _). apply wp_bind, wp_modc.
  assert (V14: W None (wmod p (set_end e) w13)) by (apply W_mod_core; [exact V13|reflexivity|cbn; auto]).
  apply wp_bind. eapply wp_mono; [apply rewind_ok; [exact V14|left; rewrite conn_mod, E13; discriminate]|]. intros _ w15 (V15 & (v & E15 & _) & O15 & LG15 & _). rewrite conn_mod in E15. rewrite conn_mod_other in O15. change (w_log (wmod p (set_end e) w13)) with (w_log w13) in LG15.
  apply wp_bind, wp_modc, wp_ret. set (w16 := wmod (negb p) _ w15).
  assert (EQ: conn_of (negb p) w16 = set_ptr true (set_next e (conn_of (negb p) w11))). { unfold w16. rewrite conn_mod. rewrite O15, O13, O12. reflexivity. }
  assert (EP: conn_of p w16 = conn_of p w15). { unfold w16. rewrite conn_mod_if. now replace (eqb p (negb p)) with false by now destruct p. }
  assert (LG: w_log w16 = w_log w11). { change (w_log w16) with (w_log w15). congruence. }
  rewrite E15, E13, E12 in EP. rewrite E12 in Ee. cbn [f c_sid set_np set_sctx c_next] in Ee.
  assert (FR16: fr (negb p) w w16). { eapply fr_trans; [exact FR11|]. left. eauto. }
  split; [split|split].
  - apply W_mod_core; [exact V15|reflexivity|cbn; auto].
  - intros b sid start1 now1. rewrite LG. destruct (bool_dec b p) as [->|NE].
    + rewrite EQ, EP. cbn [c_id c_ptr c_next set_ptr set_next set_sctx set_end set_np f]. intros R X. destruct (P11 _ _ _ R X) as (-> & ->). split; [reflexivity|]. rewrite Ee, acc_ends. lia.
    + rewrite (the_other _ _ NE), negb_involutive, EQ, EP. cbn [c_id c_ptr c_next set_ptr set_next set_sctx set_end set_np f]. apply Q11.
  - discriminate.
  - intros _. split; [exact FR16|]. intros SN _. rewrite EP. cbn. now apply G10.
Qed.

Lemma setup_ok : forall p limit w, I w -> (sender = false -> c_np (conn_of p w) = true -> c_cntrl (conn_of p w) = true) -> wp (setup_session p (negb p) limit) (Setup p w) H w.
Proof.
  intros p limit w (V & A) RW. unfold Pow_Model.setup_session. apply wp_bind, wp_getc. destruct (c_np (conn_of p w)) eqn:NP.
  { apply wp_ret. split; [split; assumption|]. split; [discriminate|]. intros _. split; [now apply fr_eq|intros SN _; now apply RW]. }
  apply wp_bind, wp_modc. set (w1 := wmod p (set_fetch false) w).
  assert (V1: W None w1) by (apply W_mod_core; [exact V|reflexivity|cbn; auto]).
  assert (E1: conn_of p w1 = set_fetch false (conn_of p w)) by apply conn_mod. assert (O1: conn_of (negb p) w1 = conn_of (negb p) w) by apply conn_mod_other.
  apply wp_bind. eapply wp_mono; [apply close_cntrl_ok; exact V1|]. intros _ w2 (V2 & C2 & E2 & O2 & D2). cbv beta in *. apply wp_bind, wp_modc. set (f := fun c => set_fp false _). set (w3 := wmod p f w2).
  assert (E3: conn_of p w3 = f (conn_of p w2)) by apply conn_mod. assert (O3: conn_of (negb p) w3 = conn_of (negb p) w2) by apply conn_mod_other.
  assert (J3: J p w3).
  { split; [|split; [|split; [|split]]].
    - apply W_mod; [exact V2|reflexivity| | |].
      + intros R. destruct D2. rewrite E1. rewrite E2, E1 in R. exact R.
      + cbn. discriminate.
      + intros SN. cbn. split; [intros X; rewrite E2, E1 in X; cbn in X; congruence|discriminate].
    - intros b sid start now. change (w_log w3) with (w_log w2). destruct (bool_dec b p) as [->|NE].
      + rewrite E3, E2. intros R. now destruct D2.
      + rewrite (the_other _ _ NE), O3, O2, O1, negb_involutive, E3, E2, E1. cbn [c_ptr c_next f set_fp set_testfp set_stop set_started set_cntrl set_fetch]. intros R X.
        destruct C2 as (_ & l & L & F). change (w_log w1) with (w_log w) in L. rewrite L in X. apply in_app_iff in X. destruct X as [X|X]; [|rewrite Forall_forall in F; specialize (F _ X); discriminate].
        apply (J_other p w A sid start now); [|exact X]. destruct R as (_ & R). split; [eauto|]. intros Y. apply R. rewrite L. apply in_app_iff. now left.
    - change (w_log w3) with (w_log w2). rewrite E3, E2. exact D2.
    - rewrite E3, E2, E1. cbn. exact NP.
    - rewrite E3. reflexivity. }
  assert (F3: fr (negb p) w w3) by (apply fr_eq; congruence). clearbody w3. clear V1 E1 O1 V2 C2 E2 O2 D2 E3 O3 w2 w1 f.
  apply wp_bind. apply wp_mono with (Q := fun s w' => J p w' /\ (s = true -> closed w') /\ (s = false -> fr (negb p) w w')).
  { destruct ((0 <? retry) && (0 <? c_prev (conn_of p w))); [|apply wp_ret; split; [exact J3|]; split; [discriminate|auto]].
    apply wp_bind, wp_ask; [eapply W_H; [eapply J_W; eauto|discriminate|discriminate|discriminate]|]. intros a w4 L4. pose proof (J_like _ _ _ L4 J3) as J4. assert (F4: fr (negb p) w w4) by (eapply fr_trans; [exact F3|now apply fr_like]).
    destruct (a_ok a); cbn [negb]; [|apply wp_stop; eapply W_H; [eapply J_W; eauto|discriminate|discriminate|discriminate]].
    destruct (time_of a <? _); [|apply wp_ret; split; [exact J4|]; split; [discriminate|auto]]. apply wp_bind, wp_remaining. intros n. eapply wp_mono; [apply sleep_ok; exact J4|]. intros r w5 (J5 & X & Y). split; [exact J5|]. split; [exact X|]. intros Er. eapply fr_trans; eauto. }
  clear w3 J3 F3. intros s w3 (J3 & C3 & F3). destruct s; [apply wp_ret; apply Setup_closed; auto|]. specialize (F3 eq_refl).
  apply wp_bind, wp_ask; [eapply W_H; [eapply J_W; eauto|discriminate|discriminate|discriminate]|]. intros a w4 L4. pose proof (J_like _ _ _ L4 J3) as J4. assert (F4: fr (negb p) w w4) by (eapply fr_trans; [exact F3|now apply fr_like]).
  destruct (a_ok a); cbn [negb]; [|apply wp_stop; eapply W_H; [eapply J_W; eauto|discriminate|discriminate|discriminate]].
  destruct (match limit with Some l => l <? time_of a | None => false end).
  { apply wp_bind, wp_getc, wp_bind, wp_modc, wp_ret. set (w5 := wmod (negb p) _ w4).
    assert (EP: conn_of p w5 = conn_of p w4). { unfold w5. rewrite conn_mod_if. now replace (eqb p (negb p)) with false by now destruct p. }
    destruct J4 as (V4 & A4 & D4 & NP4 & ST4). split; [split|split].
    - destruct (c_ptr (conn_of p w4)) eqn:EPT; unfold w5; apply W_mod_core; auto.
    - intros b sid start now. change (w_log w5) with (w_log w4). destruct (bool_dec b p) as [->|NE]; [rewrite EP; intros R; now destruct D4|]. rewrite (the_other _ _ NE), negb_involutive, EP. unfold w5. rewrite conn_mod.
      replace (c_id (if c_ptr (conn_of p w4) then _ else _)) with (c_id (conn_of (negb p) w4)) by now destruct (c_ptr (conn_of p w4)). now apply J_other.
    - discriminate.
    - intros _. split; [|intros _; rewrite EP; congruence]. eapply fr_trans; [exact F4|]. left. unfold w5. rewrite conn_mod. destruct (c_ptr (conn_of p w4)); [eauto|]. exists false, (c_next (conn_of (negb p) w4)). now destruct (conn_of (negb p) w4). }
  apply wp_bind, wp_ask; [eapply W_H; [eapply J_W; eauto|discriminate|discriminate|discriminate]|]. intros a5 w5 L5. pose proof (J_like _ _ _ L5 J4) as J5. assert (F5: fr (negb p) w w5) by (eapply fr_trans; [exact F4|now apply fr_like]).
  apply wp_bind, wp_modc. assert (J6: J p (wmod p (set_prev (time_of a5)) w5)) by (apply J_mod; try reflexivity; [exact J5|apply J5|apply J5|cbn; auto with zarith]).
  apply wp_bind. eapply wp_mono; [apply check_J; exact J6|]. intros s w7 (J7 & C7 & F7). destruct s; [apply wp_ret; apply Setup_closed; auto|]. eapply wp_mono; [apply setup_rest_ok; exact J7|]. intros r w'. apply Setup_fr.
  eapply fr_trans; [exact F5|]. eapply fr_trans; [apply fr_eq, conn_mod_other|]. now apply F7.
Qed.

(** ** The main loop *)
Notation wait_again := (wait_again N K sender printfiles delta depth).
Notation wait_range := (wait_range N K sender printfiles delta depth).
Notation create := (create N K sender printfiles delta depth).
Notation summary := (summary N K sender printfiles delta depth).
Notation summaries := (summaries N K loss iotime retry delay_start sender printfiles delta depth).
Notation finish := (finish N K sender printfiles delta depth).
Notation pass := (pass N K loss iotime retry delay_start sender printfiles delta depth).
Notation passes := (passes N K loss iotime retry delay_start sender printfiles delta depth).

Definition R (b : bool) (w : world) : Prop := sender = false -> c_np (conn_of b w) = true -> c_cntrl (conn_of b w) = true.
(** between two passes *)
Definition E (w : world) : Prop := I w /\ forall b, R b w.
(** while the session on p is waited for *)
Definition L (p : bool) (w : world) : Prop := I w /\ (c_fp (conn_of p w) = true -> c_np (conn_of p w) = true) /\ (sender = false -> c_np (conn_of p w) = true /\ c_cntrl (conn_of p w) = true) /\ R (negb p) w.
(** when the loop over the summaries is left *)
Definition B (p : bool) (w : world) : Prop := I w /\ R (negb p) w.

Lemma E_closed : forall w, W None w -> closed w -> E w.
Proof. intros w V C. split; [split; [exact V|eapply closed_after; eauto]|]. intros b _ X. destruct (C b) as (_ & _ & _ & Y & _). congruence. Qed.
Lemma L_closed : forall p w, W None w -> closed w -> sender = true -> L p w.
Proof.
  intros p w V C SN. split; [split; [exact V|eapply closed_after; eauto]|]. split; [intros X; destruct (C p) as (_ & Y & _); congruence|]. split; [congruence|]. intros X. congruence.
Qed.
Lemma R_like : forall b w w', like w w' -> R b w -> R b w'.
Proof. intros b w w' X Y. unfold R. now rewrite (like_conn _ _ _ X). Qed.
Lemma L_like : forall p w w', like w w' -> L p w -> L p w'.
Proof. intros p w w' X (A & B0 & C & D). split; [eapply I_like; eauto|]. rewrite (like_conn _ _ _ X). split; [exact B0|]. split; [exact C|]. eapply R_like; eauto. Qed.
Lemma E_like : forall w w', like w w' -> E w -> E w'.
Proof. intros w w' X (A & B0). split; [eapply I_like; eauto|]. intros b. eapply R_like; eauto. Qed.
Lemma L_W : forall p w, L p w -> W None w. Proof. intros p w ((A & _) & _). exact A. Qed.
Lemma L_B : forall p w, L p w -> B p w. Proof. intros p w (A & _ & _ & C). split; assumption. Qed.
Lemma check_L : forall p w, L p w -> wp check (fun r w' => (if r then E w' else L p w') /\ w_serial w' = w_serial w) H w.
Proof.
  intros p w LW. eapply wp_mono; [apply check_ok; eapply L_W; eauto|]. intros r w' (V & C & X). split; [|apply C]. destruct X as [(-> & X)|(CL & X)]; [eapply L_like; eauto|].
  destruct r; [now apply E_closed|]. destruct X as [X|X]; [discriminate|]. now apply L_closed.
Qed.
Lemma after_mod : forall b f w, after_other w -> (forall c, c_id (f c) = c_id c /\ c_ptr (f c) = c_ptr c /\ c_next (f c) = c_next c) -> after_other (wmod b f w).
Proof.
  intros b f w A F b' sid start now. change (w_log (wmod b f w)) with (w_log w).
  assert (X: forall b0, c_id (conn_of b0 (wmod b f w)) = c_id (conn_of b0 w) /\ c_ptr (conn_of b0 (wmod b f w)) = c_ptr (conn_of b0 w) /\ c_next (conn_of b0 (wmod b f w)) = c_next (conn_of b0 w)).
  { intros b0. rewrite conn_mod_if. destruct (eqb b0 b) eqn:Eb; [apply eqb_prop in Eb; subst; apply F|auto]. }
  destruct (X b') as (-> & _). destruct (X (negb b')) as (_ & -> & ->). apply A.
Qed.
(** the session on p is over *)
Lemma kill_I : forall p f w, I w -> (forall c, c_id (f c) = c_id c /\ c_ptr (f c) = c_ptr c /\ c_next (f c) = c_next c /\ c_fp (f c) = c_fp c /\ c_np (f c) = c_np c /\ c_started (f c) = c_started c /\ c_sctx (f c) = c_sctx c) ->
  I (wmod p f (wemit (EOver (c_id (conn_of p w))) w)).
Proof.
  intros p f w (V & A) F. split.
  - destruct (F (conn_of p w)) as (F1 & _ & _ & F4 & F5 & F6 & F7). apply W_mod; [apply W_emit; try reflexivity; [exact V|eapply W_id; eauto]| | | |]; rewrite ?conn_emit.
    + exact F1.
    + intros X. exfalso. revert X. apply emit_over_dead.
    + intros _. rewrite F4, F5, F6. auto.
    + intros SN. rewrite F4, F5, F6, F7. destruct V as (_ & _ & _ & _ & _ & _ & _ & _ & _ & A10). now apply A10.
  - apply after_mod; [now apply after_emit|]. intros c. destruct (F c) as (X & Y & Z0 & _). auto.
Qed.
Lemma wait_range_ok : forall n p aval w, L p w -> wp (wait_range n p aval) (fun c w' => match c with CNext => E w' | CBreak _ => B p w' | CGo _ => L p w' end) H w.
Proof.
  induction n as [|n IH]; intros p aval w LW; cbn [Pow_Model.wait_range]; pose proof (L_W _ _ LW) as V.
  - apply wp_stop. eapply W_H; [exact V|discriminate|discriminate|discriminate].
  - apply wp_bind, wp_getc. destruct (c_stop (conn_of p w)); cbn [negb]; [|now apply wp_ret].
    destruct (c_cntrl (conn_of p w)) eqn:CN; cbn [negb]. 2: { apply wp_stop. destruct sender eqn:SN; [eapply W_crash; [exact V|exact SN|discriminate]|]. destruct LW as (_ & _ & X & _). destruct (X SN). congruence. }
    asks. intros a w1 L1. pose proof (L_like _ _ _ L1 LW) as LW1. pose proof (L_W _ _ LW1) as V1. rewrite <- (like_conn _ _ p L1).
    assert (KQ: forall f, (forall c, c_np (f c) = c_np c /\ c_cntrl (f c) = c_cntrl c) \/ True -> R (negb p) (wmod p f (wemit (EOver (c_id (conn_of p w1))) w1))).
    { intros f _. unfold R. rewrite conn_mod_other, conn_emit. apply LW1. }
    destruct (a_num a <? 0).
    + apply wp_bind, wp_emit, wp_bind, wp_modc. assert (I2: I (wmod p (set_cntrl false) (wemit (EOver (c_id (conn_of p w1))) w1))) by (apply kill_I; [apply LW1|cbn; auto 10]).
      apply wp_bind, wp_ask; [eapply W_H; [apply I2|discriminate|discriminate|discriminate]|]. intros a2 w2 L2. apply wp_ret. split; [eapply I_like; eauto|]. eapply R_like; [exact L2|]. apply KQ. auto.
    + destruct (a_num a =? 0).
      * apply wp_bind, wp_emit, wp_bind, wp_modc. assert (I2: I (wmod p (set_stop false) (wemit (EOver (c_id (conn_of p w1))) w1))) by (apply kill_I; [apply LW1|cbn; auto 10]).
        apply wp_bind, wp_ask; [eapply W_H; [apply I2|discriminate|discriminate|discriminate]|]. intros a2 w2 L2. apply wp_ret.
        assert (LW2: L p w2). { eapply L_like; [exact L2|]. split; [exact I2|]. rewrite conn_mod, conn_emit. destruct LW1 as (_ & X & Y & _). split; [exact X|]. split; [exact Y|]. apply KQ. auto. }
        destruct (negb (a_num a2 =? 0)); [now apply L_B|exact LW2].
      * destruct (a_num a =? 2); [|now apply wp_ret]. apply wp_bind. eapply wp_mono; [apply check_L; exact LW1|]. intros s w2 (X & _). destruct s; [now apply wp_ret|]. pose proof (L_W _ _ X) as V2. asks. intros a2 w3 L3.
        pose proof (L_like _ _ _ L3 X) as LW3. destruct (a_ok a2); [now apply IH|now apply wp_ret].
Qed.
Lemma wait_again_ok : forall n p w, L p w -> wp (wait_again n p) (fun c w' => match c with CNext => E w' | CBreak _ => B p w' | CGo _ => B p w' end) H w.
Proof.
  induction n as [|n IH]; intros p w LW; cbn [Pow_Model.wait_again]; pose proof (L_W _ _ LW) as V.
  - apply wp_stop. eapply W_H; [exact V|discriminate|discriminate|discriminate].
  - apply wp_bind, wp_getc.
    destruct (c_cntrl (conn_of p w)) eqn:CN; cbn [negb]. 2: { apply wp_stop. destruct sender eqn:SN; [eapply W_crash; [exact V|exact SN|discriminate]|]. destruct LW as (_ & _ & X & _). destruct (X SN). congruence. }
    asks. intros a w1 L1. pose proof (L_like _ _ _ L1 LW) as LW1. rewrite <- (like_conn _ _ p L1).
    assert (I2: I (wmod p (set_stop false) (wemit (EOver (c_id (conn_of p w1))) w1))) by (apply kill_I; [apply LW1|cbn; auto 10]).
    destruct (a_num a <? 0).
    + apply wp_bind, wp_emit, wp_bind, wp_modc, wp_bind. eapply wp_mono; [apply close_ok; [intros _; apply check_ok|apply I2]|]. intros _ w2 (V2 & _ & CL). apply wp_ret. now apply E_closed.
    + destruct (a_num a =? 2).
      * apply wp_bind. eapply wp_mono; [apply check_L; exact LW1|]. intros s w2 (X & _). destruct s; [now apply wp_ret|now apply IH].
      * apply wp_bind, wp_emit, wp_bind, wp_modc, wp_bind, wp_ask; [eapply W_H; [apply I2|discriminate|discriminate|discriminate]|]. intros a2 w2 L2. apply wp_ret. split; [eapply I_like; eauto|]. eapply R_like; [exact L2|]. unfold R. rewrite conn_mod_other, conn_emit. apply LW1.
Qed.
Lemma create_ok : forall n p w, L p w -> wp (create n) (fun o w' => match o with None => E w' | Some _ => L p w' /\ w_serial w' = w_serial w end) H w.
Proof.
  induction n as [|n IH]; intros p w LW; cbn [Pow_Model.create]; pose proof (L_W _ _ LW) as V.
  - apply wp_stop. eapply W_H; [exact V|discriminate|discriminate|discriminate].
  - asks. intros a w1 L1. pose proof (L_like _ _ _ L1 LW) as LW1. assert (S1: w_serial w1 = w_serial w) by apply L1. destruct (a_num a =? 0); [now apply wp_ret|].
    destruct (a_num a =? 1); [|destruct (a_num a =? 2); [now apply wp_ret|apply wp_stop; eapply W_H; [eapply L_W; exact LW1|discriminate|discriminate|discriminate]]].
    apply wp_bind. eapply wp_mono; [apply check_L; exact LW1|]. intros s w2 (X & S2). destruct s; [now apply wp_ret|]. eapply wp_mono; [apply IH; exact X|]. intros [o|] w3; [|auto]. intros (Y & S3). split; [exact Y|congruence].
Qed.
Lemma L_emit : forall p e w, L p w -> (about e < w_serial w)%nat -> is_start e = false -> is_session e = false -> L p (wemit e w).
Proof.
  intros p e w ((V & A) & B0 & C & D) AB NS NE. split; [split; [now apply W_emit|now apply after_emit]|]. unfold R. rewrite !conn_emit. auto.
Qed.
Lemma summary_ok : forall p sum from upto aval w, L p w -> wp (summary p sum from upto aval) (fun c w' => match c with CNext => E w' | CBreak _ => B p w' | CGo _ => L p w' end) H w.
Proof.
  intros p sum from upto aval w LW. unfold Pow_Model.summary. apply wp_bind, wp_modc. set (w1 := wmod p (set_started true) w).
  assert (LW1: L p w1).
  { destruct LW as ((V & A) & F & G & Q). split; [split|].
    - apply W_mod; [exact V|reflexivity| | |].
      + destruct V as (_ & _ & _ & _ & _ & A6 & _). apply A6.
      + intros _ FP _. cbn in FP. split; [exact FP|]. now rewrite (F FP).
      + intros SN. cbn. destruct V as (_ & _ & _ & _ & _ & _ & _ & _ & _ & A10). destruct (A10 SN p) as (X & _). split; [exact X|]. intros _ _. apply X. now apply G.
    - apply after_mod; auto.
    - unfold w1, R. rewrite conn_mod, conn_mod_other. auto. }
  clearbody w1. clear LW w. rename w1 into w. rename LW1 into LW. apply wp_bind, wp_getc, wp_bind.
  apply wp_mono with (Q := fun _ w' => L p w' /\ w_serial w' = w_serial w).
  { pose proof check_ok as CK. destruct sender eqn:SN; [|now apply wp_ret]. destruct (c_testfp (conn_of p w)); cbn [negb]; [|apply wp_stop; eapply W_crash; [eapply L_W; eauto|exact SN|discriminate]].
    pose proof (L_W _ _ LW) as V. asks. intros a w1 L1. pose proof (L_like _ _ _ L1 LW) as LW1. assert (S1: w_serial w1 = w_serial w) by apply L1. destruct (a_ok a); cbn [negb]; [|now apply wp_ret].
    assert (FRM: forall w2, W None w2 -> calm w1 w2 -> (exists v, conn_of p w2 = set_fetch v (conn_of p w1)) -> conn_of (negb p) w2 = conn_of (negb p) w1 -> L p w2).
    { intros w2 V2 C2 (v & E2) O2. destruct LW1 as ((V1 & A1) & F1 & G1 & Q1). split; [split; [exact V2|]|].
      - eapply kept_after; [|exact C2|exact A1]. intros b. destruct (bool_dec b p) as [->|NE]; [rewrite E2; unfold kept; auto|]. rewrite (the_other _ _ NE), O2. apply kept_refl.
      - unfold R. rewrite E2, O2. cbn. auto. }
    apply wp_bind. eapply wp_mono; [apply fetch_ok; [exact SN|exact CK|eapply L_W; exact LW1]|]. intros r w2. destruct r.
    - intros (V2 & C2 & _ & S2 & X & Y). apply wp_ret. split; [now apply FRM|congruence].
    - intros (V2 & C2 & D). apply wp_ret. assert (S2: w_serial w2 = w_serial w1) by apply C2. split; [|congruence]. destruct D as [(X & Y & _)|D]; [now apply FRM|now apply L_closed]. }
  intros fetched w1 (LW1 & S1). assert (ID: (c_id (conn_of p w) < w_serial w1)%nat) by (rewrite S1; eapply W_id, L_W; exact LW).
  destruct fetched as [[|]|]; [| |apply wp_ret; now apply L_B].
  2: { apply wp_bind, wp_emit, wp_ret. now apply L_emit. }
  clear ID S1 LW w. pose proof (L_W _ _ LW1) as V1. assert (ID: (c_id (conn_of p w1) < w_serial w1)%nat) by (eapply W_id; eauto). apply wp_bind, wp_getc.
  destruct (c_fp (conn_of p w1)) eqn:FP; cbn [negb].
  2: { apply wp_stop. destruct sender eqn:SN; [eapply W_crash; [exact V1|exact SN|discriminate]|]. exfalso. destruct LW1 as (_ & _ & G & _). destruct V1 as (_ & _ & _ & _ & _ & _ & _ & _ & _ & A10). destruct (G SN) as (NP & _). destruct (A10 SN p) as (X & _). destruct (X NP). congruence. }
  asks. intros a w2 L2. pose proof (L_like _ _ _ L2 LW1) as LW2. assert (S2: w_serial w2 = w_serial w1) by apply L2.
  destruct (a_ok a); cbn [negb]; [|apply wp_ret; now apply L_B]. destruct (negb (c_stop (conn_of p w1)) && (a_num a =? 0)); [apply wp_ret; now apply L_B|].
  apply wp_bind, wp_remaining. intros n. apply wp_bind. eapply wp_mono; [apply create_ok; exact LW2|]. intros [made|] w3; [intros (LW3 & S3)|intros X; apply wp_ret; exact X].
  apply wp_bind. apply wp_mono with (Q := fun _ w' => L p w' /\ w_serial w' = w_serial w1).
  { destruct made; [|apply wp_ret; split; [exact LW3|congruence]]. apply wp_ask; [eapply W_H; [eapply L_W; exact LW3|discriminate|discriminate|discriminate]|]. intros a4 w4 L4. split; [eapply L_like; eauto|]. destruct L4 as (_ & _ & X & _). congruence. }
  intros a4 w4 (LW4 & S4). apply wp_bind, wp_emit. set (e := if a_ok a4 then _ else _). assert (LW5: L p (wemit e w4)) by (apply L_emit; [exact LW4|unfold e; destruct (a_ok a4); cbn; lia|unfold e; now destruct (a_ok a4)|unfold e; now destruct (a_ok a4)]).
  apply wp_bind, wp_getc, wp_ret. destruct (c_cntrl (conn_of p (wemit e w4))); [exact LW5|now apply L_B].
Qed.
Lemma Setup_L : forall p w w', L p w -> Setup (negb p) w false w' -> L p w'.
Proof.
  intros p w w' (_ & F & G & _) (A & _ & X). destruct (X eq_refl) as (Y & Q). rewrite negb_involutive in Y. split; [exact A|].
  destruct Y as [(v & n & Y)|(SN & Y)]; [rewrite Y; cbn; auto|]. split; [congruence|]. split; [congruence|exact Q].
Qed.
Lemma Setup_E : forall p w w', L p w -> Setup (negb p) w true w' -> E w'.
Proof.
  intros p w w' (_ & F & G & _) (A & X & _). destruct (X eq_refl) as [Y|(NP & Y)]; [apply E_closed; [apply A|exact Y]|]. rewrite negb_involutive in Y. split; [exact A|].
  intros b SN. destruct (bool_dec b p) as [->|NE]; [|rewrite (the_other _ _ NE); congruence]. destruct Y as [(v & n & Y)|(SN' & _)]; [rewrite Y; cbn; intros _; now apply G|congruence].
Qed.
Lemma setup_L : forall p limit w, L p w -> wp (setup_session (negb p) p limit) (Setup (negb p) w) H w.
Proof. intros p limit w (A & _ & _ & C). rewrite <- (negb_involutive p) at 2. apply setup_ok; [exact A|exact C]. Qed.
Lemma summaries_ok : forall more p sum last aval w, L p w -> wp (summaries more p (negb p) sum last aval) (fun r w' => match r with None => E w' | Some _ => B p w' end) H w.
Proof.
  induction more as [|more IH]; intros p sum last aval w LW; cbn [Pow_Model.summaries].
  - apply wp_ret. now apply L_B.
  - apply wp_bind. eapply wp_mono; [apply check_L; exact LW|]. intros s w0 (LW0 & _). clear w LW. rename w0 into w. rename LW0 into LW. destruct s; [now apply wp_ret|]. apply wp_bind, wp_getc. apply wp_bind.
    pose proof (L_W _ _ LW) as V.
    assert (SC: c_sctx (conn_of p w) <> None \/ sender = true).
    { destruct sender eqn:SN; [now right|left]. destruct LW as (_ & _ & G & _). destruct V as (_ & _ & _ & _ & _ & _ & _ & _ & _ & A10). destruct (A10 SN p) as (X & _). apply X. now apply G. }
    eapply wp_mono; [apply add_deltas_ok; [exact V|exact SC]|]. intros last' w1 (V1 & (v & E1 & _) & O1 & LG1 & S1).
    assert (LW1: L p w1).
    { destruct LW as ((_ & A) & F & G & Q). split; [split; [exact V1|]|].
      - eapply kept_after; [|apply calm_log; [exact LG1|exact S1]|exact A]. intros b. destruct (bool_dec b p) as [->|NE]; [rewrite E1; unfold kept; auto|]. rewrite (the_other _ _ NE), O1. apply kept_refl.
      - unfold R. rewrite E1, O1. cbn. auto. }
    apply wp_bind. eapply wp_mono; [apply setup_L; exact LW1|]. intros s w2 X. destruct s; [apply wp_ret; eapply Setup_E; eauto|]. pose proof (Setup_L _ _ _ LW1 X) as LW2.
    apply wp_bind, wp_remaining. intros n. apply wp_bind. eapply wp_mono; [apply wait_range_ok; exact LW2|]. intros c w3. destruct c as [|av|av]; [intros; now apply wp_ret|intros; now apply wp_ret|]. intros LW3.
    apply wp_bind. eapply wp_mono; [apply summary_ok; exact LW3|]. intros c w4. destruct c as [|av4|av4]; [intros; now apply wp_ret|intros; now apply wp_ret|]. intros LW4. now apply IH.
Qed.
Lemma finish_ok : forall p aval complete w, B p w -> wp (finish p (negb p) aval complete) (fun _ w' => E w') H w.
Proof.
  intros p aval complete w0 ((V0 & A0) & Q0). unfold Pow_Model.finish. apply wp_bind, wp_getc. apply wp_bind.
  apply wp_mono with (Q := fun _ w' => W None w' /\ after_other w' /\ forall b, conn_of b w' = conn_of b w0).
  { apply wp_when; intros _; [|auto]. apply wp_emit. split; [apply W_emit; try reflexivity; [exact V0|eapply W_id; eauto]|]. split; [now apply after_emit|]. intros b. apply conn_emit. }
  intros _ w (V & A & E0). rewrite <- E0. assert (Q: R (negb p) w) by (unfold R; rewrite E0; exact Q0). clear V0 A0 Q0 E0 w0. apply wp_bind.
  apply wp_mono with (Q := fun _ w' => I w' /\ ~ runs (c_id (conn_of p w')) (w_log w') /\ c_id (conn_of p w') = c_id (conn_of p w) /\ w_serial w' = w_serial w /\ conn_of (negb p) w' = conn_of (negb p) w).
  { destruct (c_cntrl (conn_of p w) && c_stop (conn_of p w)) eqn:CS.
    - apply wp_bind, wp_emit. assert (I1: I (wemit (EOver (c_id (conn_of p w))) w)). { split; [apply W_emit; try reflexivity; [exact V|eapply W_id; eauto]|now apply after_emit]. }
      apply wp_bind, wp_ask; [eapply W_H; [apply I1|discriminate|discriminate|discriminate]|]. intros a w1 L1. pose proof (I_like _ _ L1 I1) as I2.
      assert (D1: ~ runs (c_id (conn_of p w1)) (w_log w1)). { rewrite (like_conn _ _ _ L1), conn_emit. destruct L1 as (_ & _ & _ & ->). apply emit_over_dead. }
      assert (E1: forall b, conn_of b w1 = conn_of b w). { intros b. rewrite (like_conn _ _ _ L1). apply conn_emit. } assert (S1: w_serial w1 = w_serial w) by apply L1.
      apply wp_bind. apply wp_mono with (Q := fun _ w' => I w' /\ ~ runs (c_id (conn_of p w')) (w_log w') /\ c_id (conn_of p w') = c_id (conn_of p w) /\ w_serial w' = w_serial w /\ conn_of (negb p) w' = conn_of (negb p) w); [|intros; now apply wp_ret].
      apply wp_when; intros _; [|split; [exact I2|]; split; [exact D1|]; rewrite !E1; auto]. apply wp_modc. destruct I2 as (V2 & A2). rewrite conn_mod, conn_mod_other, !E1. split; [split|].
      + apply W_mod; [exact V2|reflexivity|intros X; now destruct D1|cbn; auto|]. intros SN. destruct V2 as (_ & _ & _ & _ & _ & _ & _ & _ & _ & A10). exact (A10 SN p).
      + apply after_mod; auto.
      + split; [rewrite E1 in D1; exact D1|]. auto.
    - apply wp_ret. split; [split; assumption|]. split; [|auto]. eapply W_dead; [exact V|]. apply andb_false_iff in CS. exact CS. }
  intros av w1 ((V1 & A1) & D1 & ID1 & S1 & O1). apply wp_bind. eapply wp_mono; [apply write_ok; [intros _; apply check_ok|exact V1]|]. cbv beta. intros _ w2 (V2 & C2 & K2).
  assert (R2: R (negb p) w2). { destruct K2 as [(_ & K2)|K2]; [unfold R; rewrite K2, O1; exact Q|]. intros _ X. destruct (K2 (negb p)) as (_ & _ & _ & Y & _). congruence. }
  assert (D2: ~ runs (c_id (conn_of p w2)) (w_log w2)). { destruct K2 as [((CO & _) & _)|K2]; [|eapply W_dead; [exact V2|left; apply K2]]. injection CO as CI _ _ _ _ _. rewrite CI. eapply calm_dead; eauto. }
  assert (A2: after_other w2). { destruct K2 as [K2|K2]; [|eapply closed_after; eauto]. eapply kept_after; [eapply spares_kept; exact K2|exact C2|exact A1]. }
  apply wp_bind, wp_modc. set (f := fun c => set_np false _). set (w3 := wmod p f w2).
  assert (V3: W None w3). { apply W_clear; [exact V2|auto|]. intros X. now destruct D2. }
  assert (A3: after_other w3) by (apply after_mod; auto).
  assert (E3: E w3). { split; [split; assumption|]. intros b. destruct (bool_dec b p) as [->|NE]; [intros _; unfold w3; rewrite conn_mod; cbn; discriminate|]. rewrite (the_other _ _ NE). unfold w3, R. rewrite conn_mod_other. exact R2. }
  apply wp_when; intros _; [|exact E3].
  rewrite <- (negb_involutive p) at 2. eapply wp_mono; [apply reset_ok; [intros _; apply check_ok|exact V3]|]. cbv beta. rewrite negb_involutive. intros _ w5 (V5 & C5 & CL5 & K5).
  assert (D5: ~ runs (c_id (conn_of p w5)) (w_log w5)).
  { destruct K5 as [K5|K5]; [|eapply W_dead; [exact V5|left; apply K5]]. rewrite K5. cbn [set_ptr c_id]. eapply calm_dead; [exact C5|]. intros X. unfold w3 in X. rewrite conn_mod in X. now destruct D2. }
  split; [split; [exact V5|]|].
  - intros b sid start now X. exfalso. destruct (bool_dec b p) as [->|NE]; [now destruct D5|]. rewrite (the_other _ _ NE) in X. revert X. eapply W_dead; [exact V5|left; apply CL5].
  - intros b _ X. destruct (bool_dec b p) as [->|NE].
    + destruct K5 as [K5|K5]; [rewrite K5 in X; unfold w3 in X; rewrite conn_mod in X; cbn in X; discriminate|]. destruct K5 as (_ & _ & _ & Y & _). congruence.
    + rewrite (the_other _ _ NE) in X. destruct CL5 as (_ & _ & _ & Y & _). congruence.
Qed.
Lemma pass_ok : forall w, E w -> wp pass (fun _ w' => E w') H w.
Proof.
  intros w EW. unfold Pow_Model.pass. apply wp_bind. eapply wp_mono; [apply check_ok; apply EW|]. intros s w1 (V1 & _ & X).
  assert (E1: E w1) by (destruct X as [(_ & X)|(X & _)]; [eapply E_like; eauto|now apply E_closed]). clear X. clear V1. apply wp_bind, wp_take_turn. intros p w2 L2. pose proof (E_like _ _ L2 E1) as E2. clear E1 L2 w1 EW w.
  apply wp_bind, wp_getc. destruct (c_np (conn_of p w2)) eqn:NP; cbn [negb].
  - apply wp_bind, wp_modc. set (f := fun c => set_cur _ _). set (w3 := wmod p f w2).
    assert (LW: L p w3).
    { destruct E2 as ((V & A) & Q). split; [split; [apply W_mod_core; [exact V|reflexivity|cbn; auto]|apply after_mod; auto]|]. unfold w3, R. rewrite conn_mod, conn_mod_other. cbn. split; [auto|]. split; [intros SN; split; [exact NP|now apply (Q p)]|]. apply (Q (negb p)). }
    clearbody w3. apply wp_bind. apply wp_mono with (Q := fun r w' => match r with None => E w' | Some _ => B p w' end).
    + destruct K as [|K'] eqn:EK.
      * assert (LS: forall w0, L p w0 -> L p (wmod p (set_started true) w0)).
        { clear - EK. intros w0 ((V & A) & F & G & Q). split; [split|].
          - apply W_mod; [exact V|reflexivity| | |].
            + destruct V as (_ & _ & _ & _ & _ & A6 & _). apply A6.
            + intros _ FP _. cbn in FP. split; [exact FP|]. now rewrite (F FP).
            + intros SN. cbn. destruct V as (_ & _ & _ & _ & _ & _ & _ & _ & _ & A10). destruct (A10 SN p) as (X & _). split; [exact X|]. intros _ _. apply X. now apply G.
          - apply after_mod; auto.
          - unfold R. rewrite conn_mod, conn_mod_other. auto. }
        apply wp_bind. rewrite <- EK. eapply wp_mono; [apply setup_L; exact LW|]. intros s' w4 X. destruct s'; [apply wp_ret; eapply Setup_E; eauto|]. pose proof (Setup_L _ _ _ LW X) as LW4.
        apply wp_bind, wp_modc, wp_bind, wp_remaining. intros n. apply wp_bind. eapply wp_mono; [apply wait_again_ok; apply LS; exact LW4|]. intros c w5. destruct c; intros; now apply wp_ret.
      * rewrite <- EK. now apply summaries_ok.
    + intros r w4. destruct r as [(av & complete)|]; [intros; now apply finish_ok|intros; now apply wp_ret].
  - apply wp_bind. eapply wp_mono; [rewrite <- (negb_involutive p) at 2; apply setup_ok; [apply E2|apply E2]|]. cbv beta. intros r w3 (I3 & X & Y). apply wp_ret. rewrite negb_involutive in X, Y. destruct r.
    + destruct (X eq_refl) as [Z0|(NQ & Z0)]; [apply E_closed; [apply I3|exact Z0]|]. split; [exact I3|]. intros b SN. destruct (bool_dec b p) as [->|NE]; [|rewrite (the_other _ _ NE); congruence].
      destruct Z0 as [(v & n & Z0)|(SN' & _)]; [rewrite Z0; cbn; congruence|congruence].
    + destruct (Y eq_refl) as (Z0 & Q). split; [exact I3|]. intros b SN. destruct (bool_dec b p) as [->|NE]; [|rewrite (the_other _ _ NE); now apply Q].
      destruct Z0 as [(v & n & Z0)|(SN' & _)]; [rewrite Z0; cbn; congruence|congruence].
Qed.
Lemma passes_ok : forall n w, E w -> wp (passes n) (fun _ w' => E w') H w.
Proof. induction n as [|n IH]; intros w EW; cbn [Pow_Model.passes]; [now apply wp_ret|]. apply wp_bind. eapply wp_mono; [now apply pass_ok|]. intros u w' EW'. now apply IH. Qed.
Lemma world0_E : forall env, E (world0 env).
Proof.
  intros env. split; [split|].
  - unfold W. split; [intros e X; destruct X|]. split; [intros [|]; cbn; lia|]. split; [reflexivity|]. split; [intros sid start now X; destruct X|]. split; [intros id ((sid & start & now & X) & _); destruct X|].
    split; [intros b ((sid & start & now & X) & _); destruct X|]. split; [intros before after id sid start now X; destruct before; discriminate|]. split; [intros id; cbn; lia|]. split; [intros [|] _ X; discriminate|]. intros _ [|]; split; intros; discriminate.
  - intros b sid start now ((s & t & n & X) & _). destruct X.
  - intros [|] _ X; discriminate.
Qed.
Theorem main_ok : forall n env, H HNoMore (snd (passes n (world0 env))) /\ (forall h, fst (passes n (world0 env)) = Halt h -> H h (snd (passes n (world0 env)))).
Proof.
  intros n env. pose proof (passes_ok n (world0 env) (world0_E env)) as X. unfold wp in X. destruct (passes n (world0 env)) as [[a|h] w']; cbn [fst snd].
  - split; [eapply W_H; [apply X|discriminate|discriminate|discriminate]|discriminate].
  - split; [|intros h' Eh; injection Eh as <-; exact X]. destruct X as (X1 & X2 & _). unfold H. repeat split; auto; discriminate.
Qed.
End Proofs.
