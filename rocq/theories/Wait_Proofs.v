From Coq Require Import ZArith List Bool Lia ZifyBool ZifyNat.
From Verif Require Import Base BaseLemmas Arith_Model Arith_Proofs Wait_Model Wait_Spec.
Import ListNotations.
Open Scope Z_scope.

(** ** what time does *)
Definition grows (w w' : world) : Prop :=
  (forall i, w_kids w i <> Alive -> w_kids w' i = w_kids w i) /\ w_now w <= w_now w' /\
  (w_flag w = true -> w_flag w' = true) /\ w_gtod w' = w_gtod w.

Lemma grows_refl : forall w, grows w w.
Proof. intros w. repeat split; auto; lia. Qed.

Lemma grows_trans : forall a b c, grows a b -> grows b c -> grows a c.
Proof.
  intros a b c (A1 & A2 & A3 & A4) (B1 & B2 & B3 & B4). repeat split; auto; try lia; try congruence.
  intros i H. rewrite <- (A1 i H). apply B1. rewrite (A1 i H). exact H.
Qed.

Lemma happen_grows : forall e w, grows w (happen e w).
Proof.
  intros [i how| | | |t] w; cbn [happen]; try (repeat split; auto; cbn; lia).
  destruct (w_kids w i) eqn:K; try apply grows_refl.
  repeat split; auto; cbn; try lia. intros j N. unfold put_nat. destruct (Nat.eqb_spec j i) as [->|]; congruence.
Qed.

Lemma happen_reaped : forall e w, w_reaped (happen e w) = w_reaped w.
Proof. intros [i how| | | |t] w; cbn [happen]; try reflexivity. destruct (w_kids w i); reflexivity. Qed.

Lemma happen_future : forall e w, w_between (happen e w) = w_between w /\ w_during (happen e w) = w_during w.
Proof. intros [i how| | | |t] w; cbn [happen]; try (split; reflexivity). destruct (w_kids w i); split; reflexivity. Qed.

Lemma fold_happen : forall es w, let w' := fold_left (fun w e => happen e w) es w in
  grows w w' /\ w_reaped w' = w_reaped w /\ w_between w' = w_between w /\ w_during w' = w_during w.
Proof.
  induction es as [|e es IH]; intros w; cbn [fold_left]; [repeat split; auto; lia|].
  destruct (IH (happen e w)) as (A & B & C & D). destruct (happen_future e w) as (F & G).
  split; [eapply grows_trans; [apply happen_grows|exact A]|]. rewrite B, C, D, F, G, happen_reaped. repeat split.
Qed.

Lemma tick_ok : forall w, grows w (tick w) /\ w_reaped (tick w) = w_reaped w /\ w_during (tick w) = w_during w.
Proof.
  intros w. unfold tick. destruct (w_between w) as [|es r] eqn:B; [repeat split; auto; lia|].
  destruct (fold_happen es (set_between r w)) as (A & C & _ & D). repeat split; try apply A; auto.
Qed.

(** ** nothing ends between the calls *)
Definition quiet (w : world) : Prop := no_end (w_between w).

Lemma fold_kids : forall es w, Forall (fun e => match e with Ends _ _ => False | _ => True end) es ->
  w_kids (fold_left (fun w e => happen e w) es w) = w_kids w.
Proof.
  induction es as [|e es IH]; intros w F; [reflexivity|]. inversion F as [|x y F1 F2]; subst. cbn [fold_left].
  rewrite IH by exact F2. destruct e; cbn; try reflexivity. destruct F1.
Qed.

Lemma tick_quiet : forall w, quiet w -> w_kids (tick w) = w_kids w /\ quiet (tick w).
Proof.
  intros w Q. unfold tick, quiet in *. destruct (w_between w) as [|es r] eqn:B; [rewrite B; split; auto|].
  inversion Q as [|x y Q1 Q2]; subst. split; [rewrite fold_kids by exact Q1; reflexivity|].
  destruct (fold_happen es (set_between r w)) as (_ & _ & C & _). rewrite C. exact Q2.
Qed.

(** ** what is known of a session *)
Definition knows (w : world) (e : endpoint) : Prop :=
  (e_accept e = -1 /\ w_reaped w (e_child e) = false) \/ (0 <= e_accept e /\ e_accept e = outcome (w_kids w (e_child e))).
Definition known (w : world) (s : session) : Prop := match s_end s with Some e => knows w e | None => True end.
Definition coherent (tests : list session) (w : world) : Prop := NoDup (children tests) /\ Forall (known w) tests.

Lemma outcome_over : forall k, 0 <= outcome k <-> k <> Alive.
Proof.
  intros [|c|]; cbn [outcome].
  - split; [lia|congruence].
  - assert (M := Z.mod_pos_bound c 256 ltac:(lia)). split; [congruence|lia].
  - split; [congruence|lia].
Qed.

Lemma outcome_min : forall k, -1 <= outcome k.
Proof. intros [|c|]; cbn [outcome]; lia. Qed.

Lemma knows_grows : forall w w' e, grows w w' -> w_reaped w' (e_child e) = w_reaped w (e_child e) -> knows w e -> knows w' e.
Proof.
  intros w w' e (G & _) R [(A & B)|(A & B)]; [left; rewrite R; auto|right]. split; [exact A|].
  rewrite G; [exact B|]. apply outcome_over. lia.
Qed.

Lemma endpoint_status_ok : forall e aval w e' a w', endpoint_status e aval w = (e', a, w') -> knows w e ->
  knows w' e' /\ e_child e' = e_child e /\ a = (if aval =? 0 then e_accept e' else aval) /\
  grows w w' /\ (forall i, i <> e_child e -> w_reaped w' i = w_reaped w i) /\ w_during w' = w_during w /\
  (0 <= e_accept e -> e' = e) /\ (e_accept e' < 0 -> w_kids w' (e_child e) = Alive) /\
  (0 <= e_accept e' -> e_accept e' = outcome (w_kids w' (e_child e))) /\
  (quiet w -> w_kids w' = w_kids w /\ quiet w').
Proof.
  intros e aval w e' a w' E K. unfold endpoint_status in E.
  destruct (tick_ok w) as (G & R & D). pose proof (tick_quiet w) as Q. set (t := tick w) in *. clearbody t.
  assert (K' : knows t e) by (apply (knows_grows w); auto; rewrite R; reflexivity).
  destruct (Z.ltb_spec (e_accept e) 0) as [L|L].
  2: { injection E as <- <- <-. assert (X : e_accept e = outcome (w_kids t (e_child e))) by (destruct K' as [(A & _)|(_ & B)]; [lia|exact B]).
       repeat (split; [solve [auto|lia]|]). split; [intros i N; rewrite R; reflexivity|].
       repeat (split; [solve [auto|lia]|]). exact Q. }
  destruct K' as [(A & B)|(A & B)]; [|lia]. rewrite B in E.
  destruct (w_kids t (e_child e)) as [|c|] eqn:KK.
  - injection E as <- <- <-. split; [left; split; [exact A|exact B]|].
    repeat (split; [solve [auto|lia]|]). split; [intros i N; rewrite R; reflexivity|].
    repeat (split; [solve [auto|lia]|]). exact Q.
  - injection E as <- <- <-. assert (M := Z.mod_pos_bound c 256 ltac:(lia)). cbn [e_accept e_child]. cbn [w_kids set_reaped].
    split; [right; cbn [e_accept e_child w_kids set_reaped]; rewrite KK; cbn [outcome]; lia|].
    repeat (split; [solve [auto|lia]|]). split; [intros i N; cbn; unfold put_nat; destruct (Nat.eqb_spec i (e_child e)); [congruence|]; rewrite R; reflexivity|].
    split; [exact D|]. split; [lia|]. split; [lia|]. split; [rewrite KK; cbn [outcome]; auto|].
    intros X. destruct (Q X) as (Q1 & Q2). split; [exact Q1|exact Q2].
  - injection E as <- <- <-. cbn [e_accept e_child w_kids set_reaped].
    split; [right; cbn [e_accept e_child w_kids set_reaped]; rewrite KK; cbn [outcome]; unfold CNTRL_FAILURE; lia|].
    repeat (split; [solve [auto|lia]|]). split; [intros i N; cbn; unfold put_nat; destruct (Nat.eqb_spec i (e_child e)); [congruence|]; rewrite R; reflexivity|].
    split; [exact D|]. unfold CNTRL_FAILURE. split; [lia|]. split; [lia|]. split; [rewrite KK; cbn [outcome]; auto|].
    intros X. destruct (Q X) as (Q1 & Q2). split; [exact Q1|exact Q2].
Qed.

Lemma known_grows : forall w w' s, grows w w' -> (forall i, In i (children [s]) -> w_reaped w' i = w_reaped w i) -> known w s -> known w' s.
Proof.
  intros w w' s G R K. unfold known in *. destruct (s_end s) as [e|] eqn:E; [|exact K].
  apply (knows_grows w); auto. apply R. cbn. rewrite E. left. reflexivity.
Qed.

Lemma all_known_grows : forall w w' l, grows w w' -> (forall i, In i (children l) -> w_reaped w' i = w_reaped w i) -> Forall (known w) l -> Forall (known w') l.
Proof.
  intros w w' l G R F. induction F as [|s l K F IH]; [constructor|]. constructor.
  - apply (known_grows w); auto. intros i N. apply R. cbn in *. apply in_or_app. left. rewrite app_nil_r in N. exact N.
  - apply IH. intros i N. apply R. cbn. apply in_or_app. right. exact N.
Qed.

(** number of the processes that run *)
Definition runs (w : world) (l : list nat) : Z := Z.of_nat (length (filter (fun i => match w_kids w i with Alive => true | _ => false end) l)).

Lemma runs_grows : forall w w' l, grows w w' -> runs w' l <= runs w l.
Proof.
  intros w w' l (G & _). unfold runs. induction l as [|i l IH]; [cbn; lia|]. cbn [filter].
  destruct (w_kids w i) eqn:K.
  - destruct (w_kids w' i); cbn [length]; lia.
  - rewrite (G i) by congruence. rewrite K. exact IH.
  - rewrite (G i) by congruence. rewrite K. exact IH.
Qed.

Lemma runs_cons : forall w i l, runs w (i :: l) = (match w_kids w i with Alive => 1 | _ => 0 end) + runs w l.
Proof. intros w i l. unfold runs. cbn [filter]. destruct (w_kids w i); cbn [length]; lia. Qed.

Lemma children_cons : forall s r, children (s :: r) = match s_end s with Some e => e_child e :: children r | None => children r end.
Proof. intros s r. unfold children at 1. cbn [flat_map]. destruct (s_end s); reflexivity. Qed.

Lemma active_ok : forall tests n0 r0 w n a tests' w', active_from tests n0 r0 w = (n, a, tests', w') -> coherent tests w -> 0 <= r0 ->
  coherent tests' w' /\ children tests' = children tests /\ grows w w' /\
  (forall i, ~ In i (children tests) -> w_reaped w' i = w_reaped w i) /\ w_during w' = w_during w /\
  n0 + runs w' (children tests) <= n <= n0 + runs w (children tests) /\
  r0 <= a /\ (forall i, In i (children tests) -> outcome (w_kids w i) <= a) /\
  (a = r0 \/ exists i, In i (children tests) /\ outcome (w_kids w' i) = a) /\
  (quiet w -> w_kids w' = w_kids w /\ quiet w') /\
  map s_sid tests' = map s_sid tests /\ map (fun s => match s_end s with Some _ => true | None => false end) tests' = map (fun s => match s_end s with Some _ => true | None => false end) tests.
Proof.
  induction tests as [|s r IH]; intros n0 r0 w n a tests' w' E (N & F) P; cbn [active_from] in E.
  - injection E as <- <- <- <-. cbn. repeat split; auto; try lia; try constructor.
  - inversion F as [|x y F1 F2]; subst. destruct (s_end s) as [e|] eqn:SE.
    + destruct (endpoint_status e CNTRL_ACCEPT w) as [[e1 laval] w1] eqn:ES.
      unfold known in F1. rewrite SE in F1.
      destruct (endpoint_status_ok _ _ _ _ _ _ ES F1) as (K1 & C1 & A1 & G1 & R1 & D1 & X1 & X2 & X3 & Q1).
      change (CNTRL_ACCEPT =? 0) with true in A1. cbv iota in A1. subst laval.
      assert (CH : children (s :: r) = e_child e :: children r) by (rewrite children_cons, SE; reflexivity).
      rewrite CH in N. inversion N as [|x y N1 N2]; subst.
      assert (CO : coherent r w1).
      { split; [exact N2|]. apply (all_known_grows w); auto. intros i I. apply R1. intros ->. contradiction. }
      destruct (active_from r (if e_accept e1 <? 0 then n0 + 1 else n0) (if e_accept e1 <? 0 then r0 else Z.max (e_accept e1) r0) w1)
        as [[[n2 a2] r2] w2] eqn:E2.
      assert (EE : (n2, a2, mkSess (s_sid s) (Some e1) :: r2, w2) = (n, a, tests', w')).
      { rewrite <- E. destruct (e_accept e1 <? 0); rewrite E2; reflexivity. }
      injection EE as <- <- <- <-. clear E.
      destruct (IH _ _ _ _ _ _ _ E2 CO) as ((N3 & F3) & H2 & H3 & H4 & H5 & H6 & H7 & H8 & H9 & H10 & H11 & H12).
      { destruct (Z.ltb_spec (e_accept e1) 0); lia. }
      rewrite CH. rewrite !runs_cons.
      assert (KE : knows w2 e1).
      { apply (knows_grows w1); auto. apply H4. rewrite C1. exact N1. }
      assert (OE : e_accept e1 = outcome (w_kids w1 (e_child e))).
      { destruct (Z.ltb_spec (e_accept e1) 0) as [L|L]; [|auto]. rewrite X2 by exact L. destruct K1 as [(A & _)|(A & _)]; [exact A|lia]. }
      assert (R0 := runs_grows w w1 (children r) G1).
      split. { split; [rewrite children_cons; cbn [s_end]; rewrite C1, H2; constructor; auto|]. constructor; [exact KE|exact F3]. }
      split. { rewrite children_cons. cbn [s_end]. rewrite C1, H2. reflexivity. }
      split. { eapply grows_trans; [exact G1|exact H3]. }
      split. { intros i I. rewrite H4 by (intros X; apply I; right; exact X). apply R1. intros ->. apply I. left. reflexivity. }
      split. { congruence. }
      destruct (Z.ltb_spec (e_accept e1) 0) as [L|L].
      * assert (AL : w_kids w1 (e_child e) = Alive) by (apply X2; exact L).
        assert (AW : w_kids w (e_child e) = Alive).
        { destruct (w_kids w (e_child e)) eqn:KW; [reflexivity| |]; destruct G1 as (G1 & _); rewrite G1 in AL by congruence; congruence. }
        rewrite AW. split. { destruct (w_kids w2 (e_child e)); lia. }
        split; [lia|]. split. { intros i [<-|I]; [rewrite AW; cbn; lia|]. transitivity (outcome (w_kids w1 i)); [|apply H8; exact I].
          destruct (w_kids w i) eqn:KW; [exact (outcome_min _)| |]; destruct G1 as (G1 & _); rewrite G1 by congruence; rewrite KW; lia. }
        split. { destruct H9 as [H9|(i & I & H9)]; [left; exact H9|right; exists i; split; [right; exact I|exact H9]]. }
        split. { intros Q. destruct (Q1 Q) as (Q2 & Q3). destruct (H10 Q3) as (Q4 & Q5). split; [congruence|exact Q5]. }
        split; [cbn; congruence|]. cbn. rewrite SE. congruence.
      * assert (AL : w_kids w1 (e_child e) <> Alive) by (apply outcome_over; lia).
        destruct (w_kids w2 (e_child e)) eqn:K2.
        { exfalso. destruct H3 as (H3 & _). rewrite H3 in K2 by exact AL. contradiction. }
        all: assert (O2 : outcome (w_kids w2 (e_child e)) = e_accept e1) by (destruct H3 as (H3 & _); rewrite H3 by exact AL; symmetry; exact OE).
        all: split; [destruct (w_kids w (e_child e)); lia|].
        all: split; [lia|]; split; [intros i [<-|I];
          [destruct (w_kids w (e_child e)) eqn:KW; [cbn; lia| |]; destruct G1 as (G1 & _); rewrite G1 in OE by congruence; rewrite KW in OE; lia
          |transitivity (outcome (w_kids w1 i)); [|apply H8; exact I];
           destruct (w_kids w i) eqn:KW; [exact (outcome_min _)| |]; destruct G1 as (G1 & _); rewrite G1 by congruence; rewrite KW; lia]|].
        all: split; [destruct H9 as [H9|(i & I & H9)];
          [destruct (Z.max_spec (e_accept e1) r0) as [(M1 & M2)|(M1 & M2)]; [left; congruence|right; exists (e_child e); split; [left; reflexivity|congruence]]
          |right; exists i; split; [right; exact I|exact H9]]|].
        all: split; [intros Q; destruct (Q1 Q) as (Q2 & Q3); destruct (H10 Q3) as (Q4 & Q5); split; [congruence|exact Q5]|].
        all: split; [cbn; congruence|]; cbn; rewrite SE; congruence.
    + destruct (active_from r n0 r0 w) as [[[n2 a2] r2] w2] eqn:E2. injection E as <- <- <- <-.
      assert (CH : children (s :: r) = children r) by (rewrite children_cons, SE; reflexivity). rewrite CH in N.
      destruct (IH _ _ _ _ _ _ _ E2 (conj N F2) P) as ((N3 & F3) & H2 & H3 & H4 & H5 & H6 & H7 & H8 & H9 & H10 & H11 & H12).
      rewrite CH. split. { split; [rewrite children_cons, SE; exact N3|]. constructor; [unfold known; rewrite SE; exact I|exact F3]. }
      split. { rewrite children_cons, SE. exact H2. }
      repeat (split; [assumption|]). split; cbn; congruence.
Qed.

(** ** poll *)
Lemma sleep_ok : forall lim es w r w', sleep lim es w = (r, w') ->
  grows w w' /\ w_reaped w' = w_reaped w /\ w_between w' = w_between w /\ (length (w_during w') <= length es)%nat /\
  (r = None -> w_kids w' = w_kids w /\ forall u, lim = Some u -> w_now w * 1000 < u -> w_now w' * 1000 < u) /\
  (r = Some PTimeout -> exists u, lim = Some u /\ u <= w_now w' * 1000) /\
  (r = Some PIntr -> (length (w_during w') < length es)%nat).
Proof.
  intros lim. induction es as [|e r IH]; intros w res w' E; cbn [sleep] in E.
  - injection E as <- <-. repeat split; auto; try discriminate; cbn; lia.
  - destruct (happen_future e w) as (B1 & B2). pose proof (happen_grows e w) as G. pose proof (happen_reaped e w) as R.
    assert (STOP : forall p, (p = PTimeout -> exists u, lim = Some u /\ u <= w_now (happen e w) * 1000) ->
      (Some p, set_during r (happen e w)) = (res, w') -> grows w w' /\ w_reaped w' = w_reaped w /\ w_between w' = w_between w /\
      (length (w_during w') <= length (e :: r))%nat /\
      (res = None -> w_kids w' = w_kids w /\ forall u, lim = Some u -> w_now w * 1000 < u -> w_now w' * 1000 < u) /\
      (res = Some PTimeout -> exists u, lim = Some u /\ u <= w_now w' * 1000) /\
      (res = Some PIntr -> (length (w_during w') < length (e :: r))%nat)).
    { intros p T X. injection X as <- <-. split; [exact G|]. split; [exact R|]. split; [exact B1|].
      split; [cbn; lia|]. split; [discriminate|]. split; [|intros _; cbn; lia]. intros Y. injection Y as ->. apply T. reflexivity. }
    assert (GO : w_kids (happen e w) = w_kids w -> (forall u, lim = Some u -> w_now w * 1000 < u -> w_now (happen e w) * 1000 < u) ->
      sleep lim r (happen e w) = (res, w') -> grows w w' /\ w_reaped w' = w_reaped w /\ w_between w' = w_between w /\
      (length (w_during w') <= length (e :: r))%nat /\
      (res = None -> w_kids w' = w_kids w /\ forall u, lim = Some u -> w_now w * 1000 < u -> w_now w' * 1000 < u) /\
      (res = Some PTimeout -> exists u, lim = Some u /\ u <= w_now w' * 1000) /\
      (res = Some PIntr -> (length (w_during w') < length (e :: r))%nat)).
    { intros K T X. destruct (IH _ _ _ X) as (I1 & I2 & I3 & I4 & I5 & I6 & I7).
      split; [eapply grows_trans; [exact G|exact I1]|]. split; [congruence|]. split; [congruence|]. split; [cbn; lia|].
      split. { intros Y. destruct (I5 Y) as (J1 & J2). split; [congruence|]. intros u U L. apply J2; auto. }
      split; [exact I6|]. intros Y. specialize (I7 Y). cbn. lia. }
    destruct e as [i how| | | |t].
    + destruct (w_kids w i) eqn:K; [apply (STOP PIntr); [discriminate|exact E]| |]; (apply GO; [cbn; rewrite K; reflexivity| |exact E]);
        cbn; rewrite K; auto.
    + apply (STOP PIntr); [discriminate|exact E].
    + apply (STOP PIntr); [discriminate|exact E].
    + apply (STOP PReady); [discriminate|exact E].
    + destruct lim as [u|].
      * destruct (Z.leb_spec u (w_now (happen (Clock t) w) * 1000)) as [L|L].
        -- apply (STOP PTimeout); [eauto|exact E].
        -- apply GO; [reflexivity| |exact E]. intros u' X _. injection X as <-. exact L.
      * apply GO; [reflexivity|discriminate|exact E].
Qed.

Lemma poll_ok : forall timeout w r w', poll timeout w = (r, w') ->
  grows w w' /\ w_reaped w' = w_reaped w /\ (length (w_during w') <= length (w_during w))%nat /\
  (quiet w -> quiet w' /\ (r = None -> w_kids w' = w_kids w)) /\
  (r = None -> timeout <> 0 /\ (0 < timeout -> w_now w' * 1000 < w_now (tick w) * 1000 + timeout * M32)) /\
  (r = Some PTimeout -> 0 <= timeout /\ w_now w * 1000 + timeout * M32 <= w_now w' * 1000) /\
  (r = Some PIntr -> timeout <> 0 /\ (length (w_during w') < length (w_during w))%nat).
Proof.
  intros timeout w r w' E. unfold poll in E. destruct (tick_ok w) as (G & R & D). pose proof (tick_quiet w) as Q.
  assert (N := proj1 (proj2 G)). set (t := tick w) in *. clearbody t.
  destruct (w_input t) eqn:IN.
  { injection E as <- <-. rewrite D. split; [exact G|]. split; [exact R|]. split; [lia|]. split; [intros X; split; [apply Q; exact X|discriminate]|]. repeat split; discriminate. }
  destruct (Z.eqb_spec timeout 0) as [T|T].
  { injection E as <- <-. rewrite D. split; [exact G|]. split; [exact R|]. split; [lia|]. split; [intros X; split; [apply Q; exact X|discriminate]|].
    split; [discriminate|]. split; [intros _; lia|discriminate]. }
  destruct (sleep_ok _ _ _ _ _ E) as (S1 & S2 & S3 & S4 & S5 & S6 & S7). rewrite D in *.
  split; [eapply grows_trans; [exact G|exact S1]|]. split; [congruence|]. split; [lia|].
  split. { intros X. destruct (Q X) as (Q1 & Q2). split; [unfold quiet; rewrite S3; exact Q2|]. intros Y. destruct (S5 Y) as (Y1 & _). congruence. }
  split. { intros Y. split; [exact T|]. intros P. destruct (S5 Y) as (_ & Y2). apply Y2; [destruct (Z.ltb_spec timeout 0); [lia|reflexivity]|]. lia. }
  split. { intros Y. destruct (S6 Y) as (u & U1 & U2). destruct (Z.ltb_spec timeout 0) as [L|L]; [discriminate|]. injection U1 as <-. lia. }
  intros Y. split; [exact T|]. apply S7. exact Y.
Qed.

(** ** the loop *)
Definition calm (both : bool) (kids : nat -> kid) (l : list nat) : Prop :=
  if both then (exists i, In i l /\ kids i = Alive) \/ (forall i, In i l -> outcome (kids i) <= 0)
  else (exists i, In i l /\ kids i = Alive) /\ (forall i, In i l -> outcome (kids i) <= 0).

Lemma runs_exists : forall w l, 0 < runs w l <-> exists i, In i l /\ w_kids w i = Alive.
Proof.
  intros w l. unfold runs. split.
  - intros H. destruct (filter _ l) as [|i r] eqn:F; [cbn in H; lia|]. exists i.
    assert (X : In i (i :: r)) by (left; reflexivity). rewrite <- F in X. apply filter_In in X. destruct X as (X & Y). split; [exact X|].
    destruct (w_kids w i); congruence.
  - intros (i & I & K). assert (X : In i (filter (fun j => match w_kids w j with Alive => true | _ => false end) l)).
    { apply filter_In. split; [exact I|]. rewrite K. reflexivity. }
    destruct (filter _ l); [destruct X|cbn; lia].
Qed.

Definition all_over (w : world) (l : list nat) : Prop := forall i, In i l -> w_kids w i <> Alive.
Definition one_failed (w : world) (l : list nat) : Prop := exists i, In i l /\ 0 < outcome (w_kids w i).

Lemma runs_none : forall w l, runs w l <= 0 -> all_over w l.
Proof. intros w l R i I K. assert (0 < runs w l) by (apply runs_exists; eauto). lia. Qed.

(** what sessions_active says, in these words *)
Lemma sessions_active_ok : forall tests w n a tests' w', sessions_active tests w = (n, a, tests', w') -> coherent tests w ->
  coherent tests' w' /\ children tests' = children tests /\ grows w w' /\ w_during w' = w_during w /\
  0 <= n /\ 0 <= a /\
  (n = 0 -> all_over w' (children tests)) /\ (a <> 0 -> one_failed w' (children tests)) /\
  (n <> 0 -> exists i, In i (children tests) /\ w_kids w i = Alive) /\
  (a = 0 -> forall i, In i (children tests) -> outcome (w_kids w i) <= 0) /\
  (quiet w -> w_kids w' = w_kids w /\ quiet w').
Proof.
  intros tests w n a tests' w' E C. unfold sessions_active in E.
  destruct (active_ok _ _ _ _ _ _ _ _ E C ltac:(lia)) as (H1 & H2 & H3 & H4 & H5 & H6 & H7 & H8 & H9 & H10 & _).
  assert (0 <= runs w' (children tests)) by (unfold runs; lia).
  split; [exact H1|]. split; [exact H2|]. split; [exact H3|]. split; [exact H5|]. split; [lia|]. split; [lia|].
  split. { intros N. apply runs_none. lia. }
  split. { intros N. destruct H9 as [H9|(i & I & H9)]; [congruence|]. exists i. split; [exact I|lia]. }
  split. { intros N. apply runs_exists. lia. }
  split. { intros N i I. specialize (H8 i I). lia. }
  exact H10.
Qed.

Lemma again_ok : forall fuel c wake intr timeout a0 tests w res a tests' w',
  again fuel c wake intr timeout a0 tests w = (res, a, tests', w') -> coherent tests w -> (length (w_during w) < fuel)%nat ->
  coherent tests' w' /\ children tests' = children tests /\ grows w w' /\ res <> OutOfFuel /\
  (res = Stops -> c_twoway c && c_server c = false /\ (all_over w' (children tests) \/ one_failed w' (children tests))) /\
  (forall rc err, res = Returns rc err -> err = ErrOK /\
     (rc = 0 /\ c_twoway c && c_server c = true /\ all_over w' (children tests) /\ one_failed w' (children tests) /\ timeout <> 0 \/
      rc = 1 /\ 0 <= timeout /\ w_now w * 1000 + timeout * M32 <= w_now w' * 1000 \/
      rc = 2 /\ timeout <> 0 /\ (wake <> None \/ intr && w_flag w' = true))) /\
  (res = Sleeps -> timeout <> 0 /\
     (wake <> None -> 0 < timeout -> w_now w' * 1000 < w_now (tick w) * 1000 + timeout * M32) /\
     (quiet w -> calm (c_twoway c && c_server c) (w_kids w) (children tests) -> calm (c_twoway c && c_server c) (w_kids w') (children tests))).
Proof.
  induction fuel as [|fuel IH]; intros c wake intr timeout a0 tests w res a tests' w' E C L; [lia|].
  cbn [again] in E. destruct (poll timeout w) as [p w1] eqn:P.
  destruct (poll_ok _ _ _ _ P) as (P1 & P2 & P3 & P4 & P5 & P6 & P7).
  assert (C1 : coherent tests w1).
  { destruct C as (N & F). split; [exact N|]. apply (all_known_grows w); auto. intros i I. rewrite P2. reflexivity. }
  destruct p as [[| |]|].
  - injection E as <- <- <- <-. repeat (split; [assumption || reflexivity || discriminate|]). discriminate.
  - injection E as <- <- <- <-. split; [exact C1|]. split; [reflexivity|]. split; [exact P1|]. split; [discriminate|]. split; [discriminate|].
    split; [|discriminate]. intros rc err X. injection X as <- <-. split; [reflexivity|]. right. left. split; [reflexivity|]. apply P6. reflexivity.
  - destruct (P7 eq_refl) as (T & L1).
    destruct ((match wake with Some _ => true | None => false end) || (intr && w_flag w1)) eqn:I.
    + injection E as <- <- <- <-. split; [exact C1|]. split; [reflexivity|]. split; [exact P1|]. split; [discriminate|]. split; [discriminate|].
      split; [|discriminate]. intros rc err X. injection X as <- <-. split; [reflexivity|]. right. right. split; [reflexivity|]. split; [exact T|].
      destruct wake; [left; discriminate|right; exact I].
    + assert (W0 : wake = None) by (destruct wake; [discriminate|reflexivity]).
      destruct (sessions_active tests w1) as [[[n a1] t1] w2] eqn:A.
      destruct (sessions_active_ok _ _ _ _ _ _ A C1) as (A1 & A2 & A3 & A4 & A5 & A6 & A7 & A8 & A9 & A10 & A11).
      assert (G2 : grows w w2) by (eapply grows_trans; eassumption).
      (* going on *)
      assert (GO : forall t2 w3 a2 u, coherent t2 w3 -> children t2 = children tests -> grows w1 w3 -> w_during w3 = w_during w1 ->
        (quiet w1 -> quiet w3 /\ calm (c_twoway c && c_server c) (w_kids w3) (children tests)) -> u = again fuel c wake intr timeout a2 t2 w3 ->
        u = (res, a, tests', w') ->
        coherent tests' w' /\ children tests' = children tests /\ grows w w' /\ res <> OutOfFuel /\
        (res = Stops -> c_twoway c && c_server c = false /\ (all_over w' (children tests) \/ one_failed w' (children tests))) /\
        (forall rc err, res = Returns rc err -> err = ErrOK /\
           (rc = 0 /\ c_twoway c && c_server c = true /\ all_over w' (children tests) /\ one_failed w' (children tests) /\ timeout <> 0 \/
            rc = 1 /\ 0 <= timeout /\ w_now w * 1000 + timeout * M32 <= w_now w' * 1000 \/
            rc = 2 /\ timeout <> 0 /\ (wake <> None \/ intr && w_flag w' = true))) /\
        (res = Sleeps -> timeout <> 0 /\
           (wake <> None -> 0 < timeout -> w_now w' * 1000 < w_now (tick w) * 1000 + timeout * M32) /\
           (quiet w -> calm (c_twoway c && c_server c) (w_kids w) (children tests) -> calm (c_twoway c && c_server c) (w_kids w') (children tests)))).
      { intros t2 w3 a2 u X1 X2 X3 X4 X5 -> X6.
        destruct (IH _ _ _ _ _ _ _ _ _ _ _ X6 X1) as (J1 & J2 & J3 & J4 & J5 & J6 & J7); [rewrite X4; lia|]. rewrite X2 in *.
        assert (N := proj1 (proj2 P1)). assert (N' := proj1 (proj2 X3)).
        split; [exact J1|]. split; [exact J2|]. split; [eapply grows_trans; [exact P1|]; eapply grows_trans; eassumption|].
        split; [exact J4|]. split; [exact J5|].
        split. { intros rc err Y. destruct (J6 rc err Y) as (Y1 & Y2). split; [exact Y1|].
          destruct Y2 as [Y2|[(Y2 & Y3 & Y4)|Y2]]; [left; exact Y2|right; left; split; [exact Y2|]; split; [exact Y3|lia]|right; right; exact Y2]. }
        intros Y. split; [exact T|]. split; [intros Z0; congruence|]. intros Q1 Q2. destruct (P4 Q1) as (Q3 & _). destruct (X5 Q3) as (Q4 & Q5).
        apply (J7 Y); assumption. }
      destruct (negb (n =? 0) && (a1 =? 0)) eqn:B.
      * eapply (GO t1 w2 a1); [exact A1|exact A2|exact A3|exact A4| |reflexivity|exact E].
        intros Q. destruct (A11 Q) as (K & Q2). split; [exact Q2|]. rewrite K. unfold calm.
        assert (X1 := A9 ltac:(lia)). assert (X2 := A10 ltac:(lia)). destruct (c_twoway c && c_server c); auto.
      * destruct (c_twoway c && c_server c) eqn:TS.
        -- destruct (sessions_active t1 w2) as [[[n2 a2] t2] w3] eqn:A'.
           destruct (sessions_active_ok _ _ _ _ _ _ A' A1) as (B1 & B2 & B3 & B4 & B5 & B6 & B7 & B8 & B9 & B10 & B11). rewrite A2 in *.
           destruct ((n2 =? 0) && negb (a2 =? 0)) eqn:B'.
           ++ injection E as <- <- <- <-. split; [exact B1|]. split; [exact B2|]. split; [eapply grows_trans; eassumption|].
              split; [discriminate|]. split; [discriminate|]. split; [|discriminate]. intros rc err X. injection X as <- <-.
              split; [reflexivity|]. left. split; [reflexivity|]. split; [reflexivity|]. split; [apply B7; lia|]. split; [apply B8; lia|exact T].
           ++ eapply (GO t2 w3 a2); [exact B1|exact B2|eapply grows_trans; eassumption|congruence| |reflexivity|exact E].
              intros Q. destruct (A11 Q) as (K & Q2). destruct (B11 Q2) as (K' & Q3). split; [exact Q3|]. rewrite K'. unfold calm.
              destruct (Z.eqb_spec n2 0) as [N|N]; [right|left; apply B9; exact N]. apply B10. lia.
        -- injection E as <- <- <- <-. split; [exact A1|]. split; [exact A2|]. split; [exact G2|]. split; [discriminate|].
           split; [|split; [discriminate|discriminate]]. intros _. split; [reflexivity|].
           destruct (Z.eqb_spec n 0) as [N|N]; [left; apply A7; exact N|right; apply A8; lia].
  - injection E as <- <- <- <-. split; [exact C1|]. split; [reflexivity|]. split; [exact P1|]. split; [discriminate|]. split; [discriminate|].
    split; [discriminate|]. intros _. destruct (P5 eq_refl) as (T & T2). split; [exact T|]. split; [intros _; exact T2|].
    intros Q CA. destruct (P4 Q) as (_ & K). rewrite (K eq_refl). exact CA.
Qed.

(** ** the clock *)
Definition still (w : world) : Prop := Forall (Forall (fun e => match e with Clock _ => False | _ => True end)) (w_between w).

Lemma fold_now : forall es w, Forall (fun e => match e with Clock _ => False | _ => True end) es ->
  w_now (fold_left (fun w e => happen e w) es w) = w_now w.
Proof.
  induction es as [|e es IH]; intros w F; [reflexivity|]. inversion F as [|x y F1 F2]; subst. cbn [fold_left].
  rewrite IH by exact F2. destruct e; cbn; try reflexivity; [|destruct F1]. destruct (w_kids w i); reflexivity.
Qed.

Lemma tick_still : forall w, still w -> w_now (tick w) = w_now w /\ still (tick w).
Proof.
  intros w Q. unfold tick, still in *. destruct (w_between w) as [|es r] eqn:B; [rewrite B; split; auto|].
  inversion Q as [|x y Q1 Q2]; subst. split; [rewrite fold_now by exact Q1; reflexivity|].
  destruct (fold_happen es (set_between r w)) as (_ & _ & C & _). rewrite C. exact Q2.
Qed.

Lemma endpoint_still : forall e aval w e' a w', endpoint_status e aval w = (e', a, w') -> still w -> w_now w' = w_now w /\ still w'.
Proof.
  intros e aval w e' a w' E S. unfold endpoint_status in E. destruct (tick_still w S) as (A & B). set (t := tick w) in *. clearbody t.
  destruct (e_accept e <? 0); [|injection E as <- <- <-; split; assumption].
  destruct (w_reaped t (e_child e)); [injection E as <- <- <-; split; assumption|].
  destruct (w_kids t (e_child e)); injection E as <- <- <-; split; assumption.
Qed.

Lemma active_still : forall tests n0 r0 w n a tests' w', active_from tests n0 r0 w = (n, a, tests', w') -> still w -> w_now w' = w_now w /\ still w'.
Proof.
  induction tests as [|s r IH]; intros n0 r0 w n a tests' w' E S; cbn [active_from] in E; [injection E as <- <- <- <-; auto|].
  destruct (s_end s) as [e|].
  - destruct (endpoint_status e CNTRL_ACCEPT w) as [[e1 l] w1] eqn:ES. destruct (endpoint_still _ _ _ _ _ _ ES S) as (A & B).
    destruct (active_from r (if l <? 0 then n0 + 1 else n0) (if l <? 0 then r0 else Z.max l r0) w1) as [[[n2 a2] r2] w2] eqn:E2.
    assert (EE : (n2, a2, mkSess (s_sid s) (Some e1) :: r2, w2) = (n, a, tests', w')).
    { rewrite <- E. destruct (l <? 0); rewrite E2; reflexivity. }
    injection EE as <- <- <- <-. destruct (IH _ _ _ _ _ _ _ E2 B) as (C & D). split; [congruence|exact D].
  - destruct (active_from r n0 r0 w) as [[[n2 a2] r2] w2] eqn:E2. injection E as <- <- <- <-. eapply IH; eassumption.
Qed.

Lemma timeout_exact : forall now wake, 0 <= now -> is_u64 wake -> (wake - now) * 1000 < 2147483648 * M32 ->
  timeout_ms now wake = Z.max 0 (wake - now) * 1000 / M32.
Proof.
  intros now wake N W L. unfold is_u64 in W. unfold timeout_ms. destruct (Z.ltb_spec now wake) as [B|B].
  - assert (E : OWPNum64Sub wake now = wake - now) by (unfold OWPNum64Sub, u64; apply Z.mod_small; lia). rewrite E.
    rewrite Z.max_r by lia. assert (D : 0 < wake - now < 18446744073709551616) by lia. set (d := wake - now) in *. clearbody d. clear E.
    rewrite Num64ToTimespec_eq by (unfold is_u64; lia). cbn [fst snd]. unfold to_int, BILLION.
    assert (X : d / 4294967296 * 1000 + d mod 4294967296 * 1000000000 / 4294967296 / 1000000 = d * 1000 / 4294967296) by (Z.div_mod_to_equations; lia).
    rewrite X. assert (Y : 0 <= d * 1000 / 4294967296 < 2147483648) by (Z.div_mod_to_equations; lia). rewrite Z.mod_small by lia. lia.
  - rewrite Z.max_l by lia. reflexivity.
Qed.

(** ** the whole function *)
Lemma wait_ok : forall c wake intr tests w res a tests' w',
  stop_sessions_wait c wake intr tests w = (res, a, tests', w') -> coherent tests w ->
  coherent tests' w' /\ children tests' = children tests /\ grows w w' /\ res <> OutOfFuel /\
  (res = Stops -> c_twoway c && c_server c = false /\ (all_over w' (children tests) \/ one_failed w' (children tests))) /\
  (forall err, res = Returns 0 err -> err = ErrOK /\ c_twoway c && c_server c = true /\ all_over w' (children tests) /\ one_failed w' (children tests)) /\
  (forall err, res = Returns 1 err -> exists t, wake = Some t /\
     (0 <= w_now w -> is_u64 t -> (t - w_now w) * 1000 < 2147483648 * M32 -> t * 1000 < w_now w' * 1000 + M32)) /\
  (forall err, res = Returns 2 err -> intr && w_flag w' = true \/ (exists t, wake = Some t /\ (0 <= w_now w -> is_u64 t -> w_now w < t))) /\
  (forall rc err, res = Returns rc err -> rc = -1 \/ rc = 0 \/ rc = 1 \/ rc = 2) /\
  (forall err, res = Returns (-1) err -> c_sock c = false \/ wake <> None /\ w_gtod w = false) /\
  (res = Sleeps -> (forall t, wake = Some t -> 0 <= w_now w -> is_u64 t -> (t - w_now w) * 1000 < 2147483648 * M32 -> w_now w < t /\ (still w -> w_now w' < t)) /\
     (quiet w -> calm (c_twoway c && c_server c) (w_kids w') (children tests))).
Proof.
  intros c wake intr tests w res a tests' w' E C. unfold stop_sessions_wait in E.
  destruct (c_sock c) eqn:CS; cbn [negb] in E.
  2: { injection E as <- <- <- <-. split; [exact C|]. split; [reflexivity|]. split; [apply grows_refl|]. split; [discriminate|].
       split; [discriminate|]. do 3 (split; [intros err X; discriminate X|]).
       split; [intros rc err X; injection X as <- <-; auto|]. split; [auto|discriminate]. }
  destruct (sessions_active tests w) as [[[n a1] t1] w1] eqn:A.
  destruct (sessions_active_ok _ _ _ _ _ _ A C) as (A1 & A2 & A3 & A4 & A5 & A6 & A7 & A8 & A9 & A10 & A11).
  destruct (c_twoway c && c_server c && (n =? 0) && negb (a1 =? 0)) eqn:B.
  { injection E as <- <- <- <-. apply andb_prop in B. destruct B as (B & B2). apply andb_prop in B. destruct B as (B0 & B1).
    split; [exact A1|]. split; [exact A2|]. split; [exact A3|]. split; [discriminate|]. split; [discriminate|].
    split. { intros err X. injection X as <-. split; [reflexivity|]. split; [exact B0|]. split; [apply A7; lia|apply A8; lia]. }
    do 2 (split; [intros err X; discriminate X|]). split; [intros rc err X; injection X as <- <-; auto|]. split; [intros err X; discriminate X|discriminate]. }
  destruct (negb (c_twoway c && c_server c) && ((n =? 0) || negb (a1 =? 0))) eqn:B'.
  { injection E as <- <- <- <-. split; [exact A1|]. split; [exact A2|]. split; [exact A3|]. split; [discriminate|].
    split. { intros _. split; [destruct (c_twoway c && c_server c); [discriminate|reflexivity]|].
      destruct (Z.eqb_spec n 0) as [N|N]; [left; apply A7; exact N|right; apply A8; lia]. }
    do 3 (split; [intros err X; discriminate X|]). split; [intros rc err X; discriminate X|]. split; [intros err X; discriminate X|discriminate]. }
  assert (CA : quiet w -> calm (c_twoway c && c_server c) (w_kids w1) (children tests)).
  { intros Q. destruct (A11 Q) as (K & _). rewrite K. unfold calm. destruct (c_twoway c && c_server c) eqn:TS; cbn [andb negb] in *.
    - destruct (Z.eqb_spec n 0) as [N|N]; [right; apply A10; lia|left; apply A9; exact N].
    - split; [apply A9; lia|apply A10; lia]. }
  destruct (intr && w_flag w1) eqn:F.
  { injection E as <- <- <- <-. split; [exact A1|]. split; [exact A2|]. split; [exact A3|]. split; [discriminate|]. split; [discriminate|].
    do 2 (split; [intros err X; discriminate X|]). split; [intros err X; left; exact F|].
    split; [intros rc err X; injection X as <- <-; auto|]. split; [intros err X; discriminate X|discriminate]. }
  destruct wake as [t|].
  - destruct (tick_ok w1) as (T1 & T2 & T3).
    assert (C2 : coherent t1 (tick w1)).
    { destruct A1 as (N & K). split; [exact N|]. apply (all_known_grows w1); auto. intros i I. rewrite T2. reflexivity. }
    assert (Q2 : quiet w -> quiet (tick w1) /\ w_kids (tick w1) = w_kids w1).
    { intros Q. destruct (A11 Q) as (_ & Q1). destruct (tick_quiet w1 Q1). auto. }
    assert (S2 : still w -> still (tick w1) /\ w_now (tick w1) = w_now w).
    { intros S. unfold sessions_active in A. destruct (active_still _ _ _ _ _ _ _ _ A S) as (X & Y). destruct (tick_still w1 Y) as (X' & Y'). split; [exact Y'|congruence]. }
    assert (G2 : grows w (tick w1)) by (eapply grows_trans; eassumption). set (w2 := tick w1) in *. clearbody w2.
    assert (NN := proj1 (proj2 G2)). assert (GT := proj2 (proj2 (proj2 G2))).
    destruct (w_gtod w2) eqn:GD; cbn [negb] in E.
    2: { injection E as <- <- <- <-. split; [exact C2|]. split; [exact A2|]. split; [exact G2|]. split; [discriminate|]. split; [discriminate|].
         do 3 (split; [intros err X; discriminate X|]). split; [intros rc err X; injection X as <- <-; auto|].
         split; [intros err X; right; split; [discriminate|congruence]|discriminate]. }
    destruct (again_ok _ _ _ _ _ _ _ _ _ _ _ _ E C2) as (J1 & J2 & J3 & J4 & J5 & J6 & J7); [lia|]. rewrite A2 in *.
    split; [exact J1|]. split; [exact J2|]. split; [eapply grows_trans; eassumption|]. split; [exact J4|]. split; [exact J5|].
    split. { intros err X. destruct (J6 _ _ X) as (Y1 & [(_ & Y2 & Y3 & Y4 & _)|[(Y2 & _)|(Y2 & _)]]); [|lia|lia]. auto. }
    split. { intros err X. exists t. split; [reflexivity|]. intros N0 U L.
      destruct (J6 _ _ X) as (Y1 & [(Y2 & _)|[(_ & Y2 & Y3)|(Y2 & _)]]); [lia| |lia].
      rewrite timeout_exact in Y3 by (auto; lia). Z.div_mod_to_equations; lia. }
    split. { intros err X. right. exists t. split; [reflexivity|]. intros N0 U.
      destruct (J6 _ _ X) as (Y1 & [(Y2 & _)|[(Y2 & _)|(_ & Y2 & _)]]); [lia|lia|].
      destruct (Z.ltb_spec (w_now w) t) as [L|L]; [exact L|]. exfalso. apply Y2. rewrite timeout_exact by (auto; lia). rewrite Z.max_l by lia. reflexivity. }
    split. { intros rc err X. destruct (J6 _ _ X) as (Y1 & [(Y2 & _)|[(Y2 & _)|(Y2 & _)]]); auto. }
    split. { intros err X. destruct (J6 _ _ X) as (Y1 & [(Y2 & _)|[(Y2 & _)|(Y2 & _)]]); lia. }
    intros X. destruct (J7 X) as (Y1 & Y2 & Y3). split.
    + intros t' T N0 U L. injection T as <-. rewrite timeout_exact in Y1, Y2 by (auto; lia).
      assert (LT : w_now w < t).
      { destruct (Z.ltb_spec (w_now w) t) as [Z0|Z0]; [exact Z0|]. exfalso. apply Y1. rewrite Z.max_l by lia. reflexivity. }
      split; [exact LT|]. intros S. destruct (S2 S) as (S3 & S4). destruct (tick_still w2 S3) as (S5 & _). rewrite S5, S4 in Y2. rewrite S4 in Y1.
      assert (P : 0 < Z.max 0 (t - w_now w) * 1000 / 4294967296).
      { assert (0 <= Z.max 0 (t - w_now w) * 1000 / 4294967296) by (apply Z.div_pos; lia). lia. }
      specialize (Y2 ltac:(discriminate) P). Z.div_mod_to_equations; lia.
    + intros Q. destruct (Q2 Q) as (Q3 & Q4). apply Y3; [exact Q3|]. rewrite Q4. apply CA. exact Q.
  - destruct (again_ok _ _ _ _ _ _ _ _ _ _ _ _ E A1) as (J1 & J2 & J3 & J4 & J5 & J6 & J7); [lia|]. rewrite A2 in *.
    split; [exact J1|]. split; [exact J2|]. split; [eapply grows_trans; eassumption|]. split; [exact J4|]. split; [exact J5|].
    split. { intros err X. destruct (J6 _ _ X) as (Y1 & [(_ & Y2 & Y3 & Y4 & _)|[(Y2 & _)|(Y2 & _)]]); [|lia|lia]. auto. }
    split. { intros err X. destruct (J6 _ _ X) as (Y1 & [(Y2 & _)|[(_ & Y2 & Y3)|(Y2 & _)]]); lia. }
    split. { intros err X. destruct (J6 _ _ X) as (Y1 & [(Y2 & _)|[(Y2 & _)|(_ & Y2 & [Y3|Y3])]]); [lia|lia|congruence|left; exact Y3]. }
    split. { intros rc err X. destruct (J6 _ _ X) as (Y1 & [(Y2 & _)|[(Y2 & _)|(Y2 & _)]]); auto. }
    split. { intros err X. destruct (J6 _ _ X) as (Y1 & [(Y2 & _)|[(Y2 & _)|(Y2 & _)]]); lia. }
    intros X. destruct (J7 X) as (Y1 & Y2 & Y3). split; [discriminate|]. intros Q. apply Y3; [apply A11; exact Q|]. apply CA. exact Q.
Qed.

(** ** questions about one session *)
Lemma status_ok : forall tests sid aval w b a tests' w', session_status tests sid aval w = (b, a, tests', w') -> coherent tests w ->
  coherent tests' w' /\ children tests' = children tests /\ grows w w' /\ (forall i, ~ In i (children tests) -> w_reaped w' i = w_reaped w i) /\
  (b = true -> exists e, In (mkSess sid (Some e)) tests /\ a = (if aval =? 0 then outcome (w_kids w' (e_child e)) else aval)) /\
  (b = false -> a = aval /\ tests' = tests /\ w' = w /\ (exists r, find (fun s => s_sid s =? sid) tests = r /\ match r with Some s => s_end s = None | None => True end)).
Proof.
  induction tests as [|s r IH]; intros sid aval w b a tests' w' E (N & F); cbn [session_status] in E.
  - injection E as <- <- <- <-. repeat split; auto; try apply grows_refl; try discriminate. exists None. split; [reflexivity|exact I].
  - inversion F as [|x y F1 F2]; subst. destruct (Z.eqb_spec (s_sid s) sid) as [S|S].
    + destruct (s_end s) as [e|] eqn:SE.
      * destruct (endpoint_status e aval w) as [[e1 a1] w1] eqn:ES. injection E as <- <- <- <-.
        unfold known in F1. rewrite SE in F1.
        destruct (endpoint_status_ok _ _ _ _ _ _ ES F1) as (K1 & C1 & A1 & G1 & R1 & D1 & X1 & X2 & X3 & Q1).
        rewrite children_cons, SE in N. inversion N as [|x y N1 N2]; subst.
        split. { split; [rewrite children_cons; cbn [s_end]; rewrite C1; constructor; auto|]. constructor; [exact K1|].
          apply (all_known_grows w); auto. intros i I. apply R1. intros ->. contradiction. }
        split. { rewrite !children_cons, SE. cbn [s_end]. rewrite C1. reflexivity. }
        split; [exact G1|]. split. { rewrite children_cons, SE. intros i I. apply R1. intros ->. apply I. left. reflexivity. }
        split; [|discriminate]. intros _. exists e. split; [left; destruct s; cbn in *; subst; reflexivity|].
        destruct (aval =? 0); [|reflexivity]. destruct (Z.ltb_spec (e_accept e1) 0) as [L|L]; [|apply X3; exact L].
        rewrite X2 by exact L. destruct K1 as [(K1 & _)|(K1 & _)]; [exact K1|lia].
      * injection E as <- <- <- <-. split; [split; assumption|]. split; [reflexivity|]. split; [apply grows_refl|]. split; [auto|].
        split; [discriminate|]. intros _. repeat split. exists (Some s). cbn [find]. destruct (Z.eqb_spec (s_sid s) sid); [auto|contradiction].
    + destruct (session_status r sid aval w) as [[[b1 a1] r1] w1] eqn:E1. injection E as <- <- <- <-.
      assert (N2 : NoDup (children r)) by (rewrite children_cons in N; destruct (s_end s); [inversion N; assumption|assumption]).
      destruct (IH _ _ _ _ _ _ _ E1 (conj N2 F2)) as ((I1 & I1') & I2 & I3 & I4 & I5 & I6).
      split. { split; [rewrite children_cons in *; destruct (s_end s); rewrite I2; exact N|]. constructor; [|exact I1'].
        apply (known_grows w); auto. intros i I. apply I4. intros J. rewrite children_cons in I, N. destruct (s_end s); [|destruct I].
        destruct I as [<-|[]]. inversion N. contradiction. }
      split. { rewrite !children_cons. destruct (s_end s); congruence. }
      split; [exact I3|]. split. { intros i I. apply I4. intros J. apply I. rewrite children_cons. destruct (s_end s); [right|]; exact J. }
      split. { intros B. destruct (I5 B) as (e & J1 & J2). exists e. split; [right; exact J1|exact J2]. }
      intros B. destruct (I6 B) as (J1 & J2 & J3 & q & J4 & J5). subst. repeat split. exists (find (fun s0 => s_sid s0 =? sid) r). split; [|exact J5].
      cbn [find]. destruct (Z.eqb_spec (s_sid s) sid); [contradiction|reflexivity].
Qed.

Lemma reached_coherent : forall tests w, reached tests w -> coherent tests w.
Proof.
  intros tests w R. induction R as [tests w (N & F)|tests w e R IH|tests w b d R IH|tests w sid aval b a t w' R IH E|tests w n a t w' R IH E|tests w c wake intr rc err a t w' R IH E].
  - split; [exact N|]. eapply Forall_impl; [|exact F]. intros s. unfold known. destruct (s_end s); [intros (A & B); left; auto|auto].
  - destruct IH as (N & F). split; [exact N|]. apply (all_known_grows w); [apply happen_grows|intros i I; rewrite happen_reaped; reflexivity|exact F].
  - exact IH.
  - apply (status_ok _ _ _ _ _ _ _ _ E IH).
  - apply (sessions_active_ok _ _ _ _ _ _ E IH).
  - apply (wait_ok _ _ _ _ _ _ _ _ _ E IH).
Qed.
