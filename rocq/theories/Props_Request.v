(** Property theorems about asking for sessions and starting them, on the side of the client: C140 (client and server agree), C141 (addresses and ports), C142 (consent of the
    local policy), C143 (starting), C144 (names of sessions) *)
From Coq Require Import ZArith List Bool Arith Lia.
From Verif Require Import Base BaseLemmas Control_Model Time_Model Time_Proofs Request_Model.
Import ListNotations.
Open Scope Z_scope.

(** ** Specification *)

(** failures of functions that send, read, or make processes carry a severity that is an error (capi.c 844 and 853: rc < OWPErrOK; endpoint.c 3863: OWPErrWARNING) *)
Definition loud (w : world) : Prop :=
  (forall e x, w_answer w e = Not_sent x -> x <> ErrOK) /\ (forall e x k, w_answer w e = Not_read x k -> x <> ErrOK) /\ (fst (w_hook w) = false -> snd (w_hook w) <> ErrOK).
(** the client wants the session: its policy, its schedule and its records of addresses do not fail *)
Definition willing (w : world) : Prop :=
  (forall r h t, fst (w_policy w r h t) = true) /\ (forall sid, w_schedule w sid = true) /\ w_setport w = true.

(** [a] comes out of [b] by leaving out elements *)
Inductive within {A} : list A -> list A -> Prop :=
| w_nil : within [] []
| w_both : forall x a b, within a b -> within (x :: a) (x :: b)
| w_skip : forall x a b, within a b -> within a (x :: b).

Definition names (s : st) : list (list Z) := map s_sid (client s).
Definition nothing := St [] [] [].

(** the addresses that are meant: NULL is the local address of the connection *)
Definition meant (w : world) (l : option (list addr)) : list addr := match l with Some l => l | None => [w_local w] end.

Definition fits (family : Z) (p : addr * addr) : bool := (a_family (fst p) =? family) && (a_family (snd p) =? family) && (a_type (fst p) =? a_type (snd p)).
(** the pairs of a receiver and a sender that may be used, best first *)
Definition candidates (only4 only6 : bool) (rs ss : list addr) : list (addr * addr) :=
  (if only4 then [] else filter (fits AF_INET6) (list_prod rs ss)) ++ (if only6 then [] else filter (fits AF_INET) (list_prod rs ss)).

(** ** Lemmas *)

Lemma ask_spec : forall w cs cr sp rp mine s r s', ask w ErrOK cs cr sp rp mine s = (r, s') ->
  client s' = client s /\ exists new, done s' = new ++ done s /\ (new = [] \/ exists x, new = [Sent cs cr sp (if w_twoway w && (rp =? 0) then sp else rp) x]) /\
  match r with
  | inr (sp', rp', sid) => server s' = sid :: server s /\ new <> [] /\ (w_twoway w || cr = false -> sid = mine) /\
      exists port sid', w_answer w (Sent cs cr sp (if w_twoway w && (rp =? 0) then sp else rp) (if w_twoway w || cr then None else Some mine)) = Answer 0 port sid' /\
      (sp' = if cs && negb cr then port else sp) /\
      (rp' = if negb (cs && negb cr) && (w_twoway w || (negb cs && cr)) then port else if w_twoway w && (rp =? 0) then sp else rp)
  | inl e => loud w -> willing w -> e = ErrOK -> server s' = server s
  end.
Proof.
  intros w cs cr sp rp mine s r s' E. unfold ask in E. cbv zeta in E. set (rp1 := if w_twoway w && (rp =? 0) then sp else rp) in *.
  destruct (w_answer w _) as [x|x k|v port sid] eqn:A.
  - injection E as <- <-. split; [reflexivity|]. exists []. split; [reflexivity|]. split; [auto|]. intros (L & _) _ ->. exfalso. exact (L _ _ A eq_refl).
  - injection E as <- <-. split; [destruct k; reflexivity|].
    exists [Sent cs cr sp rp1 (if w_twoway w || cr then None else Some mine)]. split; [destruct k; reflexivity|]. split; [right; eexists; reflexivity|].
    intros (_ & L & _) _ ->. exfalso. exact (L _ _ _ A eq_refl).
  - set (ev := Sent cs cr sp rp1 (if w_twoway w || cr then None else Some mine)) in *.
    destruct (((cs && negb cr) || (negb (cs && negb cr) && (w_twoway w || negb cs && cr))) && negb (w_setport w)) eqn:SP.
    { injection E as <- <-. split; [destruct (v =? 0); reflexivity|]. exists [ev]. split; [destruct (v =? 0); reflexivity|]. split; [right; eexists; reflexivity|].
      intros _ (_ & _ & P) _. rewrite P in SP. cbn [negb] in SP. rewrite andb_false_r in SP. discriminate. }
    destruct (v =? 0) eqn:V.
    + injection E as <- <-. split; [reflexivity|]. exists [ev]. split; [reflexivity|]. split; [right; eexists; reflexivity|]. split; [reflexivity|]. split; [discriminate|].
      split; [intros ->; reflexivity|]. apply Z.eqb_eq in V. subst v. exists port, sid. split; [reflexivity|]. split; reflexivity.
    + injection E as <- <-. split; [reflexivity|]. exists [ev]. split; [reflexivity|]. split; [right; eexists; reflexivity|]. intros; reflexivity.
Qed.

(** ** C140: client and server agree about the sessions *)

(** with True, both have one more session, and it is the one whose name is returned *)
Theorem C140_accepted : forall w snd_ cs rcv cr s sid e s', request w snd_ cs rcv cr s = (Some sid, e, s') ->
  e = ErrOK /\ server s' = sid :: server s /\ exists x, client s' = x :: client s /\ s_sid x = sid.
Proof.
  intros w sn cs rc cr s sid e s' E. unfold request in E.
  destruct (w_state w); cbn [negb] in E; [|discriminate].
  destruct (match rc with Some _ => _ | None => _ end) as [rs|]; [|discriminate].
  destruct (match sn with Some _ => _ | None => _ end) as [ss|]; [|discriminate].
  destruct (w_records w); cbn [negb] in E; [|discriminate].
  destruct (choose _ _ rs ss) as [(ra, sa)|]; [|discriminate].
  destruct (w_alloc w); cbn [negb] in E; [|discriminate].
  destruct (w_twoway w || cr) eqn:TC.
  - destruct cs.
    + cbn [negb] in E. destruct (ask _ _ _ _ _ _ _ _) as ([e1|((p1, p2), sid1)], s1) eqn:A; [discriminate|]. apply ask_spec in A. destruct A as (A1 & new & A2 & A3 & A4 & _).
      destruct (w_schedule w sid1); cbn [negb] in E; [|discriminate]. injection E as <- <- <-. cbn [client server]. rewrite A1, A4. repeat split; auto. eexists; split; reflexivity.
    + destruct (w_init w Sender) as ((ok, ie), ip). destruct ok; cbn [negb] in E; [|discriminate].
      destruct (ask _ _ _ _ _ _ _ _) as ([e1|((p1, p2), sid1)], s1) eqn:A; [discriminate|]. apply ask_spec in A. destruct A as (A1 & new & A2 & A3 & A4 & _).
      destruct (w_schedule w sid1); cbn [negb] in E; [|discriminate]. destruct (w_policy w Sender sa ra) as (v, pe). destruct v; cbn [negb] in E; [|discriminate].
      destruct (w_hook w) as (h, he). destruct h; cbn [negb] in E; [|discriminate]. injection E as <- <- <-. cbn [client server say] in *. rewrite A1, A4.
      repeat split; auto. eexists; split; reflexivity.
  - destruct (w_sid w) as [mine|]; [|discriminate]. destruct (w_schedule w mine); cbn [negb] in E; [|discriminate].
    destruct (w_policy w Receiver ra sa) as (v, pe). destruct v; cbn [negb] in E; [|discriminate].
    destruct (w_init w Receiver) as ((ok, ie), ip). destruct ok; cbn [negb] in E; [|discriminate].
    destruct cs; cbn [negb] in E; [|discriminate].
    destruct (ask _ _ _ _ _ _ _ _) as ([e1|((p1, p2), sid1)], s1) eqn:A; [discriminate|]. apply ask_spec in A. destruct A as (A1 & new & A2 & A3 & A4 & _).
    destruct (w_hook w) as (h, he). destruct h; cbn [negb] in E; [|discriminate]. injection E as <- <- <-. cbn [client server say] in *. rewrite A1, A4.
    repeat split; auto. eexists; split; reflexivity.
Qed.

(** with False the client has no new session *)
Theorem C140_refused : forall w snd_ cs rcv cr s e s', request w snd_ cs rcv cr s = (None, e, s') -> client s' = client s.
Proof.
  intros w sn cs rc cr s e s' E. unfold request in E.
  destruct (w_state w); cbn [negb] in E; [|congruence].
  destruct (match rc with Some _ => _ | None => _ end) as [rs|]; [|congruence].
  destruct (match sn with Some _ => _ | None => _ end) as [ss|]; [|congruence].
  destruct (w_records w); cbn [negb] in E; [|congruence].
  destruct (choose _ _ rs ss) as [(ra, sa)|]; [|congruence].
  destruct (w_alloc w); cbn [negb] in E; [|congruence].
  destruct (w_twoway w || cr) eqn:TC.
  - destruct cs.
    + cbn [negb] in E. destruct (ask _ _ _ _ _ _ _ _) as ([e1|((p1, p2), sid1)], s1) eqn:A; apply ask_spec in A; destruct A as (A1 & _); [congruence|].
      destruct (w_schedule w sid1); cbn [negb] in E; congruence.
    + destruct (w_init w Sender) as ((ok, ie), ip). destruct ok; cbn [negb] in E; [|congruence].
      destruct (ask _ _ _ _ _ _ _ _) as ([e1|((p1, p2), sid1)], s1) eqn:A; apply ask_spec in A; destruct A as (A1 & _); cbn [client say] in A1; [congruence|].
      destruct (w_schedule w sid1); cbn [negb] in E; [|congruence]. destruct (w_policy w Sender sa ra) as (v, pe).
      destruct v; cbn [negb] in E; [|injection E as <- <-; cbn [client say]; congruence].
      destruct (w_hook w) as (h, he). destruct h; cbn [negb] in E; [congruence|]. injection E as <- <-; cbn [client say]; congruence.
  - destruct (w_sid w) as [mine|]; [|congruence]. destruct (w_schedule w mine); cbn [negb] in E; [|congruence].
    destruct (w_policy w Receiver ra sa) as (v, pe). destruct v; cbn [negb] in E; [|injection E as <- <-; reflexivity].
    destruct (w_init w Receiver) as ((ok, ie), ip). destruct ok; cbn [negb] in E; [|injection E as <- <-; reflexivity].
    destruct cs; cbn [negb] in E; [|injection E as <- <-; reflexivity].
    destruct (ask _ _ _ _ _ _ _ _) as ([e1|((p1, p2), sid1)], s1) eqn:A; apply ask_spec in A; destruct A as (A1 & _); cbn [client say] in A1; [congruence|].
    destruct (w_hook w) as (h, he). destruct h; cbn [negb] in E; [congruence|]. injection E as <- <-. exact A1.
Qed.

(** Missing: False without an error should mean that the server has no new session either; this is proved if the policy of the client allows the session, its schedule can be computed, and
    the port of the answer can be stored.  Without these: [C140_orphan_refuted]. *)
Theorem C140_agree_partial : forall w snd_ cs rcv cr s s', loud w -> willing w -> request w snd_ cs rcv cr s = (None, ErrOK, s') -> server s' = server s.
Proof.
  intros w sn cs rc cr s s' LW WW E. pose proof WW as (WP & WS & _). pose proof LW as (_ & _ & LH). unfold request in E.
  destruct (w_state w); cbn [negb] in E; [|congruence].
  destruct (match rc with Some _ => _ | None => _ end) as [rs|]; [|congruence].
  destruct (match sn with Some _ => _ | None => _ end) as [ss|]; [|congruence].
  destruct (w_records w); cbn [negb] in E; [|congruence].
  destruct (choose _ _ rs ss) as [(ra, sa)|]; [|congruence].
  destruct (w_alloc w); cbn [negb] in E; [|congruence].
  destruct (w_twoway w || cr) eqn:TC.
  - destruct cs.
    + cbn [negb] in E. destruct (ask _ _ _ _ _ _ _ _) as ([e1|((p1, p2), sid1)], s1) eqn:A; apply ask_spec in A; destruct A as (_ & new & _ & _ & A4).
      * assert (e1 = ErrOK) by congruence. assert (s1 = s') by congruence. subst s1. exact (A4 LW WW H).
      * rewrite WS in E. discriminate.
    + destruct (w_init w Sender) as ((ok, ie), ip). destruct ok; cbn [negb] in E; [|congruence].
      destruct (ask _ _ _ _ _ _ _ _) as ([e1|((p1, p2), sid1)], s1) eqn:A; apply ask_spec in A; destruct A as (_ & new & _ & _ & A4); cbn [server say] in A4.
      * assert (e1 = ErrOK) by congruence. assert (s1 = s') by congruence. subst s1. exact (A4 LW WW H).
      * rewrite WS in E. specialize (WP Sender sa ra). destruct (w_policy w Sender sa ra) as (v, pe). cbn [fst] in WP. subst v. cbn [negb] in E.
        destruct (w_hook w) as (h, he). cbn [fst snd] in LH. destruct h; cbn [negb] in E; [discriminate|]. exfalso. apply LH; congruence.
  - destruct (w_sid w) as [mine|]; [|congruence]. rewrite WS in E. cbn [negb] in E.
    specialize (WP Receiver ra sa). destruct (w_policy w Receiver ra sa) as (v, pe). cbn [fst] in WP. subst v. cbn [negb] in E.
    destruct (w_init w Receiver) as ((ok, ie), ip). destruct ok; cbn [negb] in E; [|injection E as _ <-; reflexivity].
    destruct cs; cbn [negb] in E; [|injection E as <-; reflexivity].
    destruct (ask _ _ _ _ _ _ _ _) as ([e1|((p1, p2), sid1)], s1) eqn:A; apply ask_spec in A; destruct A as (_ & new & _ & _ & A4); cbn [server say] in A4.
    + assert (e1 = ErrOK) by congruence. assert (s1 = s') by congruence. subst s1. exact (A4 LW WW H).
    + destruct (w_hook w) as (h, he). cbn [fst snd] in LH. destruct h; cbn [negb] in E; [discriminate|]. exfalso. apply LH; congruence.
Qed.

(** a server that accepts all: the port 9000, a name of 16 octets *)
Definition v4 (n : Z) : addr := Addr AF_INET 2 [10; 0; 0; n].
Definition v6 (n : Z) : addr := Addr AF_INET6 2 [32; 1; 13; 184; 0; 0; 0; 0; 0; 0; 0; 0; 0; 0; 0; n].
Definition name1 : list Z := [10; 0; 0; 2; 1; 2; 3; 4; 5; 6; 7; 8; 9; 9; 9; 9].
Definition plain (pol : role -> addr -> addr -> bool * Z) (ans : Z) : world :=
  World false true (v4 1) false false true true (fun _ => (true, ErrOK, 8000)) true (fun _ => Answer ans 9000 name1) (Some [1; 2]) (fun _ => true) pol (true, ErrOK).

(** the local policy refuses a sender after the server has accepted: False without an error, the session stays at the server; a later start starts it there *)
Theorem C140_orphan_refuted : exists w snd_ rcv s s', loud w /\
  request w snd_ false rcv true s = (None, ErrOK, s') /\ server s = [] /\ server s' = [name1] /\ client s' = [].
Proof.
  exists (plain (fun _ _ _ => (false, ErrOK)) 0), None, (Some [v4 2]), nothing. eexists. split; [|vm_compute; repeat split].
  split; [intros; discriminate|]. split; [intros; discriminate|]. cbn. discriminate.
Qed.

Lemma within_names : forall l s, within (names s) (server s) -> within (names (do_calls l s)) (server (do_calls l s)).
Proof.
  induction l as [|k l IH]; intros s W; [exact W|]. cbn [do_calls]. apply IH. unfold do_call.
  destruct (request (k_world k) (k_sender k) (k_cs k) (k_receiver k) (k_cr k) s) as (([sid|], e), s') eqn:E; cbn [snd].
  - apply C140_accepted in E. destruct E as (_ & SV & x & CL & <-). unfold names. rewrite SV, CL. cbn [map]. apply w_both. exact W.
  - pose proof (C140_refused _ _ _ _ _ _ _ _ E) as CL. unfold names. rewrite CL. fold (names s).
    assert (G : server s' = server s \/ exists x, server s' = x :: server s); [|destruct G as [->|(x & ->)]; [exact W|apply w_skip; exact W]].
    clear - E. revert E. generalize (k_world k) (k_sender k) (k_cs k) (k_receiver k) (k_cr k). clear k. intros w sn cs rc cr E.
    assert (AG : forall cs cr sp rp m s r s', ask w ErrOK cs cr sp rp m s = (r, s') -> server s' = server s \/ exists x, server s' = x :: server s).
    { clear. intros cs cr sp rp m s r s' E. unfold ask in E. cbv zeta in E.
      destruct (w_answer w _) as [x|x [k|]|v port sid]; try (injection E as <- <-; cbn [server made say]; eauto; fail).
      destruct (_ && negb (w_setport w)); [injection E as <- <-; destruct (v =? 0); cbn [server made say]; eauto|].
      destruct (v =? 0); injection E as <- <-; cbn [server made say]; eauto. }
    unfold request in E.
    destruct (w_state w); cbn [negb] in E; [|left; congruence].
    destruct (match rc with Some _ => _ | None => _ end) as [rs|]; [|left; congruence].
    destruct (match sn with Some _ => _ | None => _ end) as [ss|]; [|left; congruence].
    destruct (w_records w); cbn [negb] in E; [|left; congruence].
    destruct (choose _ _ rs ss) as [(ra, sa)|]; [|left; congruence].
    destruct (w_alloc w); cbn [negb] in E; [|left; congruence].
    destruct (w_twoway w || cr) eqn:TC.
    + destruct cs.
      * cbn [negb] in E. destruct (ask _ _ _ _ _ _ _ _) as ([e1|((p1, p2), sid1)], s1) eqn:A; apply AG in A; [injection E as <- <-; exact A|].
        destruct (w_schedule w sid1); cbn [negb] in E; [congruence|]. injection E as <- <-; exact A.
      * destruct (w_init w Sender) as ((ok, ie), ip). destruct ok; cbn [negb] in E; [|left; congruence].
        destruct (ask _ _ _ _ _ _ _ _) as ([e1|((p1, p2), sid1)], s1) eqn:A; apply AG in A; cbn [server say] in A; [injection E as <- <-; exact A|].
        destruct (w_schedule w sid1); cbn [negb] in E; [|injection E as <- <-; exact A]. destruct (w_policy w Sender sa ra) as (v, pe).
        destruct v; cbn [negb] in E; [|injection E as <- <-; exact A].
        destruct (w_hook w) as (h, he). destruct h; cbn [negb] in E; [congruence|]. injection E as <- <-; exact A.
    + destruct (w_sid w) as [mine|]; [|left; congruence]. destruct (w_schedule w mine); cbn [negb] in E; [|left; congruence].
      destruct (w_policy w Receiver ra sa) as (v, pe). destruct v; cbn [negb] in E; [|injection E as <- <-; left; reflexivity].
      destruct (w_init w Receiver) as ((ok, ie), ip). destruct ok; cbn [negb] in E; [|injection E as <- <-; left; reflexivity].
      destruct cs; cbn [negb] in E; [|injection E as <- <-; left; reflexivity].
      destruct (ask _ _ _ _ _ _ _ _) as ([e1|((p1, p2), sid1)], s1) eqn:A; apply AG in A; cbn [server say] in A; [injection E as <- <-; exact A|].
      destruct (w_hook w) as (h, he). destruct h; cbn [negb] in E; [congruence|]. injection E as <- <-. exact A.
Qed.

(** after any history of requests: every session of the client is one of the server, with the same name and in the same order *)
Theorem C140_history : forall l, within (names (do_calls l nothing)) (server (do_calls l nothing)).
Proof. intros l. apply within_names. apply w_nil. Qed.

(** every request of the history ends with *err_ret = OWPErrOK *)
Fixpoint calm (l : list call) (s : st) : Prop :=
  match l with [] => True | k :: l => snd (fst (do_call k s)) = ErrOK /\ calm l (snd (do_call k s)) end.

(** Missing: as for [C140_agree_partial] *)
Theorem C140_history_partial : forall l s, Forall (fun k => loud (k_world k) /\ willing (k_world k)) l -> calm l s -> names s = server s ->
  names (do_calls l s) = server (do_calls l s).
Proof.
  induction l as [|k l IH]; intros s F C N; [exact N|]. cbn [do_calls]. cbn [calm] in C. destruct C as (C1 & C2). inversion F as [|? ? (LW & WW) F']; subst. apply IH; auto.
  unfold do_call in *. destruct (request _ _ _ _ _ s) as (([sid|], e), s') eqn:E; cbn [snd fst] in *.
  - apply C140_accepted in E. destruct E as (_ & SV & x & CL & <-). unfold names. rewrite SV, CL. cbn [map]. f_equal. exact N.
  - subst e. pose proof (C140_refused _ _ _ _ _ _ _ _ E) as CL. apply C140_agree_partial in E; auto. unfold names. rewrite CL, E. exact N.
Qed.

Definition yes : role -> addr -> addr -> bool * Z := fun _ _ _ => (true, ErrOK).
Lemma yes_willing : forall a, loud (plain yes a) /\ willing (plain yes a).
Proof. intros a. split; [split; [intros; discriminate|split; [intros; discriminate|discriminate]]|]. repeat split. Qed.
Example history_ok : let l := [Call (plain yes 0) None false (Some [v4 2]) true; Call (plain yes 1) None false (Some [v4 2]) true; Call (plain yes 0) (Some [v4 2]) true None false] in
  calm l nothing /\ names (do_calls l nothing) = [[1; 2]; name1] /\ server (do_calls l nothing) = [[1; 2]; name1].
Proof. vm_compute. repeat split. Qed.

(** ** C141: addresses and ports *)

Lemma hd_app : forall {A} (a b : list A), hd_error (a ++ b) = match hd_error a with Some x => Some x | None => hd_error b end.
Proof. intros A [|x a] b; reflexivity. Qed.
Lemma first_sender_spec : forall f r ss, a_family r = f -> option_map (fun s => (r, s)) (first_sender r ss) = hd_error (filter (fits f) (map (fun y => (r, y)) ss)).
Proof.
  intros f r ss <-. induction ss as [|s ss IH]; [reflexivity|]. cbn [first_sender map filter]. unfold fits at 1. cbn [fst snd]. rewrite Z.eqb_refl. cbn [andb].
  rewrite (Z.eqb_sym (a_family s)). destruct (a_family r =? a_family s); cbn [negb andb]; [|exact IH]. destruct (a_type r =? a_type s); cbn [negb]; [reflexivity|exact IH].
Qed.
Lemma filter_none : forall f r ss, (a_family r =? f) = false -> filter (fits f) (map (fun y => (r, y)) ss) = [].
Proof. intros f r ss N. induction ss as [|s ss IH]; [reflexivity|]. cbn [map filter]. unfold fits at 1. cbn [fst snd]. rewrite N. exact IH. Qed.
Lemma first_pair_spec : forall f rs ss, first_pair f rs ss = hd_error (filter (fits f) (list_prod rs ss)).
Proof.
  intros f rs ss. induction rs as [|r rs IH]; [reflexivity|]. cbn [first_pair list_prod]. rewrite filter_app, hd_app. destruct (a_family r =? f) eqn:R; cbn [negb].
  - rewrite <- first_sender_spec by (apply Z.eqb_eq; exact R). destruct (first_sender r ss); [reflexivity|exact IH].
  - rewrite filter_none by exact R. exact IH.
Qed.
Lemma choose_spec : forall o4 o6 rs ss, choose o4 o6 rs ss = hd_error (candidates o4 o6 rs ss).
Proof.
  intros o4 o6 rs ss. unfold choose, candidates. rewrite !first_pair_spec, hd_app. destruct o4, o6; cbn [hd_error]; try reflexivity; destruct (hd_error _); reflexivity.
Qed.

(** the session is between the best pair of addresses *)
Theorem C141_session : forall w snd_ cs rcv cr s sid e s', request w snd_ cs rcv cr s = (Some sid, e, s') ->
  exists x, client s' = x :: client s /\ hd_error (candidates (w_only4 w) (w_only6 w) (meant w rcv) (meant w snd_)) = Some (s_receiver x, s_sender x).
Proof.
  intros w sn cs rc cr s sid e s' E. unfold request in E.
  destruct (w_state w); cbn [negb] in E; [|discriminate].
  destruct (match rc with Some _ => _ | None => _ end) as [rs|] eqn:RC; [|discriminate].
  destruct (match sn with Some _ => _ | None => _ end) as [ss|] eqn:SN; [|discriminate].
  assert (R : meant w rc = rs) by (unfold meant; destruct rc, cr; congruence). assert (Q : meant w sn = ss) by (unfold meant; destruct sn, cs; congruence). rewrite R, Q, <- choose_spec.
  clear R Q RC SN. destruct (w_records w); cbn [negb] in E; [|discriminate].
  destruct (choose _ _ rs ss) as [(ra, sa)|]; [|discriminate].
  destruct (w_alloc w); cbn [negb] in E; [|discriminate].
  destruct (w_twoway w || cr) eqn:TC.
  - destruct cs.
    + cbn [negb] in E. destruct (ask _ _ _ _ _ _ _ _) as ([e1|((p1, p2), sid1)], s1) eqn:A; [discriminate|]. apply ask_spec in A. destruct A as (A1 & _).
      destruct (w_schedule w sid1); cbn [negb] in E; [|discriminate]. injection E as <- <- <-. cbn [client]. rewrite A1. eexists; split; reflexivity.
    + destruct (w_init w Sender) as ((ok, ie), ip). destruct ok; cbn [negb] in E; [|discriminate].
      destruct (ask _ _ _ _ _ _ _ _) as ([e1|((p1, p2), sid1)], s1) eqn:A; [discriminate|]. apply ask_spec in A. destruct A as (A1 & _).
      destruct (w_schedule w sid1); cbn [negb] in E; [|discriminate]. destruct (w_policy w Sender sa ra) as (v, pe). destruct v; cbn [negb] in E; [|discriminate].
      destruct (w_hook w) as (h, he). destruct h; cbn [negb] in E; [|discriminate]. injection E as <- <- <-. cbn [client say] in *. rewrite A1. eexists; split; reflexivity.
  - destruct (w_sid w) as [mine|]; [|discriminate]. destruct (w_schedule w mine); cbn [negb] in E; [|discriminate].
    destruct (w_policy w Receiver ra sa) as (v, pe). destruct v; cbn [negb] in E; [|discriminate].
    destruct (w_init w Receiver) as ((ok, ie), ip). destruct ok; cbn [negb] in E; [|discriminate].
    destruct cs; cbn [negb] in E; [|discriminate].
    destruct (ask _ _ _ _ _ _ _ _) as ([e1|((p1, p2), sid1)], s1) eqn:A; [discriminate|]. apply ask_spec in A. destruct A as (A1 & _).
    destruct (w_hook w) as (h, he). destruct h; cbn [negb] in E; [|discriminate]. injection E as <- <- <-. cbn [client say] in *. rewrite A1. eexists; split; reflexivity.
Qed.

(** no pair of addresses fits: the request fails with an error, and nothing is sent, asked or made *)
Theorem C141_incompatible : forall w snd_ cs rcv cr s, w_state w = true -> w_records w = true -> (rcv = None -> cr = false) -> (snd_ = None -> cs = false) ->
  candidates (w_only4 w) (w_only6 w) (meant w rcv) (meant w snd_) = [] -> request w snd_ cs rcv cr s = (None, ErrWARNING, s).
Proof.
  intros w sn cs rc cr s ST RE R S_ C. unfold request. rewrite ST, RE. cbn [negb].
  replace (match rc with Some _ => _ | None => _ end) with (Some (meant w rc)) by (destruct rc; [reflexivity|rewrite R by reflexivity; reflexivity]).
  replace (match sn with Some _ => _ | None => _ end) with (Some (meant w sn)) by (destruct sn; [reflexivity|rewrite S_ by reflexivity; reflexivity]).
  rewrite choose_spec, C. reflexivity.
Qed.

(** what a candidate is: both of one family, which is allowed, of one type, out of the lists *)
Theorem C141_candidate : forall o4 o6 rs ss r s, In (r, s) (candidates o4 o6 rs ss) <->
  In r rs /\ In s ss /\ a_type r = a_type s /\ a_family r = a_family s /\ ((a_family r = 10 /\ o4 = false) \/ (a_family r = 2 /\ o6 = false)).
Proof.
  intros o4 o6 rs ss r s. unfold candidates. rewrite in_app_iff.
  assert (F : forall f, In (r, s) (filter (fits f) (list_prod rs ss)) <-> In r rs /\ In s ss /\ a_type r = a_type s /\ a_family r = f /\ a_family s = f).
  { intros f. rewrite filter_In, in_prod_iff. unfold fits. cbn [fst snd]. rewrite !andb_true_iff, !Z.eqb_eq. tauto. }
  destruct o4, o6; cbn [In]; rewrite ?F; unfold AF_INET, AF_INET6; intuition (try congruence; auto; fail || idtac).
  all: try (left; repeat split; congruence). all: try (right; repeat split; congruence).
Qed.

(** the ports: a client that sends (or tests both ways) sends its own port with the request and sends to the port of the answer; a client that receives sends its own port with the request
    and expects packets of the port of the answer *)
Theorem C141_ports : forall w snd_ rcv cr s sid e s', w_twoway w || cr = true -> request w snd_ false rcv cr s = (Some sid, e, s') ->
  exists x ans, client s' = x :: client s /\ s_sport x = snd (w_init w Sender) /\
    w_answer w (Sent false (negb (w_twoway w) && cr) (s_sport x) (if w_twoway w then s_sport x else 0) None) = Answer 0 (s_rport x) ans.
Proof.
  intros w sn rc cr s sid e s' TC E. unfold request in E.
  destruct (w_state w); cbn [negb] in E; [|discriminate].
  destruct (match rc with Some _ => _ | None => _ end) as [rs|]; [|discriminate].
  destruct (match sn with Some _ => _ | None => _ end) as [ss|]; [|discriminate].
  destruct (w_records w); cbn [negb] in E; [|discriminate].
  destruct (choose _ _ rs ss) as [(ra, sa)|]; [|discriminate].
  destruct (w_alloc w); cbn [negb] in E; [|discriminate]. rewrite TC in E.
  destruct (w_init w Sender) as ((ok, ie), ip). destruct ok; cbn [negb] in E; [|discriminate].
  destruct (ask _ _ _ _ _ _ _ _) as ([e1|((p1, p2), sid1)], s1) eqn:A; [discriminate|]. apply ask_spec in A. destruct A as (A1 & new & _ & _ & _ & _ & _ & port & ans & A5 & A6 & A7).
  destruct (w_schedule w sid1); cbn [negb] in E; [|discriminate]. destruct (w_policy w Sender sa ra) as (v, pe). destruct v; cbn [negb] in E; [|discriminate].
  destruct (w_hook w) as (h, he). destruct h; cbn [negb] in E; [|discriminate]. injection E as <- <- <-. cbn [client say] in *. rewrite A1. eexists. exists ans. split; [reflexivity|].
  cbn [s_sport s_rport snd]. rewrite andb_false_r in *. cbn [andb negb] in *. subst p1. split; [reflexivity|].
  destruct (w_twoway w); cbn [andb negb orb Z.eqb] in *; [subst p2; exact A5|]. rewrite TC in *. cbn [andb] in *. subst p2. exact A5.
Qed.

Theorem C141_ports_receiver : forall w snd_ cs rcv s sid e s', w_twoway w = false -> request w snd_ cs rcv false s = (Some sid, e, s') ->
  exists x ans, client s' = x :: client s /\ s_rport x = snd (w_init w Receiver) /\ w_sid w = Some sid /\
    w_answer w (Sent true false 0 (s_rport x) (Some sid)) = Answer 0 (s_sport x) ans.
Proof.
  intros w sn cs rc s sid e s' TC E. unfold request in E.
  destruct (w_state w); cbn [negb] in E; [|discriminate].
  destruct (match rc with Some _ => _ | None => _ end) as [rs|]; [|discriminate].
  destruct (match sn with Some _ => _ | None => _ end) as [ss|]; [|discriminate].
  destruct (w_records w); cbn [negb] in E; [|discriminate].
  destruct (choose _ _ rs ss) as [(ra, sa)|]; [|discriminate].
  destruct (w_alloc w); cbn [negb] in E; [|discriminate]. rewrite TC in E. cbn [orb] in E.
  destruct (w_sid w) as [mine|]; [|discriminate]. destruct (w_schedule w mine); cbn [negb] in E; [|discriminate].
  destruct (w_policy w Receiver ra sa) as (v, pe). destruct v; cbn [negb] in E; [|discriminate].
  destruct (w_init w Receiver) as ((ok, ie), ip). destruct ok; cbn [negb] in E; [|discriminate].
  destruct cs; cbn [negb] in E; [|discriminate].
  destruct (ask _ _ _ _ _ _ _ _) as ([e1|((p1, p2), sid1)], s1) eqn:A; [discriminate|]. apply ask_spec in A. destruct A as (A1 & new & _ & _ & _ & _ & A8 & port & ans & A5 & A6 & A7).
  rewrite TC in *. cbn [orb andb negb] in *. specialize (A8 eq_refl). subst sid1 p1 p2.
  destruct (w_hook w) as (h, he). destruct h; cbn [negb] in E; [|discriminate]. injection E as <- <- <-. cbn [client say] in *. rewrite A1. eexists. exists ans. split; [reflexivity|].
  cbn [s_sport s_rport snd]. auto.
Qed.

Example session_example : request (plain yes 0) None false (Some [v6 7; v4 2; v4 3]) true nothing
  = (Some name1, ErrOK, St [Session name1 (v4 1) 8000 (v4 2) 9000 (Some Sender)] [name1] [Forked Sender; Asked_policy Sender (v4 1) (v4 2) true; Sent false true 8000 0 None; Opened Sender]).
Proof. reflexivity. Qed.
Example prefers_v6 : choose false false [v4 2; v6 7] [v4 1; v6 1] = Some (v6 7, v6 1) /\ choose true false [v4 2; v6 7] [v4 1; v6 1] = Some (v4 2, v4 1)
  /\ candidates false true [v4 2] [v4 1; v6 1] = [].
Proof. vm_compute. repeat split. Qed.

(** ** C142: nothing runs on the side of the client without the consent of its policy *)

(** the new events of a request, latest first, begin with a process for [r] at the place [a ++ Forked r :: b] only if the policy was asked before, for this role, with the own
    address first and the remote one second, and said yes, and the request was sent before *)
Definition consented (w : world) (new : list event) : Prop :=
  forall a r b, new = a ++ Forked r :: b -> exists here there cs cr sp rp x,
    In (Asked_policy r here there true) b /\ fst (w_policy w r here there) = true /\ In (Sent cs cr sp rp x) b.
(** and the addresses are those of the session *)
Definition right_way (x : session) (e : event) : Prop :=
  match e with
  | Asked_policy Sender h t _ => h = s_sender x /\ t = s_receiver x
  | Asked_policy Receiver h t _ => h = s_receiver x /\ t = s_sender x
  | _ => True
  end.

Lemma consented_none : forall w new, (forall r, ~ In (Forked r) new) -> consented w new.
Proof. intros w new N a r b ->. exfalso. apply (N r). rewrite in_app_iff. right. left. reflexivity. Qed.
Lemma consented_top : forall w r new, (forall r, ~ In (Forked r) new) -> (exists h t, In (Asked_policy r h t true) new /\ fst (w_policy w r h t) = true) ->
  (exists cs cr sp rp x, In (Sent cs cr sp rp x) new) -> consented w (Forked r :: new).
Proof.
  intros w r new N (h & t & P1 & P2) (cs & cr & sp & rp & x & Q) a r' b E. destruct a as [|e a]; cbn [app] in E.
  - assert (r = r') by congruence. assert (new = b) by congruence. subst r' b. exists h, t, cs, cr, sp, rp, x. auto.
  - assert (E' : new = a ++ Forked r' :: b) by congruence. exfalso. apply (N r'). rewrite E', in_app_iff. right. left. reflexivity.
Qed.

Ltac nofork := let q := fresh in let H := fresh in intros q H; cbn [In app] in H; intuition discriminate.

Lemma sent_only : forall new cs cr sp rp, (new = [] \/ exists x, new = [Sent cs cr sp rp x]) -> forall r, ~ In (Forked r) new.
Proof. intros new cs cr sp rp [->|(x & ->)]; nofork. Qed.

Theorem C142_consent : forall w snd_ cs rcv cr s r e s', request w snd_ cs rcv cr s = (r, e, s') ->
  exists new, done s' = new ++ done s /\ consented w new.
Proof.
  intros w sn cs rc cr s r e s' E. unfold request in E.
  assert (Z0 : forall s', done s' = done s -> exists new, done s' = new ++ done s /\ consented w new).
  { intros s0 ->. exists []. split; [reflexivity|]. apply consented_none. nofork. }
  destruct (w_state w); cbn [negb] in E; [|apply Z0; congruence].
  destruct (match rc with Some _ => _ | None => _ end) as [rs|]; [|apply Z0; congruence].
  destruct (match sn with Some _ => _ | None => _ end) as [ss|]; [|apply Z0; congruence].
  destruct (w_records w); cbn [negb] in E; [|apply Z0; congruence].
  destruct (choose _ _ rs ss) as [(ra, sa)|]; [|apply Z0; congruence].
  destruct (w_alloc w); cbn [negb] in E; [|apply Z0; congruence].
  destruct (w_twoway w || cr) eqn:TC.
  - destruct cs.
    + cbn [negb] in E. destruct (ask _ _ _ _ _ _ _ _) as (r1, s1) eqn:A. apply ask_spec in A. destruct A as (_ & new & D & F & _).
      assert (G : done s' = new ++ done s) by (destruct r1 as [e1|((p1, p2), sid1)]; [|destruct (w_schedule w sid1); cbn [negb] in E]; injection E as <- <- <-; exact D).
      exists new. split; [exact G|]. apply consented_none, (sent_only _ _ _ _ _ F).
    + destruct (w_init w Sender) as ((ok, ie), ip). destruct ok; cbn [negb] in E; [|apply Z0; congruence].
      destruct (ask _ _ _ _ _ _ _ _) as (r1, s1) eqn:A. apply ask_spec in A. destruct A as (_ & new & D & F & K). cbn [done say] in D.
      pose proof (sent_only _ _ _ _ _ F) as NF.
      assert (N1 : forall r, ~ In (Forked r) (new ++ [Opened Sender])).
      { intros q H. apply in_app_or in H. destruct H as [H|[H|[]]]; [exact (NF q H)|discriminate]. }
      assert (D1 : done s1 = (new ++ [Opened Sender]) ++ done s) by (rewrite D, <- app_assoc; reflexivity).
      assert (G1 : forall s', done s' = done s1 -> exists n, done s' = n ++ done s /\ consented w n).
      { intros s2 ->. exists (new ++ [Opened Sender]). split; [exact D1|]. apply consented_none, N1. }
      destruct r1 as [e1|((p1, p2), sid1)]; [apply G1; congruence|].
      destruct (w_schedule w sid1); cbn [negb] in E; [|apply G1; congruence].
      destruct (w_policy w Sender sa ra) as (v, pe) eqn:P.
      assert (N2 : forall r, ~ In (Forked r) (Asked_policy Sender sa ra v :: new ++ [Opened Sender])) by (intros q [H|H]; [discriminate|exact (N1 q H)]).
      assert (G2 : forall s', done s' = Asked_policy Sender sa ra v :: done s1 -> exists n, done s' = n ++ done s /\ consented w n).
      { intros s2 ->. exists (Asked_policy Sender sa ra v :: new ++ [Opened Sender]). split; [rewrite D1; reflexivity|]. apply consented_none, N2. }
      destruct v; cbn [negb] in E; [|apply G2; injection E as <- <- <-; reflexivity].
      destruct (w_hook w) as (h, he). destruct h; cbn [negb] in E; [|apply G2; injection E as <- <- <-; reflexivity]. injection E as <- <- <-. cbn [done say].
      exists (Forked Sender :: Asked_policy Sender sa ra true :: new ++ [Opened Sender]). split; [rewrite D1; reflexivity|]. apply consented_top; [exact N2| |].
      { exists sa, ra. split; [left; reflexivity|rewrite P; reflexivity]. }
      destruct K as (_ & NE & _). destruct F as [->|(x & ->)]; [congruence|]. do 5 eexists. right. left. reflexivity.
  - destruct (w_sid w) as [mine|]; [|apply Z0; congruence]. destruct (w_schedule w mine); cbn [negb] in E; [|apply Z0; congruence].
    destruct (w_policy w Receiver ra sa) as (v, pe) eqn:P.
    assert (G1 : forall s', done s' = Asked_policy Receiver ra sa v :: done s -> exists n, done s' = n ++ done s /\ consented w n).
    { intros s2 ->. exists [Asked_policy Receiver ra sa v]. split; [reflexivity|]. apply consented_none. nofork. }
    destruct v; cbn [negb] in E; [|apply G1; injection E as <- <- <-; reflexivity].
    destruct (w_init w Receiver) as ((ok, ie), ip). destruct ok; cbn [negb] in E; [|apply G1; injection E as <- <- <-; reflexivity].
    set (base := [Opened Receiver; Asked_policy Receiver ra sa true]) in *.
    assert (G2 : forall s', done s' = base ++ done s -> exists n, done s' = n ++ done s /\ consented w n).
    { intros s2 ->. exists base. split; [reflexivity|]. apply consented_none. unfold base. nofork. }
    destruct cs; cbn [negb] in E; [|apply G2; injection E as <- <- <-; reflexivity].
    destruct (ask _ _ _ _ _ _ _ _) as (r1, s1) eqn:A. apply ask_spec in A. destruct A as (_ & new & D & F & K). cbn [done say] in D.
    pose proof (sent_only _ _ _ _ _ F) as NF.
    assert (N1 : forall r, ~ In (Forked r) (new ++ base)).
    { intros q H. apply in_app_or in H. destruct H as [H|[H|[H|[]]]]; [exact (NF q H)|discriminate|discriminate]. }
    assert (D1 : done s1 = (new ++ base) ++ done s) by (rewrite D, <- app_assoc; reflexivity).
    assert (G3 : forall s', done s' = done s1 -> exists n, done s' = n ++ done s /\ consented w n).
    { intros s2 ->. exists (new ++ base). split; [exact D1|]. apply consented_none, N1. }
    destruct r1 as [e1|((p1, p2), sid1)]; [apply G3; congruence|].
    destruct (w_hook w) as (h, he). destruct h; cbn [negb] in E; [|apply G3; congruence]. injection E as <- <- <-. cbn [done say].
    exists (Forked Receiver :: new ++ base). split; [rewrite D1; reflexivity|]. apply consented_top; [exact N1| |].
    { exists ra, sa. split; [|rewrite P; reflexivity]. apply in_or_app. right. right. left. reflexivity. }
    destruct K as (_ & NE & _). destruct F as [->|(x & ->)]; [congruence|]. do 5 eexists. left. reflexivity.
Qed.

(** if the client receives: nothing is opened or sent before its policy has said yes *)
Definition cleared (w : world) (new : list event) : Prop :=
  forall a e b, new = a ++ e :: b -> match e with Asked_policy _ _ _ _ => True | _ => exists h t, In (Asked_policy Receiver h t true) b /\ fst (w_policy w Receiver h t) = true end.
Theorem C142_receiver_first : forall w snd_ cs rcv s r e s', w_twoway w = false -> request w snd_ cs rcv false s = (r, e, s') ->
  exists new, done s' = new ++ done s /\ cleared w new.
Proof.
  intros w sn cs rc s r e s' TW E. unfold request in E.
  assert (C0 : cleared w []) by (intros a e0 b H; destruct a; discriminate).
  assert (Z0 : forall s', done s' = done s -> exists new, done s' = new ++ done s /\ cleared w new) by (intros s0 ->; exists []; split; [reflexivity|exact C0]).
  destruct (w_state w); cbn [negb] in E; [|apply Z0; congruence].
  destruct (match rc with Some _ => _ | None => _ end) as [rs|]; [|apply Z0; congruence].
  destruct (match sn with Some _ => _ | None => _ end) as [ss|]; [|apply Z0; congruence].
  destruct (w_records w); cbn [negb] in E; [|apply Z0; congruence].
  destruct (choose _ _ rs ss) as [(ra, sa)|]; [|apply Z0; congruence].
  destruct (w_alloc w); cbn [negb] in E; [|apply Z0; congruence]. rewrite TW in E. cbn [orb] in E.
  destruct (w_sid w) as [mine|]; [|apply Z0; congruence]. destruct (w_schedule w mine); cbn [negb] in E; [|apply Z0; congruence].
  destruct (w_policy w Receiver ra sa) as (v, pe) eqn:P.
  assert (CC : forall new, v = true -> cleared w (new ++ [Asked_policy Receiver ra sa true])).
  { intros new -> a e0 b H. destruct (exists_last (l := e0 :: b)) as (l & x & L); [discriminate|].
    rewrite L, app_assoc in H. apply app_inj_tail in H. destruct H as (_ & H). subst x.
    destruct l as [|y l]; cbn [app] in L.
    - assert (e0 = Asked_policy Receiver ra sa true) by congruence. subst e0. exact I.
    - assert (B : In (Asked_policy Receiver ra sa true) b) by (replace b with (l ++ [Asked_policy Receiver ra sa true]) by congruence; apply in_or_app; right; left; reflexivity).
      destruct e0; try exact I; exists ra, sa; (split; [exact B|rewrite P; reflexivity]). }
  assert (G : v = true -> forall new s', done s' = new ++ Asked_policy Receiver ra sa true :: done s -> exists n, done s' = n ++ done s /\ cleared w n).
  { intros V new s0 ->. exists (new ++ [Asked_policy Receiver ra sa true]). split; [rewrite <- app_assoc; reflexivity|apply CC, V]. }
  destruct v; cbn [negb] in E.
  2:{ exists [Asked_policy Receiver ra sa false]. split; [injection E as <- <- <-; reflexivity|]. intros a e0 b H. destruct a as [|? [|? a]]; try discriminate; cbn [app] in H.
      assert (e0 = Asked_policy Receiver ra sa false) by congruence. subst e0. exact I. }
  destruct (w_init w Receiver) as ((ok, ie), ip). destruct ok; cbn [negb] in E; [|apply (G eq_refl []); injection E as <- <- <-; reflexivity].
  destruct cs; cbn [negb] in E; [|apply (G eq_refl [Opened Receiver]); injection E as <- <- <-; reflexivity].
  destruct (ask _ _ _ _ _ _ _ _) as (r1, s1) eqn:A. apply ask_spec in A. destruct A as (_ & new & D & F & K). cbn [done say] in D.
  destruct r1 as [e1|((p1, p2), sid1)].
  { apply (G eq_refl (new ++ [Opened Receiver])). rewrite <- app_assoc. cbn [app]. injection E as <- <- <-. exact D. }
  destruct (w_hook w) as (h, he). destruct h; cbn [negb] in E.
  - apply (G eq_refl (Forked Receiver :: new ++ [Opened Receiver])). injection E as <- <- <-. cbn [done say app]. rewrite D, <- app_assoc. reflexivity.
  - apply (G eq_refl (new ++ [Opened Receiver])). rewrite <- app_assoc. cbn [app]. injection E as <- <- <-. exact D.
Qed.

(** what runs is what the session says, and the policy was asked with the addresses of the session *)
Theorem C142_session : forall w snd_ cs rcv cr s sid e s', request w snd_ cs rcv cr s = (Some sid, e, s') ->
  exists x new, client s' = x :: client s /\ done s' = new ++ done s /\ (forall ev, In ev new -> right_way x ev) /\ (forall r, In (Forked r) new <-> s_here x = Some r) /\
    (s_here x = None <-> cs = true /\ w_twoway w || cr = true) /\ (s_here x = Some Receiver <-> w_twoway w || cr = false).
Proof.
  intros w sn cs rc cr s sid e s' E. unfold request in E.
  destruct (w_state w); cbn [negb] in E; [|discriminate].
  destruct (match rc with Some _ => _ | None => _ end) as [rs|]; [|discriminate].
  destruct (match sn with Some _ => _ | None => _ end) as [ss|]; [|discriminate].
  destruct (w_records w); cbn [negb] in E; [|discriminate].
  destruct (choose _ _ rs ss) as [(ra, sa)|]; [|discriminate].
  destruct (w_alloc w); cbn [negb] in E; [|discriminate].
  destruct (w_twoway w || cr) eqn:TC.
  - destruct cs.
    + cbn [negb] in E. destruct (ask _ _ _ _ _ _ _ _) as ([e1|((p1, p2), sid1)], s1) eqn:A; [discriminate|]. apply ask_spec in A. destruct A as (A1 & new & D & F & _ & NE & _).
      destruct (w_schedule w sid1); cbn [negb] in E; [|discriminate]. injection E as <- <- <-. cbn [client done]. rewrite A1. eexists. exists new. split; [reflexivity|]. split; [exact D|].
      destruct F as [->|(x & ->)]; [congruence|]. split; [intros ev [<-|[]]; exact I|]. cbn [s_here]. split; [intros r; split; [intros [H|[]]; discriminate|discriminate]|].
      split; split; try discriminate; auto.
    + destruct (w_init w Sender) as ((ok, ie), ip). destruct ok; cbn [negb] in E; [|discriminate].
      destruct (ask _ _ _ _ _ _ _ _) as ([e1|((p1, p2), sid1)], s1) eqn:A; [discriminate|]. apply ask_spec in A. destruct A as (A1 & new & D & F & _ & NE & _).
      destruct (w_schedule w sid1); cbn [negb] in E; [|discriminate]. destruct (w_policy w Sender sa ra) as (v, pe). destruct v; cbn [negb] in E; [|discriminate].
      destruct (w_hook w) as (h, he). destruct h; cbn [negb] in E; [|discriminate]. injection E as <- <- <-. cbn [client done say] in *. rewrite A1.
      destruct F as [->|(x & ->)]; [congruence|]. eexists. eexists (Forked Sender :: Asked_policy Sender sa ra true :: _ :: [Opened Sender]). split; [reflexivity|].
      split; [rewrite D; reflexivity|]. cbn [s_here]. split; [|split; [|split; split; try discriminate; try (intros (H & _); discriminate)]].
      * intros ev H. cbn [In] in H. destruct H as [<-|[<-|[<-|[<-|[]]]]]; cbn [right_way s_sender s_receiver]; auto.
      * intros r. split; [intros H; cbn [In] in H; destruct H as [H|[H|[H|[H|[]]]]]; try discriminate; congruence|]. intros H. left. congruence.
  - destruct (w_sid w) as [mine|]; [|discriminate]. destruct (w_schedule w mine); cbn [negb] in E; [|discriminate].
    destruct (w_policy w Receiver ra sa) as (v, pe). destruct v; cbn [negb] in E; [|discriminate].
    destruct (w_init w Receiver) as ((ok, ie), ip). destruct ok; cbn [negb] in E; [|discriminate].
    destruct cs; cbn [negb] in E; [|discriminate].
    destruct (ask _ _ _ _ _ _ _ _) as ([e1|((p1, p2), sid1)], s1) eqn:A; [discriminate|]. apply ask_spec in A. destruct A as (A1 & new & D & F & _ & NE & _).
    destruct (w_hook w) as (h, he). destruct h; cbn [negb] in E; [|discriminate]. injection E as <- <- <-. cbn [client done say] in *. rewrite A1.
    destruct F as [->|(x & ->)]; [congruence|]. eexists. eexists (Forked Receiver :: _ :: Opened Receiver :: [Asked_policy Receiver ra sa true]). split; [reflexivity|].
    split; [rewrite D; reflexivity|]. cbn [s_here]. split; [|split; [|split; split; try discriminate; try (intros (_ & H); discriminate); auto]].
    + intros ev H. cbn [In] in H. destruct H as [<-|[<-|[<-|[<-|[]]]]]; cbn [right_way s_sender s_receiver]; auto.
    + intros r. split; [intros H; cbn [In] in H; destruct H as [H|[H|[H|[H|[]]]]]; try discriminate; congruence|]. intros H. left. congruence.
Qed.

Example consent_example : request (plain yes 0) (Some [v4 2]) true None false nothing
  = (Some [1; 2], ErrOK, St [Session [1; 2] (v4 2) 9000 (v4 1) 8000 (Some Receiver)] [[1; 2]]
      [Forked Receiver; Sent true false 0 8000 (Some [1; 2]); Opened Receiver; Asked_policy Receiver (v4 1) (v4 2) true]).
Proof. reflexivity. Qed.

(** ** C143: starting the sessions *)

Definition began_at (n : nat) (e : sevent) : bool := match e with Began m => Nat.eqb n m | _ => false end.
(** how often the local endpoint of the session number n is started *)
Definition times (n : nat) (t : list sevent) : nat := length (filter (began_at n) t).
Definition here (l : list local) (n : nat) : option role := match nth_error l n with Some x => l_here x | None => None end.

Lemma start_those_spec : forall sel l n t ok t', start_those sel n l t = (ok, t') ->
  exists new, t' = new ++ t /\
    (forall e, In e new -> exists m, e = Began (n + m)%nat /\ sel (here l m) = true /\ exists x, nth_error l m = Some x) /\
    (ok = true -> (forall m x, nth_error l m = Some x -> sel (l_here x) = true -> l_alive x = true /\ times (n + m) new = 1%nat)) /\
    (ok = false -> exists m x, nth_error l m = Some x /\ sel (l_here x) = true /\ l_alive x = false) /\
    (forall m, (m < n)%nat -> times m new = 0%nat) /\ (forall m, (times m new <= 1)%nat).
Proof.
  intros sel. induction l as [|x l IH]; intros n t ok t' E; cbn [start_those] in E.
  - injection E as <- <-. exists []. split; [reflexivity|]. split; [intros e []|]. split; [intros _ [|m] x H; discriminate|]. split; [discriminate|]. split; intros; cbn; lia.
  - destruct (sel (l_here x)) eqn:SE.
    + destruct (l_alive x) eqn:AL.
      * apply IH in E. destruct E as (new & -> & A & B & C & D & F). exists (new ++ [Began n]). split; [rewrite <- app_assoc; reflexivity|].
        assert (T : forall m, times m (new ++ [Began n]) = (times m new + if Nat.eqb m n then 1 else 0)%nat).
        { intros m. unfold times. rewrite filter_app, app_length. cbn [filter began_at]. destruct (Nat.eqb m n); reflexivity. }
        split; [|split; [|split; [|split]]].
        -- intros e H. apply in_app_or in H. destruct H as [H|[<-|[]]].
           ++ destruct (A _ H) as (m & -> & Q & y & N). exists (S m). split; [f_equal; lia|]. split; [exact Q|]. exists y. exact N.
           ++ exists O. split; [f_equal; lia|]. split; [exact SE|]. exists x. reflexivity.
        -- intros OK m y N S1. rewrite T. destruct m as [|m]; cbn [nth_error] in N.
           ++ assert (x = y) by congruence. subst y. rewrite Nat.add_0_r. rewrite D by lia. rewrite Nat.eqb_refl. auto.
           ++ destruct (B OK m y N S1) as (B1 & B2). split; [exact B1|]. replace (n + S m)%nat with (S n + m)%nat by lia. rewrite B2.
              destruct (Nat.eqb_spec (S n + m) n); lia.
        -- intros OK. destruct (C OK) as (m & y & N & Q). exists (S m), y. auto.
        -- intros m L. rewrite T, D by lia. destruct (Nat.eqb_spec m n); lia.
        -- intros m. rewrite T. destruct (Nat.eqb_spec m n); [subst m; rewrite D; lia|]. specialize (F m). lia.
      * injection E as <- <-. exists []. split; [reflexivity|]. split; [intros e []|]. split; [discriminate|]. split; [|split; intros; cbn; lia].
        intros _. exists O, x. auto.
    + apply IH in E. destruct E as (new & -> & A & B & C & D & F). exists new. split; [reflexivity|]. split; [|split; [|split; [|split]]].
      * intros e H. destruct (A _ H) as (m & -> & Q & y & N). exists (S m). split; [f_equal; lia|]. split; [exact Q|]. exists y. exact N.
      * intros OK m y N S1. destruct m as [|m]; cbn [nth_error] in N; [congruence|]. replace (n + S m)%nat with (S n + m)%nat by lia. exact (B OK m y N S1).
      * intros OK. destruct (C OK) as (m & y & N & Q). exists (S m), y. auto.
      * intros m L. apply D. lia.
      * exact F.
Qed.
Lemma times_app : forall n a b, times n (a ++ b) = (times n a + times n b)%nat.
Proof. intros. unfold times. rewrite filter_app, app_length. reflexivity. Qed.
Lemma times_zero : forall n a, (forall e, In e a -> began_at n e = false) -> times n a = 0%nat.
Proof. intros n a H. unfold times. induction a as [|e a IH]; [reflexivity|]. cbn [filter]. rewrite (H e) by (left; reflexivity). apply IH. intros; apply H; right; auto. Qed.

(** success: the server has agreed, and every local endpoint is started exactly once, nothing else *)
Theorem C143_started : forall wrote ack l e v t, start_sessions wrote ack l = (e, v, t) -> e = ErrOK ->
  v = true /\ ack = Some 0 /\ (forall n, times n t = match here l n with Some _ => 1%nat | None => 0%nat end).
Proof.
  intros wrote ack l e v t E ->. unfold start_sessions in E. destruct (wrote <? ErrOK) eqn:W; [apply Z.ltb_lt in W; injection E as -> _ _; lia|].
  destruct (start_those is_receiver 0 l [Wrote]) as (ok1, t1) eqn:S1. apply start_those_spec in S1. destruct S1 as (n1 & -> & A1 & B1 & _ & _ & F1).
  destruct ok1; cbn [negb] in E; [|discriminate]. destruct ack as [a|]; [|discriminate]. cbv zeta in E. destruct (a =? 0) eqn:EA; cbn [negb] in E; [|discriminate].
  destruct (start_those is_sender 0 l _) as (ok2, t2) eqn:S2. apply start_those_spec in S2. destruct S2 as (n2 & -> & A2 & B2 & _ & _ & F2).
  destruct ok2; cbn [negb] in E; [|discriminate]. injection E as <- <-. split; [reflexivity|]. apply Z.eqb_eq in EA. subst a. split; [reflexivity|].
  intros n. rewrite times_app. change (Acked 0 :: n1 ++ [Wrote]) with ([Acked 0] ++ n1 ++ [Wrote]). rewrite !times_app. change (times n [Acked 0]) with 0%nat. change (times n [Wrote]) with 0%nat.
  assert (ZR : is_receiver (here l n) = false -> times n n1 = 0%nat).
  { intros R. apply times_zero. intros e0 I. destruct (A1 _ I) as (m & -> & Q & _). cbn [began_at Nat.add]. apply Nat.eqb_neq. intros ->. congruence. }
  assert (ZS : is_sender (here l n) = false -> times n n2 = 0%nat).
  { intros R. apply times_zero. intros e0 I. destruct (A2 _ I) as (m & -> & Q & _). cbn [began_at Nat.add]. apply Nat.eqb_neq. intros ->. congruence. }
  unfold here in *. destruct (nth_error l n) as [x|] eqn:N; [|rewrite ZR, ZS by reflexivity; reflexivity].
  destruct (l_here x) as [[|]|] eqn:H.
  - rewrite ZR by reflexivity. destruct (B2 eq_refl n x N) as (_ & B); [rewrite H; reflexivity|]. rewrite Nat.add_0_l in B. lia.
  - rewrite ZS by reflexivity. destruct (B1 eq_refl n x N) as (_ & B); [rewrite H; reflexivity|]. rewrite Nat.add_0_l in B. lia.
  - rewrite ZR, ZS by reflexivity. reflexivity.
Qed.

(** it succeeds if and only if the message was sent, the server agrees, and every local endpoint is there; if not, the connection is not valid any more and the severity is an error *)
Theorem C143_when : forall wrote ack l, 
  (fst (fst (start_sessions wrote ack l)) = ErrOK <-> ErrOK <= wrote /\ ack = Some 0 /\ forall n x, nth_error l n = Some x -> l_here x <> None -> l_alive x = true) /\
  (fst (fst (start_sessions wrote ack l)) <> ErrOK -> fst (fst (start_sessions wrote ack l)) < ErrOK /\ snd (fst (start_sessions wrote ack l)) = false).
Proof.
  intros wrote ack l. unfold start_sessions. destruct (wrote <? ErrOK) eqn:W; [apply Z.ltb_lt in W|apply Z.ltb_ge in W].
  { cbn [fst snd]. split; [split; [intros; lia|intros (? & _); lia]|]. auto. }
  destruct (start_those is_receiver 0 l [Wrote]) as (ok1, t1) eqn:S1. apply start_those_spec in S1. destruct S1 as (n1 & -> & A1 & B1 & C1 & _ & F1).
  destruct ok1; cbn [negb].
  2:{ cbn [fst snd]. split; [split; [discriminate|]|split; [reflexivity|reflexivity]]. intros (_ & _ & H). destruct (C1 eq_refl) as (m & x & N & Q & R).
      rewrite (H m x N) in R; [discriminate|]. intros Z0. rewrite Z0 in Q. discriminate. }
  destruct ack as [a|]; [|cbn [fst snd]; split; [split; [discriminate|intros (_ & ? & _); discriminate]|split; reflexivity]]. cbv zeta.
  destruct (a =? 0) eqn:EA; cbn [negb].
  2:{ cbn [fst snd]. split; [split; [discriminate|intros (_ & H & _)]|split; reflexivity]. assert (a = 0) by congruence. subst a. discriminate. }
  destruct (start_those is_sender 0 l _) as (ok2, t2) eqn:S2. apply start_those_spec in S2. destruct S2 as (n2 & -> & A2 & B2 & C2 & _ & F2).
  destruct ok2; cbn [negb].
  - cbn [fst snd]. split; [|intros H; exfalso; apply H; reflexivity]. split; [intros _|reflexivity]. split; [exact W|]. apply Z.eqb_eq in EA. subst a. split; [reflexivity|].
    intros n x N H. destruct (l_here x) as [[|]|] eqn:HX; [|  |congruence].
    + apply (B2 eq_refl n x N). rewrite HX. reflexivity.
    + apply (B1 eq_refl n x N). rewrite HX. reflexivity.
  - cbn [fst snd]. split; [split; [discriminate|]|split; reflexivity]. intros (_ & _ & H). destruct (C2 eq_refl) as (m & x & N & Q & R).
    rewrite (H m x N) in R; [discriminate|]. intros Z0. rewrite Z0 in Q. discriminate.
Qed.

(** whatever happens: no local sender is started before the server has agreed *)
Theorem C143_sender_waits : forall wrote ack l e v t a n b, start_sessions wrote ack l = (e, v, t) -> t = a ++ Began n :: b -> here l n = Some Sender -> In (Acked 0) b.
Proof.
  intros wrote ack l e v t a n b E T H. unfold start_sessions in E. destruct (wrote <? ErrOK) eqn:W; [injection E as _ _ <-; destruct a; discriminate|].
  destruct (start_those is_receiver 0 l [Wrote]) as (ok1, t1) eqn:S1. apply start_those_spec in S1. destruct S1 as (n1 & -> & A1 & _).
  assert (N1 : ~ In (Began n) (n1 ++ [Wrote])).
  { intros I. apply in_app_or in I. destruct I as [I|[I|[]]]; [|discriminate]. destruct (A1 _ I) as (m & M & Q & _). assert (n = m) by (cbn [Nat.add] in M; congruence). subst m.
    rewrite H in Q. discriminate. }
  assert (N0 : forall t', t' = n1 ++ [Wrote] -> t' = a ++ Began n :: b -> False).
  { intros t' -> X. apply N1. rewrite X. apply in_or_app. right. left. reflexivity. }
  destruct ok1; cbn [negb] in E; [|exfalso; apply (N0 t); congruence]. destruct ack as [c|]; [|exfalso; apply (N0 t); congruence]. cbv zeta in E.
  destruct (c =? 0) eqn:EA; cbn [negb] in E.
  2:{ exfalso. apply N1. assert (X : Acked c :: n1 ++ [Wrote] = a ++ Began n :: b) by congruence. destruct a as [|y a]; [discriminate|]. cbn [app] in X. injection X as _ X. rewrite X.
      apply in_or_app. right. left. reflexivity. }
  apply Z.eqb_eq in EA. subst c. destruct (start_those is_sender 0 l _) as (ok2, t2) eqn:S2. apply start_those_spec in S2. destruct S2 as (n2 & -> & A2 & _).
  assert (X : n2 ++ Acked 0 :: n1 ++ [Wrote] = a ++ Began n :: b) by (destruct ok2; cbn [negb] in E; congruence). clear - X N1.
  revert n2 X. induction a as [|y a IH]; intros n2 X; destruct n2 as [|z n2]; cbn [app] in X.
  - discriminate.
  - injection X as _ <-. apply in_or_app. right. left. reflexivity.
  - injection X as _ X. exfalso. apply N1. rewrite X. apply in_or_app. right. left. reflexivity.
  - injection X as _ X. exact (IH n2 X).
Qed.

(** (not part of C143: failure does not mean that nothing runs: local receivers are started before the answer is read, and stay started if the server refuses) *)
Example receivers_run : exists l e t, start_sessions ErrOK (Some 1) l = (e, false, t) /\ e <> ErrOK /\ times 0 t = 1%nat.
Proof. exists [Local (Some Receiver) true], ErrFATAL. eexists. split; [reflexivity|]. split; [discriminate|reflexivity]. Qed.

Example start_example : start_sessions ErrOK (Some 0) [Local (Some Sender) true; Local None false; Local (Some Receiver) true] = (ErrOK, true, [Began 0; Acked 0; Began 2; Wrote]).
Proof. reflexivity. Qed.

(** ** C144: names of sessions *)

Lemma app_split : forall {A} (a c b d : list A), length a = length c -> a ++ b = c ++ d -> a = c /\ b = d.
Proof.
  intros A. induction a as [|x a IH]; intros [|y c] b d L E; try discriminate; cbn [app] in E; [auto|]. injection E as -> E. injection L as L. destruct (IH _ _ _ L E) as (-> & ->). auto.
Qed.

(** 4 octets of the address of the receiver, 8 octets of the time, 4 octets at random *)
Theorem C144_unique : forall a1 n1 r1 a2 n2 r2 sid, is_u64 (owptime n1) -> is_u64 (owptime n2) -> length r1 = 4%nat -> length r2 = 4%nat ->
  (length (a_octets a1) = if Z.eqb (a_family a1) 10 then 16 else 4)%nat -> (length (a_octets a2) = if Z.eqb (a_family a2) 10 then 16 else 4)%nat ->
  create_sid a1 n1 (Some r1) = Some sid -> create_sid a2 n2 (Some r2) = Some sid ->
  length sid = 16%nat /\ skipn (length (a_octets a1) - 4) (a_octets a1) = skipn (length (a_octets a2) - 4) (a_octets a2) /\ owptime n1 = owptime n2 /\ r1 = r2.
Proof.
  assert (K : forall a n r sid, length r = 4%nat -> (length (a_octets a) = if Z.eqb (a_family a) 10 then 16 else 4)%nat -> is_u64 (owptime n) -> create_sid a n (Some r) = Some sid ->
    exists p, p = skipn (length (a_octets a) - 4) (a_octets a) /\ length p = 4%nat /\ sid = p ++ be_enc 8 (owptime n) ++ r).
  { intros a n r sid LR LA U C. unfold create_sid, sid_address in C. change AF_INET6 with 10 in C. rewrite encode_timestamp_be8 in C by exact U.
    destruct (a_family a =? 10) eqn:F.
    - injection C as <-. eexists. split; [reflexivity|]. rewrite LA. split; [rewrite skipn_length; lia|]. f_equal. unfold sub. apply firstn_all2. rewrite skipn_length. lia.
    - destruct (a_family a =? AF_INET); [|discriminate]. injection C as <-. eexists. split; [reflexivity|]. rewrite LA. cbn [Nat.sub skipn]. split; [exact LA|]. f_equal.
      unfold sub. cbn [skipn]. apply firstn_all2. lia. }
  intros a1 n1 r1 a2 n2 r2 sid U1 U2 L1 L2 A1 A2 C1 C2. destruct (K _ _ _ _ L1 A1 U1 C1) as (p1 & P1 & Q1 & E1). destruct (K _ _ _ _ L2 A2 U2 C2) as (p2 & P2 & Q2 & E2).
  split; [rewrite E1, !app_length, be_enc_length, Q1, L1; reflexivity|]. rewrite <- P1, <- P2. rewrite E1 in E2.
  apply app_split in E2; [|congruence]. destruct E2 as (X1 & X2). split; [exact X1|].
  apply app_split in X2; [|rewrite !be_enc_length; reflexivity]. destruct X2 as (Y1 & Y2).
  split; [|exact Y2]. apply (f_equal be_dec) in Y1. rewrite !be_dec_enc in Y1 by assumption. exact Y1.
Qed.

(** a name cannot be made without random octets, or for other families *)
Theorem C144_none : forall a n r, create_sid a n r = None <-> r = None \/ (a_family a <> 2 /\ a_family a <> 10).
Proof.
  intros a n r. unfold create_sid, sid_address, AF_INET, AF_INET6. destruct (Z.eqb_spec (a_family a) 10); [|destruct (Z.eqb_spec (a_family a) 2)]; destruct r; split; intros H; auto;
    try discriminate; destruct H as [H|(H & G)]; try discriminate; congruence.
Qed.

Example sid_example : create_sid (v6 7) (mkTS 1 0 0 0) (Some [1; 2; 3; 4]) = Some [0; 0; 0; 7; 0; 0; 0; 0; 0; 0; 0; 1; 1; 2; 3; 4].
Proof. vm_compute. reflexivity. Qed.

Print Assumptions C140_accepted.
Print Assumptions C140_refused.
Print Assumptions C140_agree_partial.
Print Assumptions C140_orphan_refuted.
Print Assumptions C140_history.
Print Assumptions C140_history_partial.
Print Assumptions C141_session.
Print Assumptions C141_incompatible.
Print Assumptions C141_candidate.
Print Assumptions C141_ports.
Print Assumptions C141_ports_receiver.
Print Assumptions C142_consent.
Print Assumptions C142_receiver_first.
Print Assumptions C142_session.
Print Assumptions C143_started.
Print Assumptions C143_when.
Print Assumptions C143_sender_waits.
Print Assumptions C144_unique.
Print Assumptions C144_none.
