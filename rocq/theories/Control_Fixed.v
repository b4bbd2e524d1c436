(** What no call on an established control connection changes: mode, direction, addresses and keys. *)
From Coq Require Import ZArith List Bool Lia.
From Verif Require Import Base Time_Model Sched_Model Wire_Model Control_Model Stop_Model Server_Model Server_Spec.
Import ListNotations.
Open Scope Z_scope.

Definition fixed (c c' : ctl) : Prop :=
  mode c' = mode c /\ twoway c' = twoway c /\ remote c' = remote c /\ local c' = local c /\ key c' = key c /\ hkey c' = hkey c.

Lemma fixed_refl : forall c, fixed c c. Proof. repeat split. Qed.
Lemma fixed_trans : forall a b c, fixed a b -> fixed b c -> fixed a c.
Proof. unfold fixed. intuition congruence. Qed.

Section S.
Variable E D H : list Z -> list Z -> list Z.

Lemma write_raw_fixed : forall c bs, fixed c (snd (write_raw c bs)).
Proof. intros. unfold write_raw. destruct (io c) as [|[|]]; repeat split. Qed.
Lemma read_raw_fixed : forall c o n, fixed c (snd (read_raw c o n)).
Proof. intros. unfold read_raw. destruct (io c) as [|[|]]; repeat split. Qed.
Lemma send_fixed : forall c o n, fixed c (snd (send_blocks E c o n)).
Proof.
  intros. unfold send_blocks. destruct (ciphers c); [|apply write_raw_fixed].
  destruct (cbc_enc _ _ _ _ _). eapply fixed_trans; [|apply write_raw_fixed]. repeat split.
Qed.
Lemma recv_fixed : forall c o n, fixed c (snd (recv_blocks D c o n)).
Proof.
  intros. unfold recv_blocks. pose proof (read_raw_fixed c o (16 * n)) as R. destruct (read_raw c o (16 * n)) as [[| |] c1]; auto.
  destruct (ciphers c1); auto. destruct (cbc_dec _ _ _ _ _). exact R.
Qed.
Lemma shm_add_fixed : forall c o n, fixed c (shm_add c o n).
Proof. intros. unfold shm_add. destruct (ciphers c); repeat split. Qed.
Lemma rhm_add_fixed : forall c o n, fixed c (rhm_add c o n).
Proof. intros. unfold rhm_add. destruct (ciphers c); repeat split. Qed.
Lemma shm_digest_fixed : forall c o, fixed c (shm_digest H c o).
Proof. intros. unfold shm_digest. destruct (ciphers c); repeat split. Qed.
Lemma rhm_check_fixed : forall c o, fixed c (snd (rhm_check H c o)).
Proof. intros. unfold rhm_check. destruct (ciphers c); repeat split. Qed.
Lemma set_fixed : forall c x, fixed c (set_st c x). Proof. repeat split. Qed.
Lemma msg_fixed : forall c x, fixed c (set_msg c x). Proof. repeat split. Qed.
Lemma shm_fixed : forall c x, fixed c (set_shm c x). Proof. repeat split. Qed.
Lemma wiv_fixed : forall c x, fixed c (set_wiv c x). Proof. repeat split. Qed.

(** one step: everything in the context that ends in a primitive is traced back *)
Ltac fx1 :=
  match goal with
  | |- fixed ?c ?c => apply fixed_refl
  | A : fixed ?c ?d |- fixed ?c ?d => exact A
  | |- fixed ?c (set_st ?d _) => apply (fixed_trans c d); [|apply set_fixed]
  | |- fixed ?c (invalid ?d) => apply (fixed_trans c d); [|apply set_fixed]
  | |- fixed ?c (or_st ?d _) => apply (fixed_trans c d); [|apply set_fixed]
  | |- fixed ?c (clr_st ?d _) => apply (fixed_trans c d); [|apply set_fixed]
  | |- fixed ?c (set_msg ?d _) => apply (fixed_trans c d); [|apply msg_fixed]
  | |- fixed ?c (set_shm ?d _) => apply (fixed_trans c d); [|apply shm_fixed]
  | |- fixed ?c (set_wiv ?d _) => apply (fixed_trans c d); [|apply wiv_fixed]
  | |- fixed ?c (shm_add ?d _ _) => apply (fixed_trans c d); [|apply shm_add_fixed]
  | |- fixed ?c (rhm_add ?d _ _) => apply (fixed_trans c d); [|apply rhm_add_fixed]
  | |- fixed ?c (shm_digest H ?d _) => apply (fixed_trans c d); [|apply shm_digest_fixed]
  | |- fixed ?c (snd (send_blocks E ?d _ _)) => apply (fixed_trans c d); [|apply send_fixed]
  | |- fixed ?c (snd (recv_blocks D ?d _ _)) => apply (fixed_trans c d); [|apply recv_fixed]
  | |- fixed ?c (snd (rhm_check H ?d _)) => apply (fixed_trans c d); [|apply rhm_check_fixed]
  | |- fixed ?c (snd (write_raw ?d _)) => apply (fixed_trans c d); [|apply write_raw_fixed]
  | A : send_blocks E ?d ?o ?n = (?r, ?e) |- fixed ?c ?e => replace e with (snd (send_blocks E d o n)) by (now rewrite A)
  | A : recv_blocks D ?d ?o ?n = (?r, ?e) |- fixed ?c ?e => replace e with (snd (recv_blocks D d o n)) by (now rewrite A)
  | A : rhm_check H ?d ?o = (?r, ?e) |- fixed ?c ?e => replace e with (snd (rhm_check H d o)) by (now rewrite A)
  | A : write_raw ?d ?o = (?r, ?e) |- fixed ?c ?e => replace e with (snd (write_raw d o)) by (now rewrite A)
  | A : fixed ?d ?e |- fixed ?c ?e => apply (fixed_trans c d); [|exact A]
  end.
Ltac fx := repeat fx1.
(** splits the innermost match of the goal *)
Ltac brk :=
  repeat match goal with
  | |- context [match ?x with _ => _ end] =>
      lazymatch x with
      | context [match _ with _ => _ end] => fail
      | _ => destruct x eqn:?
      end
  end; cbn [fst snd].

Lemma read_type_fixed : forall c, fixed c (snd (read_request_type D c)).
Proof. intros. unfold read_request_type. brk; fx. Qed.

Lemma read_slots_loop_fixed : forall n c k, fixed c (snd (read_slots_loop D c n k)).
Proof.
  induction n; intros c k; cbn [read_slots_loop]; [apply fixed_refl|].
  destruct (recv_blocks D c 0 1) as [[| |] c1] eqn:R; cbn [snd]; [|fx|fx].
  match goal with |- context [read_slots_loop D ?a n k] => pose proof (IHn a k) as I; destruct (read_slots_loop D a n k) as [[l|] c2]; cbn [snd] in I end;
  brk; try (eapply fixed_trans; [|exact I]); fx.
Qed.

Lemma read_slots_fixed : forall c n k, fixed c (snd (read_slots D H c n k)).
Proof.
  intros. unfold read_slots.
  match goal with |- context [read_slots_loop D ?a ?b k] => pose proof (read_slots_loop_fixed b a k) as I; destruct (read_slots_loop D a b k) as [[l|] c2]; cbn [snd] in I end;
  brk; fx.
Qed.

Lemma read_test_fixed : forall c sv al sl, fixed c (snd (read_test_request D H c sv al sl)).
Proof.
  intros. unfold read_test_request.
  destruct (negb _); [apply fixed_refl|].
  destruct (if sv then (IODone, c) else recv_blocks D c 0 1) as [r0 c0] eqn:R0.
  assert (fixed c c0). { destruct sv; [inversion R0; fx|fx]. } clear R0.
  destruct r0; cbn [snd]; [|fx|fx].
  destruct (recv_blocks D c0 16 6) as [[| |] c1] eqn:R1; cbn [snd]; [|fx|fx].
  destruct (rhm_check H (rhm_add c1 0 6) 96) as [b c2] eqn:R2. destruct (negb b); cbn [snd]; [fx|].
  destruct (decode_preamble _ _ _ _ _) as [p| |]; cbn [snd]; [|fx|fx].
  destruct (negb _); cbn [snd]; [fx|]. destruct (negb _); cbn [snd]; [fx|]. destruct (negb al); cbn [snd]; [fx|].
  destruct (twoway _); cbn [snd]; [fx|].
  match goal with |- context [read_slots D H ?a ?b ?k] => pose proof (read_slots_fixed a b k) as I; destruct (read_slots D H a b k) as [[l|] c3]; cbn [snd] in I end;
  brk; fx.
Qed.

Lemma write_accept_fixed : forall c a p s, fixed c (snd (write_accept E H c a p s)).
Proof. intros. unfold write_accept. brk; fx. Qed.
Lemma read_start_fixed : forall c, fixed c (snd (read_start D H c)).
Proof. intros. unfold read_start. brk; fx. Qed.
Lemma write_start_ack_fixed : forall c a, fixed c (snd (write_start_ack E H c a)).
Proof. intros. unfold write_start_ack. brk; fx. Qed.
Lemma read_fetch_fixed : forall c, fixed c (snd (read_fetch D H c)).
Proof. intros. unfold read_fetch. brk; fx. Qed.
Lemma write_fetch_ack_fixed : forall c a b d e f, fixed c (snd (write_fetch_ack E H c a b d e f)).
Proof. intros. unfold write_fetch_ack. brk; fx. Qed.
Lemma unexpected_fixed : forall c, fixed c (snd (unexpected_request E H c)).
Proof.
  intros. unfold unexpected_request. brk; fx.
  all: try (match goal with A : write_accept E H ?a ?b ?d ?e = (_, ?x) |- _ => pose proof (write_accept_fixed a b d e) as K; rewrite A in K; cbn [snd] in K end; fx).
Qed.

Lemma send_sid_fixed : forall c sid, fixed c (snd (send_sid E c sid)).
Proof. intros. unfold send_sid. brk; fx. Qed.
Lemma write_skip_blocks_fixed : forall n c f, fixed c (snd (write_skip_blocks E c n f)).
Proof.
  induction n; intros c f; cbn [write_skip_blocks]; [apply fixed_refl|]. destruct (length f <? 16)%nat; cbn [snd]; [fx|].
  destruct (send_blocks E _ 0 1) as [[| |] c1] eqn:S; cbn [snd]; [|fx|fx]. eapply fixed_trans; [|apply IHn]. fx.
Qed.
Lemma write_skips_fixed : forall c n f, fixed c (snd (write_skips E c n f)).
Proof.
  intros. unfold write_skips. destruct (n <? 0); cbn [snd]; [fx|].
  pose proof (write_skip_blocks_fixed (Z.to_nat (n / 16)) c f) as I. destruct (write_skip_blocks E c (Z.to_nat (n / 16)) f) as [[r|] c1]; cbn [snd] in *; brk; fx.
Qed.
Lemma write_stop_sessions_fixed : forall ts c, fixed c (snd (write_stop_sessions E c ts)).
Proof.
  induction ts as [|t ts IH]; intros c; cbn [write_stop_sessions]; [apply fixed_refl|].
  destruct (t_end t) as [e|]. 2:{ specialize (IH c). destruct (write_stop_sessions E c ts) as [[b r] c1]. exact IH. }
  destruct (negb (e_send e)). { specialize (IH c). destruct (write_stop_sessions E c ts) as [[b r] c1]. exact IH. }
  set (c0 := if ciphers c then _ else c). assert (K: fixed c c0) by (unfold c0; destruct (ciphers c); fx). clearbody c0.
  pose proof (send_sid_fixed c0 (t_sid t)) as S. destruct (send_sid E c0 (t_sid t)) as [[[| |] x] c1]; cbn [snd] in *; [|fx|fx].
  pose proof (write_skips_fixed c1 (e_size e) (e_skips e)) as W. destruct (write_skips E c1 (e_size e) (e_skips e)) as [[|] c2]; cbn [snd] in *; [|fx].
  specialize (IH c2). destruct (write_stop_sessions E c2 ts) as [[b r] c3]. cbn [snd] in *. fx.
Qed.
Lemma write_stop_fixed : forall c a n ts, fixed c (snd (write_stop E H c a n ts)).
Proof.
  intros. unfold write_stop. destruct (negb _); [apply fixed_refl|].
  set (c0 := shm_add _ 0 1). assert (K: fixed c c0) by (unfold c0; fx). clearbody c0.
  destruct (twoway c0); [brk; fx|].
  destruct (send_blocks E c0 0 1) as [[| |] c1] eqn:S; cbn [snd]; [|fx|fx].
  pose proof (write_stop_sessions_fixed ts c1) as W. destruct (write_stop_sessions E c1 ts) as [[[|] r] c2]; cbn [snd] in *; [|fx]. brk; fx.
Qed.
Lemma read_skips_fixed : forall n c o p, fixed c (snd (read_skips D c n o p)).
Proof.
  induction n; intros c o p; cbn [read_skips]; [apply fixed_refl|].
  set (q := if o then (IODone, c) else _). assert (K: fixed c (snd q)).
  { unfold q. destruct o; [apply fixed_refl|]. destruct (recv_blocks D c 0 1) as [[| |] c1] eqn:R; cbn [snd]; fx. }
  clearbody q. destruct q as [[| |] c1]; cbn [snd] in *; [|fx|fx].
  destruct (_ <? _); cbn [snd]; [fx|]. destruct (negb _ && _); cbn [snd]; [fx|].
  specialize (IHn c1 (negb o) p). destruct (read_skips D c1 n (negb o) p) as [[ok w] c2]. cbn [snd] in *. fx.
Qed.
Variable clean : list Z -> Z -> bool.
Variable save : list Z -> bool.
Lemma read_stop_sessions_fixed : forall n c ts rv bh, fixed c (snd (read_stop_sessions D clean save c n ts rv bh)).
Proof.
  induction n; intros c ts rv bh; cbn [read_stop_sessions]; [apply fixed_refl|].
  destruct (recv_blocks D c 0 1) as [[| |] c1] eqn:R1; cbn [snd]; [|fx|fx].
  destruct (find_receiver _ _) as [[[t rv'] bh']|]; cbn [snd]; [|fx].
  destruct (recv_blocks D (rhm_add c1 0 1) 0 1) as [[| |] c2] eqn:R2; cbn [snd]; [|fx|fx].
  destruct (negb (clean _ _)); cbn [snd]; [fx|].
  match goal with |- context [read_skips D ?a ?b ?o ?p] => pose proof (read_skips_fixed b a o p) as K; destruct (read_skips D a b o p) as [[ok w] c3]; cbn [snd] in K end.
  destruct (negb ok); cbn [snd]; [fx|]. destruct (_ && _); cbn [snd]; [fx|]. destruct (negb (save _)); cbn [snd]; [fx|].
  specialize (IHn c3 (t :: ts) rv' bh'). destruct (read_stop_sessions D clean save c3 n (t :: ts) rv' bh') as [[[[[b ts2] rv2] bh2] fs] c4].
  cbn [snd] in *. fx.
Qed.
Lemma read_stop_fixed : forall c ts, fixed c (snd (read_stop D H clean save c ts)).
Proof.
  intros. unfold read_stop. destruct (negb _); [apply fixed_refl|]. destruct (_ =? CNTRL_INVALID); cbn [snd]; [fx|].
  destruct (twoway _).
  { destruct (negb _); cbn [snd]; [fx|]. brk; fx. }
  destruct (pull_receivers ts []) as [[sd|] rv]; cbn [snd]; [|fx].
  match goal with |- context [read_stop_sessions D clean save ?a ?b ?x ?y ?z] => pose proof (read_stop_sessions_fixed b a x y z) as K;
    destruct (read_stop_sessions D clean save a b x y z) as [[[[[ok ts2] rv2] bh2] fs] c1]; cbn [snd] in K end.
  destruct (negb ok); cbn [snd]; [fx|]. destruct bh2; cbn [snd]; [|fx].
  destruct (recv_blocks D c1 0 1) as [[| |] c2] eqn:R; cbn [snd]; [|fx|fx]. destruct (rhm_check H c2 0) as [[|] c3] eqn:C; cbn [snd]; fx.
Qed.
Lemma stop_finish_fixed : forall w e a r fs c, fixed c (snd (stop_finish w e a r fs c)).
Proof. intros. unfold stop_finish. brk; fx. Qed.
Lemma wait_finish_fixed : forall sv w e a n r ts fs c, fixed c (snd (wait_finish E H sv w e a n r ts fs c)).
Proof.
  intros. unfold wait_finish. destruct (_ && _ && _).
  - match goal with |- context [write_stop E H ?c ?a ?n ?ts] => pose proof (write_stop_fixed c a n ts) as K; destruct (write_stop E H c a n ts) as [[e2 t2] c2]; cbn [snd] in K end.
    brk; fx.
  - brk; fx.
Qed.
Lemma stop_fixed : forall c sv a ts w, fixed c (snd (stop_sessions E D H clean save c sv a ts w)).
Proof.
  intros. unfold stop_sessions.
  assert (SF: forall x e a2 r fs d, fixed x d -> fixed x (snd (stop_finish w e a2 r fs d))) by (intros; eapply fixed_trans; [eassumption|apply stop_finish_fixed]).
  destruct (stop_send _ _ _ _ _) as [[[err av] num] ts1]. destruct (err <? ErrWARNING); [apply SF; fx|].
  pose proof (write_stop_fixed c av num ts1) as K. destruct (write_stop E H c av num ts1) as [[e2 ts2] c1]. cbn [snd] in K.
  assert (CU: forall e a2 r t2 d, fixed c d -> fixed c (snd (
     let err := Z.min (sw_recv w) e in let aval := if a2 =? CNTRL_ACCEPT then sw_aval w else a2 in
     if err <? ErrWARNING then stop_finish w err aval r [] d else
     if r then let '(e, a, _, files, c) := read_stop D H clean save d t2 in stop_finish w (Z.min e err) a true files c
     else stop_finish w (if sw_clean w then err else ErrFATAL) aval false [] d))).
  { intros e a2 r t2 d FD. cbv zeta. destruct (_ <? ErrWARNING); [apply SF; fx|]. destruct r; [|apply SF; fx].
    pose proof (read_stop_fixed d t2) as Q. destruct (read_stop D H clean save d t2) as [[[[? ?] ?] ?] d2]. cbn [snd] in Q. apply SF. fx. }
  cbv zeta in CU. destruct (_ <? ErrWARNING) in |- * at 1; [apply (CU (Z.min e2 err) av false ts2 c1); exact K|].
  destruct (twoway c1 && negb sv); [apply (CU (Z.min e2 err) av false ts2 c1); exact K|].
  pose proof (read_type_fixed c1) as RT. destruct (read_request_type D c1) as [t c2]. cbn [snd] in RT.
  assert (fixed c c2) by fx.
  destruct (t =? 3); [apply (CU (Z.min e2 err) av true ts2 c2); assumption|].
  destruct (_ || _); [apply (CU (Z.min e2 err) av false ts2 c2); assumption|]. apply SF. fx.
Qed.
Lemma stop_wait_fixed : forall c sv ts w, fixed c (snd (stop_wait E D H clean save c sv ts w)).
Proof.
  intros. unfold stop_wait.
  assert (WF: forall x e a2 n r t fs d, fixed x d -> fixed x (snd (wait_finish E H sv w e a2 n r t fs d))) by (intros; eapply fixed_trans; [eassumption|apply wait_finish_fixed]).
  pose proof (read_type_fixed c) as RT. destruct (read_request_type D c) as [t c2]. cbn [snd] in RT.
  destruct (_ && _ && _); [apply WF; fx|]. destruct (_ || _ || _); [|apply WF; fx].
  destruct (stop_send _ _ _ _ _) as [[[err av] num] ts1]. destruct (err <? ErrWARNING); [apply WF; fx|].
  destruct (_ <? ErrWARNING); [apply WF; fx|].
  destruct (_ && (t =? 3)); [|apply WF; fx].
  pose proof (read_stop_fixed c2 ts1) as Q. destruct (read_stop D H clean save c2 ts1) as [[[[? ?] ?] ?] d2]. cbn [snd] in Q. apply WF. fx.
Qed.
End S.
