(** Properties C107 and C108: the privileges of the daemon.

    Vocabulary: Priv_Spec.v; [creds], [environment], [options] and the system calls in Priv_Model.v. *)
From Coq Require Import ZArith List Bool Lia ZifyBool String.
From Verif Require Import Base Options_Spec Config_Spec Priv_Model Priv_Spec Priv_Proofs.
Import ListNotations.
Open Scope Z_scope.

(** ** C107: the daemon serves connections without the privileges of root *)
(** Started by root without rootfolly, whatever fails, the daemon serves connections only if a user was named, with all three user ids not 0 *)
Theorem C107_user_given_up : forall e o c c', started_by_root c -> allowroot o = false -> start e o c = Some c' ->
  user o <> None /\ ruid c' <> 0 /\ euid c' = ruid c' /\ suid c' = ruid c'.
Proof.
  intros e o c c' (A & B & _) W E. destruct (start_ids e o c c' A B E) as (u & g & X & Y & _). destruct (wanted_user _ _ _ _ X W) as (U & s & US & _).
  destruct (Z.eqb_spec u 0); [contradiction|]. destruct Y as (Y1 & Y2 & Y3). rewrite Y1, Y2, Y3. split; [congruence|auto].
Qed.

(** and no sequence of system calls makes it root again *)
Theorem C107_no_way_back : forall e o c c' l, started_by_root c -> allowroot o = false -> start e o c = Some c' -> euid (attempts c' l) <> 0 /\ ruid (attempts c' l) <> 0.
Proof.
  intros e o c c' l R W E. destruct (C107_user_given_up e o c c' R W E) as (_ & U & B & C).
  destruct (stuck_ids l c' (ruid c') U eq_refl B C) as (D1 & D2 & _). rewrite D1, D2. auto.
Qed.

(** If a group was named, too, the same is true of the three group ids.  Missing: without group option, and the supplementary groups, refuted below *)
Theorem C107_group_given_up_partial : forall e o c c' l, started_by_root c -> allowroot o = false -> group o <> None -> start e o c = Some c' ->
  rgid c' <> 0 /\ egid c' = rgid c' /\ sgid c' = rgid c' /\ egid (attempts c' l) <> 0.
Proof.
  intros e o c c' l R W G E. destruct (C107_user_given_up e o c c' R W E) as (_ & U & B & C). destruct R as (R1 & R2 & _).
  destruct (start_ids e o c c' R1 R2 E) as (u & g & X & _ & Y & _). pose proof (wanted_group _ _ _ _ X) as WG. destruct (group o) as [s|]; [|congruence]. destruct WG as (N & _).
  destruct (Z.eqb_spec g 0); [contradiction|]. destruct Y as (Y1 & Y2 & Y3).
  destruct (stuck_gids l c' (ruid c') g U eq_refl B C Y1 Y2 Y3) as (_ & D & _). rewrite D. repeat split; congruence.
Qed.

(** the databases of the examples: the user and the group owamp have the number 1000 *)
Definition owamp_db : database := Database (fun s => if Options_Model.same_name s (chars "owamp") then Some 1000 else None) (fun n => n =? 1000).
Definition env (errno : Z) : environment := Environment owamp_db owamp_db errno errno true true true true true true.
Definition root_shell : creds := Creds 0 0 0 0 0 0 [0; 1; 2].

(** Without group option the daemon serves connections as group 0 *)
Theorem C107_group_of_root_refuted :
  (exists e o c c', started_by_root c /\ allowroot o = false /\ start e o c = Some c' /\ egid c' = 0) /\
  forall e o c c', started_by_root c -> group o = None -> start e o c = Some c' -> rgid c' = 0 /\ egid c' = 0 /\ sgid c' = 0.
Proof.
  split. { exists (env 0), (Options (Some (chars "owamp")) None false), root_shell. eexists. repeat split; vm_compute; reflexivity. }
  intros e o c c' (A & B & _ & G1 & G2 & G3) G E. destruct (start_ids e o c c' A B E) as (u & g & X & _ & Y & _). pose proof (wanted_group _ _ _ _ X) as WG. rewrite G in WG. subst g.
  destruct Y as (-> & -> & ->). auto.
Qed.

(** Whatever the options are, it keeps all supplementary groups of root *)
Theorem C107_supplementary_groups_refuted :
  (exists e o c c', started_by_root c /\ allowroot o = false /\ group o <> None /\ start e o c = Some c' /\ In 0 (groups c')) /\
  forall e o c c', started_by_root c -> start e o c = Some c' -> groups c' = groups c.
Proof.
  split.
  { exists (env 0), (Options (Some (chars "owamp")) (Some (chars "owamp")) false), root_shell, (Creds 1000 1000 1000 1000 1000 1000 [0; 1; 2]).
    repeat split; try discriminate; try (vm_compute; reflexivity). left. reflexivity. }
  intros e o c c' (A & B & _) E. destruct (start_ids e o c c' A B E) as (u & g & _ & _ & _ & Y). exact Y. Qed.

(** If the program is set-user-id root and a user starts it with -U and the own name, the saved user id stays 0: the daemon can become root again *)
Theorem C107_set_user_id_refuted : exists e o c c', ruid c = 1000 /\ euid c = 0 /\ suid c = 0 /\ allowroot o = false /\ start e o c = Some c' /\ euid c' = 1000 /\
  euid (attempts c' [Seteuid 0]) = 0.
Proof.
  exists (env 0), (Options (Some (chars "owamp")) None false), (Creds 1000 0 0 1000 1000 1000 [1000]). eexists. repeat split; vm_compute; reflexivity.
Qed.

(** a start that succeeds, with all its groups kept *)
Example C107_met : started_by_root root_shell /\
  start (env 0) (Options (Some (chars "owamp")) (Some (chars "owamp")) false) root_shell = Some (Creds 1000 1000 1000 1000 1000 1000 [0; 1; 2]) /\
  start (env 0) (Options (Some (chars "owamp")) None false) root_shell = Some (Creds 1000 1000 1000 0 0 0 [0; 1; 2]) /\
  start (env 0) (Options None None false) root_shell = None.
Proof. repeat split; vm_compute; reflexivity. Qed.

(** ** C108: the user and group options mean what they say *)
(** If errno happens to be 0 the daemon serves connections as the user and group that the options denote, by name or by number.  Missing: errno, and options that denote nothing, refuted below *)
Theorem C108_denoted_partial : forall e o c c' s u, started_by_root c -> user o = Some s -> denotes (users e) s u -> u <> 0 -> errno1 e = 0 -> errno2 e = 0 -> start e o c = Some c' ->
  ruid c' = u /\ euid c' = u /\ suid c' = u /\
  forall t g, group o = Some t -> denotes (grps e) t g -> rgid c' = g /\ egid c' = g /\ sgid c' = g.
Proof.
  intros e o c c' s u (A & B & _) US D U N1 N2 E. destruct (start_ids e o c c' A B E) as (u' & g' & X & Y & Y' & _).
  assert (W : u' = u).
  { unfold wanted in X. rewrite US, N1, (option_id_ok _ _ _ D) in X. destruct ((u =? 0) && negb (allowroot o)); [discriminate|].
    destruct (group o) as [t|]; [destruct (option_id (grps e) (errno2 e) t) as [h|]; [|discriminate]; destruct (h =? 0); [discriminate|]|]; congruence. }
  subst u'. destruct (Z.eqb_spec u 0); [contradiction|]. destruct Y as (Y1 & Y2 & Y3). repeat split; try assumption;
  (pose proof (wanted_group _ _ _ _ X) as WG; rewrite H in WG; destruct WG as (G & WG); rewrite N2, (option_id_ok _ _ _ H0) in WG; injection WG as <-;
   destruct (Z.eqb_spec g 0); [contradiction|]; tauto).
Qed.

(** If all is well the daemon starts *)
Theorem C108_starts_partial : forall e o c s u, started_by_root c -> user o = Some s -> denotes (users e) s u -> u <> 0 -> group o = None -> errno1 e = 0 ->
  ok2 e = true -> ok3 e = true -> ok6 e = true -> exists c', start e o c = Some c'.
Proof.
  intros e o [ru eu su rg eg sg gs] s u (A & B & C & _) US D U G N1 O2 O3 O6. cbn [ruid euid suid] in A, B, C. subst ru eu su.
  unfold start, wanted. rewrite US, N1, (option_id_ok _ _ _ D), G. cbn [euid]. destruct (Z.eqb_spec u 0); [contradiction|].
  change (0 =? 0) with true. unfold when, andthen, seteuid, setuid. rewrite O2, O3, O6. cbn [negb andb orb ruid euid suid rgid egid sgid groups].
  repeat (match goal with |- context [if ?b then _ else _] => destruct b eqn:? end; cbn [negb andb orb ruid euid suid rgid egid sgid groups]); eauto; exfalso; lia.
Qed.

(** A number is refused if errno is not 0 for any reason, for example because getpwnam found nothing: nothing sets errno to 0 before *)
Theorem C108_stale_errno_refuted : exists e o c, started_by_root c /\ user o = Some (chars "-1000") /\ denotes (users e) (chars "-1000") 1000 /\
  ok1 e = true /\ ok2 e = true /\ ok3 e = true /\ ok4 e = true /\ ok5 e = true /\ ok6 e = true /\ start e o c = None.
Proof.
  exists (env 2), (Options (Some (chars "-1000")) None false), root_shell. repeat split; try reflexivity. right. split; [reflexivity|]. exists (chars "1000").
  split; [reflexivity|]. split; [split; [discriminate|repeat constructor; cbn; lia]|]. repeat split; reflexivity.
Qed.

(** A number with text behind it, and one that is too large, are accepted: the daemon runs as user 1000 *)
Theorem C108_not_a_number_refuted : forall s, In s [chars "-1000x"; chars "-4294968296"] -> (forall u, ~ denotes (users (env 0)) s u) /\
  exists c', start (env 0) (Options (Some s) None false) root_shell = Some c' /\ euid c' = 1000.
Proof.
  intros s [<-|[<-|[]]].
  - split; [|eexists; split; vm_compute; reflexivity]. intros u [H|(_ & t & H & N & _)]; [discriminate|]. injection H as <-. destruct N as (_ & N).
    repeat match goal with N : Forall _ (_ :: _) |- _ => inversion N; clear N; subst end. lia.
  - split; [|eexists; split; vm_compute; reflexivity]. intros u [H|(_ & t & H & N & V & L & _)]; [discriminate|]. injection H as <-. vm_compute in V. subst u. lia.
Qed.

(** a user by number *)
Example C108_met : exists c', start (env 0) (Options (Some (chars "-1000")) (Some (chars "owamp")) false) root_shell = Some c' /\ euid c' = 1000 /\ egid c' = 1000.
Proof. eexists. repeat split; vm_compute; reflexivity. Qed.

Print Assumptions C107_user_given_up.
Print Assumptions C107_no_way_back.
Print Assumptions C107_group_given_up_partial.
Print Assumptions C107_group_of_root_refuted.
Print Assumptions C107_supplementary_groups_refuted.
Print Assumptions C107_set_user_id_refuted.
Print Assumptions C108_denoted_partial.
Print Assumptions C108_starts_partial.
Print Assumptions C108_stale_errno_refuted.
Print Assumptions C108_not_a_number_refuted.
