(** Property theorems about the start of the programs: C134 (one server per run directory), C135 (one powstream per directory), C136 (paths fit), C137 (relative directories),
    C138 (options of powstream), C139 (files of powstream are complete) *)
From Coq Require Import ZArith List Bool Lia Arith.
From Verif Require Import Base BaseLemmas Ping_Model Ping_Proofs Datadir_Model Datadir_Spec Datadir_Proofs Start_Model.
Import ListNotations.
Open Scope Z_scope.

(** ** Processes and the lock *)

Record inv (s : procs) : Prop := {
  i_ids : NoDup (map p_id (alive s));
  i_prog : forall p, In p (alive s) -> p_prog p <> Daemon /\ p_phase p <> Child /\ forall c, p_phase p <> Parent c;
  i_lock : forall p, In p (alive s) -> p_phase p <> Begin -> holder s = Some (p_id p);
  i_file : forall p, In p (alive s) -> p_phase p = Recorded \/ p_phase p = Working -> written s = Some (p_id p);
  i_held : forall h, holder s = Some h -> exists p, In p (alive s) /\ p_id p = h /\ p_phase p <> Begin }.

Lemma others_in : forall n l p, In p (others n l) <-> In p l /\ p_id p <> n.
Proof.
  intros n l p. unfold others. rewrite filter_In. split; intros (A & B); (split; [exact A|]).
  - intros E. rewrite E, Nat.eqb_refl in B. discriminate.
  - destruct (Nat.eqb_spec (p_id p) n); [contradiction|reflexivity].
Qed.
Lemma others_ids : forall n l, NoDup (map p_id l) -> NoDup (map p_id (others n l)).
Proof.
  intros n. induction l as [|p l IH]; intros N; [constructor|]. inversion N as [|x y NI N']; subst. cbn [others filter]. destruct (negb _); [|apply IH; exact N'].
  cbn [map]. constructor; [|apply IH; exact N']. intros I. apply NI. apply in_map_iff in I. destruct I as (q & E & I). apply others_in in I. rewrite <- E. apply in_map. apply I.
Qed.
Lemma others_not : forall n l, ~ In n (map p_id (others n l)).
Proof. intros n l I. apply in_map_iff in I. destruct I as (q & E & I). apply others_in in I. destruct I. contradiction. Qed.
Lemma same_id : forall l p q, NoDup (map p_id l) -> In p l -> In q l -> p_id p = p_id q -> p = q.
Proof.
  induction l as [|x l IH]; intros p q N I J E; [destruct I|]. inversion N as [|y m NI N']; subst. destruct I as [<-|I], J as [<-|J]; [reflexivity| | |apply IH; assumption].
  - exfalso. apply NI. rewrite E. apply in_map. exact J.
  - exfalso. apply NI. rewrite <- E. apply in_map. exact I.
Qed.
Lemma inv_ends : forall n s w, inv s -> (w = written s \/ forall p, In p (alive s) -> p_phase p = Recorded \/ p_phase p = Working -> p_id p = n) ->
  inv (ends n (Procs (holder s) w (alive s))).
Proof.
  intros n s w [I1 I2 I3 I4 I5] W. constructor; cbn [ends holder written alive].
  - apply others_ids, I1.
  - intros p J. apply others_in in J. apply I2, J.
  - intros p J B. apply others_in in J. destruct J as (J & N). rewrite (I3 p J B). destruct (Nat.eqb_spec (p_id p) n); [contradiction|reflexivity].
  - intros p J B. apply others_in in J. destruct J as (J & N). destruct W as [->|W]; [apply I4; assumption|]. exfalso. apply N, W; assumption.
  - intros h E. destruct (holder s) as [k|] eqn:H; [|discriminate]. destruct (Nat.eqb_spec k n) as [|NE]; [discriminate|]. injection E as <-. destruct (I5 _ eq_refl) as (p & A & B & C).
    exists p. split; [apply others_in; split; [exact A|congruence]|auto].
Qed.
Lemma inv_ends' : forall n s, inv s -> inv (ends n s).
Proof. intros n s I. exact (inv_ends n s (written s) I (or_introl eq_refl)). Qed.
(** a process that has the lock moves on *)
Lemma inv_goes : forall p s ph h w, inv s -> In p (alive s) -> ph = Locked \/ ph = Recorded \/ ph = Working ->
  (holder s = Some (p_id p) \/ holder s = None) -> h = Some (p_id p) -> (ph = Locked \/ w = Some (p_id p)) ->
  inv (goes p ph (Procs h w (alive s))).
Proof.
  intros p s ph h w [I1 I2 I3 I4 I5] J PH HO -> W.
  assert (B : forall q, In q (others (p_id p) (alive s)) -> p_phase q = Begin).
  { intros q K. apply others_in in K. destruct K as (K & N). destruct (p_phase q) eqn:Q; [reflexivity| | | | |];
      (assert (X : holder s = Some (p_id q)) by (apply I3; [exact K|congruence]); destruct HO as [HO|HO]; congruence). }
  constructor; cbn [goes holder written alive map p_id].
  - constructor; [apply others_not|apply others_ids, I1].
  - intros q [<-|K]; cbn [p_prog p_phase]; [split; [apply (I2 p J)|destruct PH as [->|[->| ->]]; split; congruence]|]. apply others_in in K. apply I2, K.
  - intros q [<-|K] N; [reflexivity|]. apply B in K. contradiction.
  - intros q [<-|K] N; cbn [p_phase] in N; [destruct W as [->|W]; [destruct N; discriminate|exact W]|]. apply B in K. destruct N; congruence.
  - intros h' E. injection E as <-. eexists. split; [left; reflexivity|]. cbn [p_id p_phase]. split; [reflexivity|]. destruct PH as [->|[->| ->]]; discriminate.
Qed.
Lemma inv_happen : forall e s, (forall n g a, e = Starts n g a -> g <> Daemon) -> inv s -> inv (happen s e).
Proof.
  intros e s NG I. destruct e as [n g a|n ok child|n]; cbn [happen].
  - destruct (is_alive n s) eqn:A; [exact I|]. destruct I as [I1 I2 I3 I4 I5]. constructor; cbn [holder written alive map p_id].
    + constructor; [|exact I1]. intros J. apply in_map_iff in J. destruct J as (q & E & J). assert (T : is_alive n s = true) by (apply existsb_exists; exists q; split; [exact J|rewrite E; apply Nat.eqb_refl]). congruence.
    + intros p [<-|J]; [cbn [p_prog p_phase]; split; [eapply NG; reflexivity|split; discriminate]|apply I2, J].
    + intros p [<-|J] B; [contradiction|apply I3; assumption].
    + intros p [<-|J] B; [destruct B; discriminate|apply I4; assumption].
    + intros h E. destruct (I5 h E) as (p & J & B). exists p. split; [right; exact J|exact B].
  - destruct (find _ _) as [p|] eqn:F; [|exact I]. apply find_some in F. destruct F as (J & E). apply Nat.eqb_eq in E. subst n.
    destruct (i_prog s I p J) as (N1 & N2 & N3). unfold advance.
    assert (REC : forall ph, p_phase p = Recorded -> ph = Working -> inv (goes p ph s)).
    { intros ph R ->. destruct s as (h, w, al). apply (inv_goes p (Procs h w al) Working h w I J); [auto| | |]; cbn [holder written] in *.
      - left. apply (i_lock _ I p J). congruence.
      - apply (i_lock _ I p J). congruence.
      - right. apply (i_file _ I p J). auto. }
    destruct (p_phase p) eqn:PH; [| |exfalso; now apply (N3 child0)|contradiction| |exact I].
    + destruct (ok && _) eqn:O; [|apply inv_ends', I]. apply inv_goes; auto. apply andb_prop in O. destruct O as (_ & O). destruct (holder s) as [h|]; [|now right]. apply Nat.eqb_eq in O. left. congruence.
    + assert (HO : holder s = Some (p_id p)) by (apply (i_lock _ I p J); congruence).
      assert (G : inv (if ok then goes p Recorded (Procs (holder s) (Some (p_id p)) (alive s)) else ends (p_id p) (Procs (holder s) None (alive s)))).
      { destruct ok; [apply inv_goes; auto|]. apply inv_ends; [exact I|]. right. intros q K B. assert (X : holder s = Some (p_id q)) by (apply (i_lock _ I q K); destruct B; congruence). congruence. }
      destruct (p_prog p); [contradiction|exact G|exact G].
    + destruct (p_prog p); [contradiction|destruct (_ && _); [apply REC; reflexivity|apply inv_ends', I]|destruct ok; [apply REC; reflexivity|apply inv_ends', I]].
  - apply inv_ends', I.
Qed.
Lemma inv_history : forall l, (forall n g a, In (Starts n g a) l -> g <> Daemon) -> inv (history l).
Proof.
  intros l. unfold history. assert (I0 : inv (Procs None None [])) by (constructor; cbn; [constructor|contradiction|contradiction|contradiction|discriminate]).
  revert I0. generalize (Procs None None []). induction l as [|e l IH]; intros s I NG; [exact I|]. cbn [fold_left]. apply IH; [apply inv_happen; [|exact I]|].
  - intros n g a ->. eapply NG. left. reflexivity.
  - intros n g a J. eapply NG. right. exact J.
Qed.
Lemma only_one : forall s p q, inv s -> In p (alive s) -> In q (alive s) -> p_phase p <> Begin -> p_phase q <> Begin -> p = q.
Proof. intros s p q I J K A B. apply (same_id (alive s)); [apply I|exact J|exact K|]. pose proof (i_lock s I p J A). pose proof (i_lock s I q K B). congruence. Qed.
(** nothing hinders a program that finds no other at work *)
Lemma gets_there : forall s n g, inv s -> (forall p, In p (alive s) -> p_phase p = Begin) -> is_alive n s = false -> g = Pow ->
  exists p, In p (alive (fold_left happen [Starts n g 0; GoesOn n true 0; GoesOn n true 0; GoesOn n true 0] s)) /\ p_id p = n /\ p_phase p = Working.
Proof.
  intros s n g I B A ->. assert (H0 : holder s = None).
  { destruct (holder s) as [h|] eqn:H; [|reflexivity]. destruct (i_held s I h H) as (p & J & _ & N). exfalso. apply N, B, J. }
  cbn [fold_left happen]. rewrite A. cbn [alive find p_id]. rewrite Nat.eqb_refl. cbn [advance p_phase p_id holder written alive]. rewrite H0. cbn [andb goes holder written alive p_id p_prog p_addr find].
  rewrite Nat.eqb_refl. cbn [advance p_phase p_prog p_id holder written alive goes p_addr find]. rewrite Nat.eqb_refl. cbn [advance p_phase p_prog p_id holder written alive goes p_addr].
  eexists. split; [left; reflexivity|]. split; reflexivity.
Qed.

(** ** C134: one server per run directory *)

(** With option -Z: whatever is started, fails or is killed at whatever time, next to a server at work no other process is past the lock, and the file of the process id names
    that server.  Missing: without -Z, refuted below *)
Theorem C134_foreground_partial : forall l, (forall n g a, In (Starts n g a) l -> g = Foreground) -> forall p, In p (alive (history l)) -> p_phase p = Working ->
  written (history l) = Some (p_id p) /\ forall q, In q (alive (history l)) -> q = p \/ p_phase q = Begin.
Proof.
  intros l G p J W. assert (I : inv (history l)) by (apply inv_history; intros n g a K; rewrite (G n g a K); discriminate).
  split; [apply (i_file _ I p J); auto|]. intros q K. destruct (p_phase q) eqn:Q; [now right| | | | |]; left; apply (only_one _ q p I K J); congruence.
Qed.
(** A daemon has no lock once it is detached: another one can be started, both serve, and the file names only one of them, ... *)
Theorem C134_two_daemons_refuted : exists l p q, (forall n g a, In (Starts n g a) l -> g = Daemon) /\ In p (alive (history l)) /\ In q (alive (history l)) /\
  p_phase p = Working /\ p_phase q = Working /\ p_id p <> p_id q /\ written (history l) = Some (p_id q).
Proof.
  exists [Starts 10 Daemon 1; GoesOn 10 true 0; GoesOn 10 true 11; GoesOn 10 true 0; GoesOn 11 true 0; Starts 20 Daemon 2; GoesOn 20 true 0; GoesOn 20 true 21; GoesOn 20 true 0; GoesOn 21 true 0],
    (Proc 11 Daemon 1 Working), (Proc 21 Daemon 2 Working).
  split; [intros n g a J; cbn in J; intuition congruence|]. vm_compute. intuition congruence.
Qed.
(** ... and starting the server a second time by mistake leaves a file that names no running process *)
Theorem C134_wrong_id_refuted : exists l p, (forall n g a, In (Starts n g a) l -> g = Daemon /\ a = 1%nat) /\ alive (history l) = [p] /\ p_phase p = Working /\
  exists n, written (history l) = Some n /\ n <> p_id p.
Proof.
  exists [Starts 10 Daemon 1; GoesOn 10 true 0; GoesOn 10 true 11; GoesOn 10 true 0; GoesOn 11 true 0; Starts 20 Daemon 1; GoesOn 20 true 0; GoesOn 20 true 21; GoesOn 20 true 0; GoesOn 21 true 0],
    (Proc 11 Daemon 1 Working).
  split; [intros n g a J; cbn in J; intuition congruence|]. split; [reflexivity|]. split; [reflexivity|]. exists 21%nat. split; [reflexivity|discriminate].
Qed.
Example C134_case :
  history [Starts 10 Foreground 1; GoesOn 10 true 0; Starts 20 Foreground 2; GoesOn 10 true 0; GoesOn 20 true 0; GoesOn 10 true 0] = Procs (Some 10%nat) (Some 10%nat) [Proc 10 Foreground 1 Working] /\
  history [Starts 10 Foreground 1; GoesOn 10 true 0; GoesOn 10 true 0; GoesOn 10 true 0; Ends 10; Starts 20 Foreground 2; GoesOn 20 true 0; GoesOn 20 true 0; GoesOn 20 true 0] =
    Procs (Some 20%nat) (Some 20%nat) [Proc 20 Foreground 2 Working].
Proof. split; reflexivity. Qed.

(** ** C135: one powstream per directory *)

(** Whatever is started, fails or is killed: there are never two powstreams past the lock; a powstream at work is named in the lock file *)
Theorem C135_one : forall l, (forall n g a, In (Starts n g a) l -> g = Pow) -> forall p, In p (alive (history l)) -> p_phase p <> Begin ->
  (forall q, In q (alive (history l)) -> q = p \/ p_phase q = Begin) /\ (p_phase p = Working -> written (history l) = Some (p_id p)).
Proof.
  intros l G p J W. assert (I : inv (history l)) by (apply inv_history; intros n g a K; rewrite (G n g a K); discriminate).
  split; [|intros B; apply (i_file _ I p J); auto]. intros q K. destruct (p_phase q) eqn:Q; [now right| | | | |]; left; apply (only_one _ q p I K J); congruence.
Qed.
(** When those that were past the lock have ended, in whatever way, a new one can start *)
Theorem C135_restart : forall l n, (forall n g a, In (Starts n g a) l -> g = Pow) -> (forall p, In p (alive (history l)) -> p_phase p = Begin /\ p_id p <> n) ->
  exists p, In p (alive (history (l ++ [Starts n Pow 0; GoesOn n true 0; GoesOn n true 0; GoesOn n true 0]))) /\ p_id p = n /\ p_phase p = Working.
Proof.
  intros l n G B. unfold history. rewrite fold_left_app. apply gets_there; [apply inv_history; intros m g a K; rewrite (G m g a K); discriminate|intros p J; apply B, J| |reflexivity].
  destruct (is_alive n _) eqn:A; [|reflexivity]. apply existsb_exists in A. destruct A as (q & J & E). apply Nat.eqb_eq in E. exfalso. eapply B; eassumption.
Qed.
Example C135_case :
  history [Starts 10 Pow 0; Starts 20 Pow 0; GoesOn 20 true 0; GoesOn 10 true 0; GoesOn 20 true 0; GoesOn 20 true 0] = Procs (Some 20%nat) (Some 20%nat) [Proc 20 Pow 0 Working] /\
  alive (history [Starts 10 Pow 0; GoesOn 10 true 0; GoesOn 10 true 0; Ends 10]) = [].
Proof. split; reflexivity. Qed.

(** ** C136: the paths of the programs fit in their buffers *)

(** All paths of powstream, with the octet that ends them, fit in PATH_MAX octets if the directory was accepted; and the complete name is the incomplete one without the mark *)
Theorem C136_powstream : forall savedir dir, dirpath savedir = Some dir ->
  len (lock_path dir) + 1 <= PATH_MAX /\ len (tmp_path dir) + 1 <= PATH_MAX /\
  forall x start stop, x = ext \/ x = ext_sum ->
    len (incomplete_path dir x start stop) + 1 <= PATH_MAX /\ len (complete_path dir x start stop) + 1 <= PATH_MAX /\
    complete_path dir x start stop = dir ++ stamp start ++ [95] ++ stamp stop ++ x /\ complete_path dir x start stop <> lock_path dir.
Proof.
  intros savedir dir D.
  assert (L : len dir + fname_len + 1 <= PATH_MAX).
  { unfold dirpath in D. destruct savedir as [d|]; [|injection D as <-; vm_compute; discriminate]. destruct (Z.ltb_spec PATH_MAX (len d + 1 + fname_len + 1)); [discriminate|].
    injection D as <-. unfold len in *. rewrite app_length. unfold sep. cbn [length]. lia. }
  change fname_len with 47 in L. unfold PATH_MAX in *. unfold lock_path, tmp_path, len in *. rewrite !app_length. split; [cbn [length powlock]; lia|]. split; [cbn [length powtmp]; lia|].
  intros x start stop X. assert (LX : length x = 4%nat) by (destruct X as [-> | ->]; reflexivity).
  assert (C : complete_path dir x start stop = dir ++ stamp start ++ [95] ++ stamp stop ++ x).
  { unfold complete_path, incomplete_path. replace (dir ++ stamp start ++ [95] ++ stamp stop ++ x ++ ext_incomplete) with ((dir ++ stamp start ++ [95] ++ stamp stop) ++ x ++ ext_incomplete) by (rewrite <- !app_assoc; reflexivity).
    assert (LL : length (dir ++ stamp start ++ [95] ++ stamp stop) = (length dir + 41)%nat) by (rewrite !app_length, !stamp_length; cbn [length]; lia).
    rewrite <- LL, firstn_app, firstn_all, Nat.sub_diag. cbn [firstn]. rewrite app_nil_r, <- !app_assoc. reflexivity. }
  split; [unfold incomplete_path; rewrite !app_length, !stamp_length, LX; cbn [length ext_incomplete]; lia|]. split; [rewrite C, !app_length, !stamp_length, LX; cbn [length]; lia|].
  split; [exact C|]. rewrite C. intros E. apply app_inv_head in E. apply (f_equal (@length Z)) in E. rewrite !app_length, !stamp_length, LX in E. discriminate E.
Qed.
(** The paths of owampd fit if the name of its run directory is short; it is not checked, and a longer one is copied over the end of the buffer *)
Theorem C136_owampd_refuted : forall prefix vardir, length prefix = 12%nat ->
  (len (pid_path vardir prefix) + 1 <= PATH_MAX /\ len (info_path vardir prefix) + 1 <= PATH_MAX <-> len vardir <= PATH_MAX - 19) /\
  exists vardir', PATH_MAX < len (pid_path vardir' prefix) + 1.
Proof.
  intros prefix vardir L. split.
  - unfold pid_path, info_path, len. rewrite !app_length, L. cbn [length sep]. unfold PATH_MAX. lia.
  - exists (repeat 97 4096). unfold pid_path, len. rewrite !app_length, repeat_length, L. cbn [length sep]. unfold PATH_MAX. lia.
Qed.
Example C136_case : dirpath (Some [47; 100]) = Some [47; 100; 47] /\ dirpath (Some (repeat 97 4047)) = Some (repeat 97 4047 ++ [47]) /\ dirpath (Some (repeat 97 4048)) = None.
Proof. split; [reflexivity|]. split; vm_compute; reflexivity. Qed.

(** ** C137: a directory means the same throughout *)

(** A directory given by its full name, or any with -Z: both files of the server are in the run directory, and sessions are stored in the directory that was prepared.
    Missing: relative names without -Z, refuted below *)
Theorem C137_same_partial : forall detached cwd dir prefix, detached = false \/ (exists rest, dir = 47 :: rest) -> proper (prefix ++ [46; 112; 105; 100]) -> proper (prefix ++ [46; 105; 110; 102; 111]) -> dir <> [] ->
  pid_place cwd dir prefix = (prefix ++ [46; 112; 105; 100]) :: place_of cwd dir /\ info_place detached cwd dir prefix = (prefix ++ [46; 105; 110; 102; 111]) :: place_of cwd dir /\
  datadir_of_sessions detached cwd dir = datadir_at_start cwd dir.
Proof.
  intros detached cwd dir prefix A P I N. unfold pid_place, info_place, pid_path, info_path, datadir_of_sessions, datadir_at_start. rewrite !place_last by assumption.
  assert (S : place_of (cwd_later detached cwd) dir = place_of cwd dir) by (destruct A as [-> | (rest & ->)]; reflexivity). rewrite S. auto.
Qed.
(** A server that detaches looks up a relative name from the root directory *)
Theorem C137_relative_refuted : forall cwd dir prefix, cwd <> [] -> proper dir -> proper (prefix ++ [46; 112; 105; 100]) -> proper (prefix ++ [46; 105; 110; 102; 111]) ->
  tl (info_place true cwd dir prefix) <> tl (pid_place cwd dir prefix) /\ datadir_of_sessions true cwd dir <> datadir_at_start cwd dir.
Proof.
  intros cwd dir prefix N PD P I. assert (NE : dir <> []) by apply PD. unfold pid_place, info_place, pid_path, info_path, datadir_of_sessions, datadir_at_start. rewrite !place_last by assumption. cbn [tl cwd_later].
  assert (R : forall c, place_of c dir = dir :: c).
  { intros c. destruct PD as (N1 & N2 & N3 & N4). unfold place_of.
    assert (X : (match dir with 47 :: _ => true | _ => false end) = false) by (destruct dir as [|z d]; [contradiction|]; destruct z as [|z|z]; try reflexivity; do 6 (destruct z as [z|z|]; try reflexivity); exfalso; apply N1; left; reflexivity).
    rewrite X, components_one by exact N1. cbn [rev app]. rewrite walk_down; [|intros [E|[]]; contradiction]. cbn [shown filter].
    destruct (eqb_octets dir []) eqn:E1; [apply eqb_octets_spec in E1; contradiction|]. destruct (eqb_octets dir [46]) eqn:E2; [apply eqb_octets_spec in E2; contradiction|]. reflexivity. }
  rewrite !R. split; intros E; apply N; congruence.
Qed.
Example C137_case : pid_place [[104]] [118] [111; 119] = [[111; 119; 46; 112; 105; 100]; [118]; [104]] /\ info_place true [[104]] [118] [111; 119] = [[111; 119; 46; 105; 110; 102; 111]; [118]].
Proof. split; reflexivity. Qed.

(** ** C138: options of powstream *)

(** -c and -N are accepted exactly if the summaries divide the session evenly; the summaries then have N packets each, and all packets are in one of them; the wait between
    attempts is at most -I.  Missing: the wait can be shorter, and -E has no effect, refuted below *)
Theorem C138_plan_partial : forall c n i session, 0 <= c -> 0 <= n ->
  ((exists r, summaries c n = Some r) <-> n = 0 \/ (0 < c /\ (n | c))) /\
  (forall m k, summaries c n = Some (m, k) -> (n = 0 -> m = c /\ k = 0) /\ (n <> 0 -> m = n /\ k * m = c /\ 0 < k)) /\ retry_delay i session <= i.
Proof.
  intros c n i session C N. unfold summaries, retry_delay. split; [|split].
  - destruct (Z.eqb_spec n 0) as [E|E]; [split; [auto|eauto]|]. destruct (Z.ltb_spec c n) as [L|L]; cbn [orb].
    + split; [intros (r & X); discriminate|]. intros [X|(X & D)]; [contradiction|]. apply Z.divide_pos_le in D; [lia|exact X].
    + destruct (Z.eqb_spec (c mod n) 0) as [M|M]; cbn [negb].
      * split; [intros _; right; split; [lia|apply Z.mod_divide; [exact E|exact M]]|eauto].
      * split; [intros (r & X); discriminate|]. intros [X|(_ & D)]; [contradiction|]. exfalso. apply M. apply Z.mod_divide; [exact E|exact D].
  - intros m k. destruct (Z.eqb_spec n 0) as [E|E]; [intros X; injection X as <- <-; split; [auto|contradiction]|]. destruct (Z.ltb_spec c n) as [L|L]; cbn [orb]; [discriminate|].
    destruct (Z.eqb_spec (c mod n) 0) as [M|M]; cbn [negb]; [|discriminate]. intros X. injection X as <- <-. split; [contradiction|]. intros _. split; [reflexivity|].
    assert (Q : c = n * (c / n)) by (apply Z.div_exact; assumption). split; [lia|]. apply Z.div_str_pos. lia.
  - destruct (Z.ltb_spec session i); lia.
Qed.
(** Whatever is given with -E is not used; a session that is shorter than the wait shortens it, to nothing if it is shorter than a second *)
Theorem C138_ignored_refuted : forall (A : Type) (e : A) i session, end_delay (Some e) = None /\ (session < i -> retry_delay i session = session).
Proof. intros A e i session. split; [reflexivity|]. intros L. unfold retry_delay. destruct (Z.ltb_spec session i); lia. Qed.
Example C138_case : summaries 300 100 = Some (100, 3) /\ summaries 300 70 = None /\ summaries 0 5 = None /\ retry_delay 60 30 = 30 /\ retry_delay 60 600 = 60.
Proof. repeat split. Qed.

(** ** C139: a file of powstream under its final name is complete *)

(** numbers of files are below the next one *)
Definition sound (d : disk) : Prop := (forall e, In e (names d) -> (snd e < length (data d))%nat) /\ (forall e, In e (data d) -> (fst e < length (data d))%nat).

Lemma named_filter : forall n m l, n <> m -> find (fun e : list Z * nat => eqb_octets (fst e) n) (filter (fun e => negb (eqb_octets (fst e) m)) l) = find (fun e => eqb_octets (fst e) n) l.
Proof.
  intros n m l N. induction l as [|e l IH]; [reflexivity|]. cbn [filter find]. destruct (eqb_octets (fst e) m) eqn:E; cbn [negb]; [|cbn [find]; rewrite IH; reflexivity].
  rewrite IH. destruct (eqb_octets (fst e) n) eqn:E2; [|reflexivity]. apply eqb_octets_spec in E, E2. congruence.
Qed.
Lemma named_gone : forall n l, find (fun e : list Z * nat => eqb_octets (fst e) n) (filter (fun e => negb (eqb_octets (fst e) n)) l) = None.
Proof.
  intros n l. induction l as [|e l IH]; [reflexivity|]. cbn [filter]. destruct (eqb_octets (fst e) n) eqn:E; cbn [negb]; [exact IH|]. cbn [find]. rewrite E. exact IH.
Qed.
Lemma eqb_no : forall a b, a <> b -> eqb_octets a b = false.
Proof. intros a b N. destruct (eqb_octets a b) eqn:E; [apply eqb_octets_spec in E; contradiction|reflexivity]. Qed.
Lemma create_names : forall d t n, named (perform d (Create t)) n = if eqb_octets t n then Some (length (data d)) else named d n.
Proof.
  intros d t n. unfold named. cbn [perform names find fst snd]. destruct (eqb_octets t n) eqn:E; [reflexivity|]. rewrite named_filter; [reflexivity|]. intros X. subst n. rewrite eqb_octets_refl in E. discriminate.
Qed.
Lemma create_held : forall d t, held (perform d (Create t)) (length (data d)) = [].
Proof. intros d t. unfold held. cbn [perform data find fst snd]. now rewrite Nat.eqb_refl. Qed.
Lemma create_keeps : forall d t f, f <> length (data d) -> held (perform d (Create t)) f = held d f.
Proof. intros d t f N. unfold held. cbn [perform data find fst snd]. destruct (Nat.eqb_spec (length (data d)) f); [congruence|reflexivity]. Qed.
Lemma writes : forall f w d, names (run d (map (Write f) w)) = names d /\ held (run d (map (Write f) w)) f = held d f ++ concat w /\ forall g, g <> f -> held (run d (map (Write f) w)) g = held d g.
Proof.
  intros f. induction w as [|s w IH]; intros d; cbn [map run fold_left concat]; [rewrite app_nil_r; auto|]. destruct (IH (perform d (Write f s))) as (A & B & C). unfold run in *.
  rewrite A, B. split; [reflexivity|]. split.
  - unfold held at 1. cbn [perform data find fst snd]. rewrite Nat.eqb_refl. now rewrite app_assoc.
  - intros g N. rewrite C by exact N. unfold held. cbn [perform data find fst snd]. destruct (Nat.eqb_spec f g); [congruence|reflexivity].
Qed.
Lemma named_names : forall d d' n, names d = names d' -> named d n = named d' n.
Proof. intros d d' n E. unfold named. now rewrite E. Qed.
Lemma named_bound : forall d n f, sound d -> named d n = Some f -> (f < length (data d))%nat.
Proof. intros d n f (S & _) E. unfold named in E. destruct (find _ _) as [e|] eqn:F; [|discriminate]. injection E as <-. apply find_some in F. apply S, F. Qed.

(** the disk after the incomplete file was created and [w] written to it *)
Definition halfway (d : disk) (t : list Z) (w : list (list Z)) : disk := run (perform d (Create t)) (map (Write (length (data d))) w).
Lemma halfway_ok : forall d t w, sound d ->
  (forall n, named (halfway d t w) n = if eqb_octets t n then Some (length (data d)) else named d n) /\ held (halfway d t w) (length (data d)) = concat w /\
  forall n, n <> t -> visible (halfway d t w) n = visible d n.
Proof.
  intros d t w S. unfold halfway. destruct (writes (length (data d)) w (perform d (Create t))) as (A & B & C). split; [|split].
  - intros n. rewrite (named_names _ _ n A). apply create_names.
  - rewrite B, create_held. reflexivity.
  - intros n N. unfold visible. rewrite (named_names _ _ n A), create_names, (eqb_no t n) by congruence. destruct (named d n) as [f|] eqn:F; [|reflexivity].
    pose proof (named_bound d n f S F). rewrite C by lia. rewrite create_keeps by lia. reflexivity.
Qed.
Definition linked (d : disk) (t o : list Z) (w : list (list Z)) : disk := perform (halfway d t w) (Link t o).
Lemma linked_ok : forall d t o w, sound d -> t <> o -> (forall n, n <> t -> n <> o -> visible (linked d t o w) n = visible d n) /\
  (visible (linked d t o w) o = match visible d o with None => Some (concat w) | x => x end) /\ held (linked d t o w) (length (data d)) = concat w /\
  (named d o = None -> named (linked d t o w) o = Some (length (data d))).
Proof.
  intros d t o w S N. destruct (halfway_ok d t w S) as (A & B & C). unfold linked. cbn [perform]. rewrite !A, eqb_octets_refl, (eqb_no t o N). destruct (named d o) as [f|] eqn:F.
  - split; [intros n N1 N2; apply C, N1|]. split; [|split; [exact B|discriminate]]. rewrite C by congruence. unfold visible. rewrite F. reflexivity.
  - split; [|split; [|split; [exact B|]]].
    + intros n N1 N2. unfold visible, named. cbn [names find fst snd]. rewrite (eqb_no o n) by congruence. exact (C n N1).
    + unfold visible at 2. rewrite F. unfold visible, named. cbn [names find fst snd]. rewrite eqb_octets_refl. f_equal. exact B.
    + intros _. unfold named. cbn [names find fst snd]. rewrite eqb_octets_refl. reflexivity.
Qed.
Lemma unlink_ok : forall d t n, n <> t -> visible (perform d (Unlink t)) n = visible d n.
Proof. intros d t n N. unfold visible, named. cbn [perform names]. rewrite named_filter by exact N. reflexivity. Qed.

(** The file of all records: at every point at which powstream can be stopped, the file under its final name is as before or complete, and no other file has changed; at the end
    it is complete and the incomplete one is gone *)
Theorem C139_session : forall d t o chunks k, sound d -> t <> o ->
  let d' := run d (firstn k (store_session (length (data d)) t o chunks)) in
  (visible d' o = visible d o \/ (visible d o = None /\ visible d' o = Some (concat chunks))) /\ (forall n, n <> t -> n <> o -> visible d' n = visible d n) /\
  ((length chunks + 3 <= k)%nat -> visible d' t = None /\ (visible d o = None -> visible d' o = Some (concat chunks))).
Proof.
  intros d t o chunks k S N d'.
  assert (END : forall r, r = perform (linked d t o chunks) (Unlink t) ->
    (visible r o = visible d o \/ (visible d o = None /\ visible r o = Some (concat chunks))) /\ (forall n, n <> t -> n <> o -> visible r n = visible d n) /\
    visible r t = None /\ (visible d o = None -> visible r o = Some (concat chunks))).
  { intros r ->. destruct (linked_ok d t o chunks S N) as (A & B & _ & _). split; [|split; [|split]].
    - rewrite unlink_ok by congruence. rewrite B. destruct (visible d o); auto.
    - intros n N1 N2. rewrite unlink_ok by congruence. apply A; assumption.
    - unfold visible, named. cbn [perform names]. rewrite named_gone. reflexivity.
    - intros V. rewrite unlink_ok by congruence. now rewrite B, V. }
  assert (FULL : run d (store_session (length (data d)) t o chunks) = perform (linked d t o chunks) (Unlink t)).
  { unfold store_session, run. rewrite !fold_left_app. reflexivity. }
  assert (LS : length (store_session (length (data d)) t o chunks) = (length chunks + 3)%nat) by (unfold store_session; rewrite !app_length, map_length; cbn [length]; lia).
  destruct (le_lt_dec (length chunks + 3) k) as [K|K].
  { destruct (END d') as (A & B & C & E); [unfold d'; rewrite firstn_all2 by lia; exact FULL|]. auto. }
  assert (REST : (visible d' o = visible d o \/ (visible d o = None /\ visible d' o = Some (concat chunks))) /\ (forall n, n <> t -> n <> o -> visible d' n = visible d n)).
  { unfold d'. destruct k as [|k]; [cbn [firstn run fold_left]; auto|]. unfold store_session. cbn [app firstn].
    destruct (le_lt_dec k (length chunks)) as [L|L].
    - rewrite firstn_app, map_length. replace (k - length chunks)%nat with 0%nat by lia. cbn [firstn]. rewrite app_nil_r, firstn_map. change (run d (Create t :: map (Write (length (data d))) (firstn k chunks))) with (halfway d t (firstn k chunks)).
      destruct (halfway_ok d t (firstn k chunks) S) as (_ & _ & C). split; [left; apply C; congruence|]. intros n N1 N2. apply C, N1.
    - assert (k = Datatypes.S (length chunks)) as -> by lia. rewrite firstn_app, map_length, firstn_all2 by (rewrite map_length; lia). replace (Datatypes.S (length chunks) - length chunks)%nat with 1%nat by lia. cbn [firstn].
      assert (X : run d (Create t :: map (Write (length (data d))) chunks ++ [Link t o]) = linked d t o chunks) by (unfold run; cbn [fold_left]; rewrite fold_left_app; reflexivity). rewrite X.
      destruct (linked_ok d t o chunks S N) as (A & B & _ & _). split; [rewrite B; destruct (visible d o); auto|exact A]. }
  destruct REST as (R1 & R2). split; [exact R1|]. split; [exact R2|]. intros K'. lia.
Qed.
(** A summary is complete after all calls if the last writes succeed.  Missing: before that, refuted below *)
Theorem C139_summary_partial : forall d t o early late, sound d -> t <> o -> visible d o = None ->
  let d' := run d (store_summary (length (data d)) t o early late) in
  visible d' o = Some (concat early ++ concat late) /\ visible d' t = None /\ (forall n, n <> t -> n <> o -> visible d' n = visible d n).
Proof.
  intros d t o early late S N V d'. set (r := perform (linked d t o early) (Unlink t)).
  assert (FULL : d' = run r (map (Write (length (data d))) late)) by (unfold d', store_summary, run; rewrite !fold_left_app; reflexivity).
  destruct (linked_ok d t o early S N) as (A & B & C & E). destruct (writes (length (data d)) late r) as (W1 & W2 & W3). rewrite <- FULL in W1, W2, W3.
  assert (NO : named d o = None) by (unfold visible in V; destruct (named d o); [discriminate|reflexivity]).
  assert (RN : forall n, n <> t -> named r n = named (linked d t o early) n) by (intros n X; unfold named, r; cbn [perform names]; rewrite named_filter by exact X; reflexivity).
  split; [|split].
  - unfold visible. rewrite (named_names _ _ o W1), RN, E by congruence. rewrite W2. f_equal. f_equal. exact C.
  - unfold visible. rewrite (named_names _ _ t W1). unfold named, r. cbn [perform names]. now rewrite named_gone.
  - intros n N1 N2. rewrite <- (A n N1 N2). unfold visible. rewrite (named_names _ _ n W1), RN by exact N1. destruct (named (linked d t o early) n) as [f|] eqn:F; [|reflexivity].
    f_equal. apply W3. intros ->. unfold linked in F. cbn [perform] in F. destruct (halfway_ok d t early S) as (H & _). rewrite !H, eqb_octets_refl, (eqb_no t o N), NO in F.
    unfold named in F. cbn [names find fst snd] in F. rewrite (eqb_no o n) in F by congruence. fold (named (halfway d t early) n) in F. rewrite H, (eqb_no t n) in F by congruence.
    pose proof (named_bound d n _ S F). lia.
Qed.
(** A summary gets its final name before its text is written: powstream stopped then, or a full disk at that time, leaves an empty or cut file under the final name *)
Theorem C139_cut_refuted : forall d t o early late, sound d -> t <> o -> visible d o = None -> concat late <> [] ->
  concat early <> concat early ++ concat late /\
  exists k, visible (run d (firstn k (store_summary (length (data d)) t o early late))) o = Some (concat early) /\
  visible (run d (store_summary (length (data d)) t o early [])) o = Some (concat early).
Proof.
  intros d t o early late S N V NL. split; [intros Q; apply NL; apply (app_inv_head (concat early)); rewrite app_nil_r; congruence|]. exists (length early + 2)%nat. destruct (linked_ok d t o early S N) as (A & B & C & E). rewrite V in B. split.
  - unfold store_summary. replace ([Create t] ++ map (Write (length (data d))) early ++ [Link t o; Unlink t] ++ map (Write (length (data d))) late) with
      (([Create t] ++ map (Write (length (data d))) early ++ [Link t o]) ++ Unlink t :: map (Write (length (data d))) late) by (rewrite <- !app_assoc; reflexivity).
    assert (LL : length ([Create t] ++ map (Write (length (data d))) early ++ [Link t o]) = (length early + 2)%nat) by (rewrite !app_length, map_length; cbn [length]; lia).
    rewrite <- LL, firstn_app, firstn_all, Nat.sub_diag. cbn [firstn]. rewrite app_nil_r.
    assert (X : run d ([Create t] ++ map (Write (length (data d))) early ++ [Link t o]) = linked d t o early) by (unfold run; rewrite !fold_left_app; reflexivity). now rewrite X.
  - destruct (C139_summary_partial d t o early [] S N V) as (X & _). rewrite X. cbn [concat]. now rewrite app_nil_r.
Qed.
Example C139_case : let d := Disk [(0%nat, [1])] [([97], 0%nat)] in
  visible (run d (firstn 3 (store_session 1 [116] [111] [[5]; [6]]))) [111] = None /\ visible (run d (store_session 1 [116] [111] [[5]; [6]])) [111] = Some [5; 6] /\
  visible (run d (firstn 2 (store_summary 1 [116] [111] [] [[5; 6]]))) [111] = Some [] /\ sound d.
Proof. cbv zeta. repeat split; cbn; intros e [<-|[]]; cbn; lia. Qed.

Print Assumptions C134_foreground_partial.
Print Assumptions C134_two_daemons_refuted.
Print Assumptions C134_wrong_id_refuted.
Print Assumptions C135_one.
Print Assumptions C135_restart.
Print Assumptions C136_powstream.
Print Assumptions C136_owampd_refuted.
Print Assumptions C137_same_partial.
Print Assumptions C137_relative_refuted.
Print Assumptions C138_plan_partial.
Print Assumptions C138_ignored_refuted.
Print Assumptions C139_session.
Print Assumptions C139_summary_partial.
Print Assumptions C139_cut_refuted.
