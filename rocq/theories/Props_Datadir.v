(** Property theorems about the data directory of the server: C119 (lengths of names), C120 (disk usage after a restart), C121 (stored sessions can be fetched),
    C122 (the catalog at every crash point).  Vocabulary: Datadir_Spec.v. *)
From Coq Require Import String.
From Coq Require Import ZArith List Bool Lia ZifyBool ZifyNat.
From Verif Require Import Base BaseLemmas Options_Spec Datadir_Model Datadir_Spec Datadir_Proofs.
Import ListNotations.
Open Scope Z_scope.

(** ** C119: names of files fit into their buffers *)

(** The name of a session file fits into its buffer of PATH_MAX + 1 octets, the name of its link into another such buffer if the daemon started with this data directory,
    and the copy in the endpoint into a buffer of PATH_MAX octets (terminating zeros included); no name that fits is refused.
    Missing: the name of the temporary file of the clean-up, refuted below *)
Theorem C119_names_partial : forall datadir node sid, length sid = 32%nat ->
  (forall p, filepath datadir node sid = Some p -> len p + 1 <= PATH_MAX + 1) /\
  (datadir_ok datadir = true -> len (linkpath datadir sid) + 1 <= PATH_MAX + 1) /\
  (forall p, copied_name datadir node sid = Some p -> len p <= PATH_MAX) /\
  (filepath datadir node sid = None -> PATH_MAX < len (dir_text datadir node ++ sep ++ sid ++ ext)).
Proof.
  intros datadir node sid L. assert (LS : len sid = 32) by (unfold len; lia). split; [|split; [|split]].
  - intros p E. unfold filepath in E. destruct (node_dir datadir node (1 + 32 + len ext)) as [q|] eqn:Q; [|discriminate]. apply node_dir_len in Q.
    assert (X : p = q ++ sep ++ sid ++ ext) by congruence. subst p. rewrite !len_app. change (len sep) with 1. lia.
  - intros D. unfold datadir_ok in D. unfold linkpath. rewrite !len_app. change (len sep) with 1. lia.
  - intros p E. unfold copied_name in E. destruct (filepath datadir node sid) as [q|]; [|discriminate]. unfold fopen_ok in E. destruct (Z.ltb_spec (len q) PATH_MAX); [|discriminate].
    assert (X : p = q ++ [0]) by congruence. subst p. rewrite len_app. change (len [0]) with 1. lia.
  - unfold filepath. rewrite node_dir_text. destruct (Z.ltb_spec PATH_MAX (len (dir_text datadir node) + (1 + 32 + len ext))); [|discriminate]. intros _.
    rewrite !len_app. change (len sep) with 1. lia.
Qed.

(** With a TMPDIR of 4081 octets the name of the temporary file is accepted, and takes one octet more than its buffer of PATH_MAX octets has *)
Theorem C119_tmpdir_refuted : forall dname, len dname = 4081 -> exists p, tmpfname dname = Some p /\ len p = PATH_MAX + 1.
Proof.
  intros dname L. unfold tmpfname. change (len tmpl) with 14. unfold PATH_MAX. rewrite L. change (4096 <? 14 + 1 + 4081) with false. cbv iota. eexists. split; [reflexivity|].
  rewrite !len_app, L. reflexivity.
Qed.

Definition x_sid : name := repeat 97 32.
Example C119_case : filepath (chars "/var/lib/owamp") [chars "sub"; chars "root"] x_sid = Some (chars "/var/lib/owamp/hierarchy/root/sub/" ++ x_sid ++ chars ".owp") /\
  copied_name (47 :: repeat 97 4046) [chars "r"] x_sid = None /\ copied_name (47 :: repeat 97 3900) [chars "r"] x_sid <> None /\ datadir_ok (repeat 97 4096) = false.
Proof. split; [vm_compute; reflexivity|]. split; [vm_compute; reflexivity|]. split; [vm_compute; discriminate|vm_compute; reflexivity]. Qed.

(** ** C120: the disk space that is in use after a start *)

(** Session files are those whose name is a SID in 32 hex digits and ".owp" *)
Theorem C120_session_files : forall hex f, session_name hex f = true <-> exists sid, length sid = 32%nat /\ hex sid = true /\ f = sid ++ chars ".owp".
Proof.
  intros hex f. unfold session_name. change (chars ".owp") with ext. split.
  - intros H. apply andb_prop in H. destruct H as (H & C). apply andb_prop in H. destruct H as (A & B). exists (firstn 32 f). unfold len in A.
    split; [rewrite firstn_length; lia|]. split; [exact C|]. apply eqb_octets_spec in B. rewrite <- B. symmetry. apply firstn_skipn.
  - intros (sid & L & C & ->). unfold len. rewrite app_length, L. change (Z.of_nat (32 + length ext) =? 36) with true. rewrite skipn_app, firstn_app, L, Nat.sub_diag.
    rewrite skipn_all2 by lia. rewrite firstn_all2 by lia. cbn [skipn firstn app]. rewrite app_nil_r, C. reflexivity.
Qed.
(** The usage of every class that has a limit is the space of the session files in its directory and those of the classes below.  Missing: classes with the name ".." (or with
    separators), whose sessions are stored elsewhere, refuted below *)
Theorem C120_usage_partial : forall parent_of root disk_limit hex t u, parent_of root = Some None -> distinct t -> start parent_of root disk_limit hex t = Some u ->
  forall d, disk_limit d <> 0 -> us_used u d = space d (sessions parent_of root hex t).
Proof. intros parent_of root disk_limit hex t u R D S. apply (start_ok parent_of root disk_limit hex R t u D S). Qed.

(** The daemon starts exactly if the directories of classes are where they belong and can be read, and no two session files have the same name; directories of unknown classes
    do not matter, with all that is below *)
Theorem C120_starts_partial : forall parent_of root disk_limit hex t, parent_of root = Some None ->
  (start parent_of root disk_limit hex t <> None <->
   (forall d up r, In (d :: up, r) (directories t []) -> up = [] \/ class_dir parent_of root up = true -> parent_of d <> None -> class_dir parent_of root (d :: up) = true /\ r = true) /\
   NoDup (map (fun x => snd (fst x)) (sessions parent_of root hex t))).
Proof. intros parent_of root disk_limit hex t R. apply (start_works parent_of root disk_limit hex R t). Qed.

(** a limits file with a root, and classes "sub" and ".." below it *)
Definition x_parent (n : name) : option (option name) :=
  if eqb_octets n (chars "root") then Some None else if eqb_octets n (chars "sub") || eqb_octets n (chars "..") then Some (Some (chars "root")) else None.
Definition x_hex (s : list Z) : bool := forallb (fun c => ((48 <=? c) && (c <=? 57)) || ((97 <=? c) && (c <=? 102))) s.

(** A class named ".." is accepted; its session files are in the directory above that of the root, they are not counted and not found *)
Theorem C120_dots_refuted : exists p, filepath (chars "/d") [chars ".."; chars "root"] x_sid = Some p /\ place_of [] p = [x_sid ++ ext; hierarchy; chars "d"] /\
  exists u, start x_parent (chars "root") (fun _ => 1000) x_hex (AFile (x_sid ++ ext) 500 (ADir (chars "root") true Nil Nil)) = Some u /\
    us_used u (chars "..") = 0 /\ us_links u = [].
Proof. eexists. split; [vm_compute; reflexivity|]. split; [vm_compute; reflexivity|]. eexists. split; [vm_compute; reflexivity|]. vm_compute. split; reflexivity. Qed.

Definition x_tree : tree :=
  ADir (chars "lost") false Nil (ADir (chars "root") true
    (AFile (x_sid ++ ext) 500 (ADir (chars "sub") true (AFile (repeat 98 32 ++ ext) 70 (AFile (chars "notes") 9 Nil)) (ADir (chars "old") true (AFile (repeat 99 32 ++ ext) 8 Nil) Nil))) Nil).
Example C120_case : distinct x_tree /\ exists u, start x_parent (chars "root") (fun _ => 1000) x_hex x_tree = Some u /\ us_used u (chars "root") = 570 /\ us_used u (chars "sub") = 70 /\
  us_links u = [(x_sid ++ ext, [chars "root"]); (repeat 98 32 ++ ext, [chars "sub"; chars "root"])].
Proof.
  split.
  - cbn [distinct x_tree dir_names]. repeat split; intros I; repeat (destruct I as [I|I]; [discriminate|]); exact I.
  - eexists. split; [vm_compute; reflexivity|]. vm_compute. repeat split; reflexivity.
Qed.

(** ** C121: sessions that were stored can be fetched *)

(** With an absolute data directory, a fetch of the SID of a stored session reads its file, wherever the process has gone, and finds its class; the links of other sessions are as before.
    Missing: relative data directories, refuted below *)
Theorem C121_fetch_partial : forall cwd rest n up sid d d', length sid = 32%nat -> ~ In 47 sid -> ~ In 47 n ->
  let datadir := 47 :: rest in open_session cwd datadir (n :: up) sid d = Some d' ->
  (exists p, filepath datadir (n :: up) sid = Some p /\ forall cwd', fetch_session cwd' datadir sid d' = Some (place_of [] p, n)) /\
  (forall sid' cwd' r, length sid' = 32%nat -> ~ In 47 sid' -> sid' <> sid -> fetch_session cwd' datadir sid' d = Some r -> fetch_session cwd' datadir sid' d' = Some r).
Proof.
  intros cwd rest n up sid d d' L NS NN datadir. unfold open_session. destruct (filepath datadir (n :: up) sid) as [p|] eqn:F; [|discriminate]. pose proof (filepath_text _ _ _ _ F) as Ep.
  destruct (fopen_ok p && _) eqn:OK; [|discriminate]. intros E. injection E as <-.
  assert (DN : datadir <> []) by discriminate. destruct (dir_text_cons datadir (n :: up)) as (r & DT).
  assert (PA : exists q, p = 47 :: q). { rewrite Ep, DT. eexists. reflexivity. } destruct PA as (q & Pq).
  assert (LA : forall s c c', place_of c (linkpath datadir s) = place_of c' (linkpath datadir s)) by (intros; apply place_abs).
  split.
  - exists p. split; [reflexivity|]. intros cwd'. unfold fetch_session. cbn [dk_links find fst]. rewrite (LA sid cwd' cwd), same_place_refl.
    assert (C : class_of_link p = Some n). { rewrite Ep. apply class_found; assumption. } rewrite C.
    cbn [dk_files existsb]. assert (PP : forall c, place_of c p = place_of [] p) by (intros c; rewrite Pq; apply place_abs). rewrite (PP cwd). cbv zeta. match goal with |- context [place_of (tl ?x) p] => rewrite (PP (tl x)) end. rewrite same_place_refl. reflexivity.
  - intros sid' cwd' res L' NS' NE. unfold fetch_session. cbn [dk_links find fst]. rewrite (LA sid' cwd' cwd).
    assert (X : same_place (place_of cwd (linkpath datadir sid)) (place_of cwd (linkpath datadir sid')) = false).
    { destruct (same_place _ _) eqn:S; [|reflexivity]. apply same_place_ok in S. rewrite !link_place in S by assumption. injection S as S. apply app_inv_tail in S. congruence. }
    rewrite X. destruct (find _ (dk_links d)) as [[l t]|]; [|discriminate]. cbn [dk_files existsb].
    destruct (existsb _ (dk_files d)); [|discriminate]. rewrite orb_true_r. auto.
Qed.

(** With a relative data directory no session can be fetched: a relative target of a link starts at the directory of the link.  For every such directory (without ".." in its name) *)
Theorem C121_relative_refuted : forall cwd datadir node sid d', match datadir with 47 :: _ => False | [] => False | _ => True end -> ~ In [46; 46] (components [] datadir) ->
  Forall proper node -> length sid = 32%nat -> ~ In 47 sid -> open_session cwd datadir node sid (mkDisk [] []) = Some d' -> fetch_session cwd datadir sid d' = None.
Proof.
  intros cwd datadir node sid d' RE ND PR L NS. unfold open_session. destruct (filepath datadir node sid) as [p|] eqn:F; [|discriminate]. pose proof (filepath_text _ _ _ _ F) as Ep.
  destruct (fopen_ok p && _) eqn:OK; [|discriminate]. intros E. injection E as <-. unfold fetch_session. cbn [dk_links dk_files find fst].
  rewrite same_place_refl. assert (DN : datadir <> []) by (destruct datadir; [contradiction|discriminate]).
  rewrite (link_place cwd datadir sid DN L NS). cbn [tl existsb].
  assert (NC : ~ In [46; 46] (components [] p)).
  { rewrite Ep. rewrite components_app. intros I. apply in_app_iff in I. destruct I as [I|I].
    - clear F Ep OK. revert I. induction node as [|n up IH]; cbn [dir_text]; rewrite components_app; intros I; apply in_app_iff in I; destruct I as [I|I]; try contradiction.
      + rewrite components_one in I by (cbn; lia). destruct I as [I|[]]. discriminate.
      + inversion PR; subst. apply IH; assumption.
      + inversion PR as [|? ? (P1 & P2 & P3 & P4) _]; subst. rewrite components_one in I by exact P1. destruct I as [I|[]]. cbn in I. contradiction.
    - destruct (sid_proper sid L NS) as (P1 & _ & _ & P4). rewrite components_one in I by exact P1. destruct I as [I|[]]. cbn [rev app] in I. contradiction. }
  assert (REL : forall c, place_of c p = walk_path c (components [] p)).
  { intros c. unfold place_of. destruct (dir_text_cons datadir node) as (r & DT). destruct datadir as [|x datadir]; [contradiction|].
    rewrite Ep, DT. cbn [app]. destruct x as [|x|x]; try reflexivity. destruct (Pos.eq_dec x 47) as [->|NX]; [contradiction|].
    do 6 (destruct x as [x|x|]; try reflexivity). contradiction. }
  rewrite !REL, !walk_down by exact NC.
  assert (CAT : place_of cwd (datadir ++ sep ++ catalog) = catalog :: rev (shown (components [] datadir)) ++ cwd).
  { rewrite place_last; [|exact DN|]. 
    - f_equal. unfold place_of. destruct datadir as [|x datadir]; [contradiction|]. rewrite walk_down by exact ND. f_equal.
      destruct x as [|x|x]; try reflexivity. do 6 (destruct x as [x|x|]; try reflexivity). contradiction.
    - split; [cbn; lia|]. repeat split; discriminate. }
  rewrite CAT. destruct (same_place _ _) eqn:S; [|reflexivity]. exfalso. apply same_place_ok in S. apply app_inv_head in S.
  apply (f_equal (@List.length _)) in S. cbn [List.length] in S. rewrite app_length in S. lia.
Qed.

Example C121_case : exists d, open_session [chars "home"] (chars "/d") [chars "sub"; chars "root"] x_sid (mkDisk [] []) = Some d /\
  fetch_session [] (chars "/d") x_sid d = Some ([x_sid ++ ext; chars "sub"; chars "root"; hierarchy; chars "d"], chars "sub") /\
  exists d2, open_session [chars "home"] (chars "d") [chars "root"] x_sid (mkDisk [] []) = Some d2 /\ fetch_session [chars "home"] (chars "d") x_sid d2 = None.
Proof. eexists. split; [vm_compute; reflexivity|]. split; [vm_compute; reflexivity|]. eexists. split; vm_compute; reflexivity. Qed.

(** ** C122: the catalog is right at every crash point *)

(** Whatever sessions are created, refused, completed and removed, and wherever in between the daemon is stopped and started again: every link leads to an existing file, and every
    session file of a class of the limits file has its link, unless a call is creating or removing this session.
    Missing: processes of the previous daemon that still run when it is started again, refuted below *)
Theorem C122_catalog_partial : forall hex w, reach hex false w ->
  (forall f c, In (f, c) (w_links w) -> In (c, f) (w_files w)) /\
  (forall c f, In (c, f) (w_files w) -> session_name hex f = true -> class_dir (w_parent w) (w_root w) c = true -> In (f, c) (w_links w) \/ In f (map fst (w_calls w))).
Proof. intros hex w R. apply inv_reach in R. split; [apply R|apply R]. Qed.

(** A process that survives removes the file of a session after the new daemon has made a new link to it: the link leads nowhere and stays *)
Definition r : list name := [chars "root"].
Definition y (files : list (list name * name)) (links : list (name * list name)) calls : world := mkWorld files links calls x_parent (chars "root").
Theorem C122_survivor_refuted : exists w f c, reach x_hex true w /\ In (f, c) (w_links w) /\ w_files w = [] /\ w_calls w = [].
Proof.
  set (f := x_sid ++ ext). exists (y [] [(f, r)] []), f, r. split; [|split; [left; reflexivity|split; reflexivity]].
  assert (W : forall A (p : A) l, without f ((f, p) :: l) = without f l).
  { intros. unfold without. cbn [filter fst]. rewrite eqb_octets_refl. reflexivity. }
  apply (Step _ _ (y [(r, f)] [(f, r)] [(f, Removing r)])).
  - apply (Step _ _ (y [(r, f)] [] [(f, Removing r)])).
    + apply (Step _ _ (y [(r, f)] [(f, r)] [])).
      * apply (Step _ _ (y [(r, f)] [] [(f, Creating r)])).
        -- apply (Step _ _ (y [] [] [])); [apply Empty|]. apply Create; [vm_compute; reflexivity|intros c []|intros []].
        -- exact (MakeLink x_hex true (y [(r, f)] [] [(f, Creating r)]) r f (or_introl eq_refl) (fun x => x)).
      * exact (RemoveLink x_hex true (y [(r, f)] [(f, r)] []) r f (or_introl eq_refl) (fun x => x)).
    + set (t := ADir (chars "root") true (AFile f 500 Nil) Nil).
      destruct (start x_parent (chars "root") (fun _ => 0) x_hex t) as [u|] eqn:S; [|vm_compute in S; discriminate].
      assert (LU : us_links u = [(f, r)]). { assert (X : option_map us_links (start x_parent (chars "root") (fun _ => 0) x_hex t) = Some [(f, r)]) by (vm_compute; reflexivity). rewrite S in X. injection X as X. exact X. }
      pose proof (Restart x_hex true (y [(r, f)] [] [(f, Removing r)]) x_parent (chars "root") (fun _ => 0) t u eq_refl) as RS. cbn [w_files w_calls y] in RS. rewrite LU in RS. apply RS; [|exact S].
      intros c g. cbn [contents t]. split.
      * intros [I|[]]. injection I as <- <-. exists 500. left. left. auto.
      * intros (z & [[(-> & -> & _)|[]]|[]]). left. reflexivity.
  - exact (RemoveFile x_hex true (y [(r, f)] [(f, r)] [(f, Removing r)]) r f (or_introl eq_refl)).
Qed.

(** a session that is created, linked and still there after a restart *)
Example C122_case : exists w, reach x_hex false w /\ w_links w = [(x_sid ++ ext, r)] /\ w_calls w = [].
Proof.
  set (f := x_sid ++ ext). exists (y [(r, f)] [(f, r)] []). split; [|split; reflexivity].
  apply (Step _ _ (y [(r, f)] [(f, r)] [])).
  - apply (Step _ _ (y [(r, f)] [] [(f, Creating r)])).
    + apply (Step _ _ (y [] [] [])); [apply Empty|]. apply Create; [vm_compute; reflexivity|intros c []|intros []].
    + exact (MakeLink x_hex false (y [(r, f)] [] [(f, Creating r)]) r f (or_introl eq_refl) (fun x => x)).
  - set (t := ADir (chars "root") true (AFile f 500 Nil) Nil).
    destruct (start x_parent (chars "root") (fun _ => 0) x_hex t) as [u|] eqn:S; [|vm_compute in S; discriminate].
    assert (LU : us_links u = [(f, r)]). { assert (X : option_map us_links (start x_parent (chars "root") (fun _ => 0) x_hex t) = Some [(f, r)]) by (vm_compute; reflexivity). rewrite S in X. injection X as X. exact X. }
    pose proof (Restart x_hex false (y [(r, f)] [(f, r)] []) x_parent (chars "root") (fun _ => 0) t u eq_refl) as RS. cbn [w_files w_calls y] in RS. rewrite LU in RS. apply RS; [|exact S].
    intros c g. cbn [contents t]. split.
    + intros [I|[]]. injection I as <- <-. exists 500. left. left. auto.
    + intros (z & [[(-> & -> & _)|[]]|[]]). left. reflexivity.
Qed.

Print Assumptions C119_names_partial.
Print Assumptions C119_tmpdir_refuted.
Print Assumptions C120_session_files.
Print Assumptions C120_usage_partial.
Print Assumptions C120_starts_partial.
Print Assumptions C120_dots_refuted.
Print Assumptions C121_fetch_partial.
Print Assumptions C121_relative_refuted.
Print Assumptions C122_catalog_partial.
Print Assumptions C122_survivor_refuted.
