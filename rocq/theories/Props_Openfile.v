(** Properties of making, closing and fetching the files of sessions. *)
From Coq Require Import String.
From Coq Require Import ZArith List Bool Lia.
From Verif Require Import Base BaseLemmas Options_Spec Datadir_Model Openfile_Model.
Import ListNotations.
Local Arguments chars s%string.
Open Scope Z_scope.

(** * Specification *)

(** there is something with this name *)
Definition taken (d : fs) (n : path) : Prop := lookup n (f_files d) <> None \/ lookup n (f_links d) <> None.
(** nothing but the given names differs *)
Definition same_but (ns : list path) (d d' : fs) : Prop :=
  forall n, ~ In n ns -> lookup n (f_files d') = lookup n (f_files d) /\ lookup n (f_links d') = lookup n (f_links d).
Definition gone (d : fs) (n : path) : Prop := lookup n (f_files d) = None /\ lookup n (f_links d) = None.

(** * Names *)

Lemma eqb_oct : forall a b : list Z, eqb_octets a b = true <-> a = b.
Proof. intros a b. apply eqb_octets_spec. Qed.
Lemma eqb_oct_refl : forall a : list Z, eqb_octets a a = true.
Proof. intros a. apply eqb_oct. reflexivity. Qed.
Lemma eqb_oct_no : forall a b : list Z, a <> b -> eqb_octets a b = false.
Proof. intros a b N. destruct (eqb_octets a b) eqn:E; [|reflexivity]. apply eqb_oct in E. contradiction. Qed.

Lemma lookup_without : forall A (n m : path) (l : list (path * A)), lookup m (without n l) = if eqb_octets n m then None else lookup m l.
Proof.
  intros A n m l. unfold lookup, without. induction l as [|[k v] r IH]; cbn [filter find]; [destruct (eqb_octets n m); reflexivity|].
  cbn [fst]. destruct (eqb_octets k n) eqn:KN; cbn [negb].
  - apply eqb_oct in KN. subst k. rewrite IH. destruct (eqb_octets n m); reflexivity.
  - cbn [find fst]. destruct (eqb_octets k m) eqn:KM; [|exact IH]. apply eqb_oct in KM. subst k.
    rewrite (eqb_oct_no n m); [reflexivity|]. intros ->. rewrite eqb_oct_refl in KN. discriminate.
Qed.

Lemma unlink2 : forall p l d, gone (unlink p (unlink l d)) p /\ gone (unlink p (unlink l d)) l /\ same_but [p; l] d (unlink p (unlink l d)).
Proof.
  intros p l d. unfold gone, same_but, unlink. cbn [f_files f_links].
  split; [|split].
  - rewrite !lookup_without, eqb_oct_refl. split; reflexivity.
  - rewrite !lookup_without, eqb_oct_refl. destruct (eqb_octets p l); split; reflexivity.
  - intros n N. rewrite !lookup_without. rewrite !eqb_oct_no by (intros ->; apply N; cbn; auto). split; reflexivity.
Qed.

Lemma lookup_cons : forall A n m (v : A) l, lookup m ((n, v) :: l) = if eqb_octets n m then Some v else lookup m l.
Proof. intros A n m v l. unfold lookup. cbn [find fst]. destruct (eqb_octets n m); reflexivity. Qed.

(** * The file of a session is made *)

(** For names that are not in use: after success the file is there, empty, and the link leads to it; after failure neither is there.  Nothing else is touched, and the process holds
    the record and the open file exactly after success.
    Missing: names that are in use, and, for what the process holds, directories that cannot be made. *)
Theorem C173_new_partial : forall p l k d ok d' h, p <> l -> ~ taken d p -> ~ taken d l -> open_test p l k d = (ok, d', h) ->
  same_but [p; l] d d' /\
  (if ok then lookup p (f_files d') = Some 0 /\ lookup l (f_links d') = Some p /\ lookup l (f_files d') = None /\ lookup p (f_links d') = None
   else gone d' p /\ gone d' l) /\
  (k_dirs k = true -> k_catalog k = true -> h_record h = ok /\ h_handle h = ok) /\
  (ok = true <-> k_mem k = true /\ k_dirs k = true /\ k_catalog k = true /\ k_open k = true /\ k_link k = true).
Proof.
  intros p l k d ok d' h PL NP NL E.
  assert (GP : gone d p) by (unfold taken in NP; unfold gone; destruct (lookup p (f_files d)), (lookup p (f_links d)); split; try reflexivity; exfalso; apply NP; (left; congruence) || (right; congruence)).
  assert (GL : gone d l) by (unfold taken in NL; unfold gone; destruct (lookup l (f_files d)), (lookup l (f_links d)); split; try reflexivity; exfalso; apply NL; (left; congruence) || (right; congruence)).
  assert (SELF : same_but [p; l] d d) by (intros n _; split; reflexivity).
  unfold open_test in E. destruct k as [k1 k2 k3 k4 k5]. cbn [k_mem k_dirs k_catalog k_open k_link] in *.
  destruct k1; cbn [negb] in E.
  2: { injection E as <- <- <-. split; [exact SELF|]. split; [split; assumption|]. split; [split; reflexivity|]. split; [discriminate|intros [X _]; discriminate]. }
  destruct k2; cbn [negb] in E.
  2: { injection E as <- <- <-. split; [exact SELF|]. split; [split; assumption|]. split; [discriminate|]. split; [discriminate|intros (_ & X & _); discriminate]. }
  destruct k3; cbn [negb] in E.
  2: { injection E as <- <- <-. split; [exact SELF|]. split; [split; assumption|]. split; [discriminate|]. split; [discriminate|intros (_ & _ & X & _); discriminate]. }
  destruct k4; cbn [negb] in E.
  2: { injection E as <- <- <-. destruct (unlink2 p l d) as (A & B & C). split; [exact C|]. split; [split; assumption|]. split; [split; reflexivity|]. split; [discriminate|intros (_ & _ & _ & X & _); discriminate]. }
  cbv zeta in E. unfold fopen_w in E. cbn [f_files f_links] in E. destruct GP as [GP1 GP2], GL as [GL1 GL2].
  rewrite lookup_cons, lookup_without, (eqb_oct_no p l PL), GL1, GL2 in E. destruct k5.
  - injection E as <- <- <-. cbn [f_files f_links]. split.
    { intros n N. cbn [f_files f_links]. rewrite !lookup_cons, lookup_without, !eqb_oct_no by (intros ->; apply N; cbn; auto). split; reflexivity. }
    split.
    { rewrite !lookup_cons, !lookup_without, !eqb_oct_refl, (eqb_oct_no p l PL), (eqb_oct_no l p) by congruence. repeat split; assumption. }
    split; [split; reflexivity|]. split; [intros _; repeat split|reflexivity].
  - injection E as <- <- <-. set (d1 := mkFs ((p, 0) :: without p (f_files d)) (f_links d)). destruct (unlink2 p l d1) as (A & B & C). split.
    { intros n N. destruct (C n N) as [C1 C2]. rewrite C1, C2. unfold d1. cbn [f_files f_links]. rewrite lookup_cons, lookup_without, !eqb_oct_no by (intros ->; apply N; cbn; auto). split; reflexivity. }
    split; [split; assumption|]. split; [split; reflexivity|]. split; [discriminate|intros (_ & _ & _ & _ & X); discriminate].
Qed.

(** The session is over: file and link are both removed exactly if its size is known and it failed or is larger than granted; nothing else is touched *)
Theorem C173_end : forall p l aval st reserved more d,
  let remove := match st with None => False | Some size => aval <> 0 \/ (reserved < size /\ more = false) end in
  same_but [p; l] d (close_test p l aval st reserved more d) /\
  (remove -> gone (close_test p l aval st reserved more d) p /\ gone (close_test p l aval st reserved more d) l) /\
  (~ remove -> close_test p l aval st reserved more d = d).
Proof.
  intros p l aval st reserved more d. cbv zeta. destruct (unlink2 p l d) as (A & B & C).
  assert (SELF : same_but [p; l] d d) by (intros n _; split; reflexivity).
  unfold close_test. destruct st as [size|]; [|split; [exact SELF|split; [intros []|reflexivity]]].
  destruct (Z.eqb_spec aval 0) as [->|N]; cbn [negb].
  2: { split; [exact C|]. split; [split; assumption|]. intros X. exfalso. apply X. left. exact N. }
  destruct (Z.ltb_spec size reserved).
  { split; [exact SELF|]. split; [intros [X|[X _]]; [congruence|lia]|reflexivity]. }
  destruct (Z.ltb_spec reserved size).
  2: { split; [exact SELF|]. split; [intros [X|[X _]]; [congruence|lia]|reflexivity]. }
  destruct more.
  - split; [exact SELF|]. split; [intros [X|[_ X]]; [congruence|discriminate]|reflexivity].
  - split; [exact C|]. split; [split; assumption|]. intros X. exfalso. apply X. right. split; [assumption|reflexivity].
Qed.

Definition x_file : path := chars "/d/hierarchy/root/0000000000000000000000000000000a.owp".
Definition x_link : path := chars "/d/catalog/0000000000000000000000000000000a.owp".
Definition x_all : luck := Luck true true true true true.

(** A session whose identifier is in use: the stored session of that name is removed although the request is refused *)
Theorem C173_taken_refuted : exists d d' h, lookup x_file (f_files d) = Some 5000 /\ lookup x_link (f_links d) = Some x_file /\
  open_test x_file x_link x_all d = (false, d', h) /\ gone d' x_file /\ gone d' x_link.
Proof. exists (mkFs [(x_file, 5000)] [(x_link, x_file)]). eexists. eexists. split; [reflexivity|]. split; [reflexivity|]. split; [vm_compute; reflexivity|]. repeat split. Qed.

(** A directory that cannot be made: the record is lost *)
Theorem C173_record_refuted : exists k d d' h, open_test x_file x_link k d = (false, d', h) /\ h_record h = true.
Proof. exists (Luck true true false true true), (mkFs [] []). eexists. eexists. split; reflexivity. Qed.

Example C173_case : exists d' h, open_test x_file x_link x_all (mkFs [(chars "/d/x", 7)] []) = (true, d', h) /\ lookup (chars "/d/x") (f_files d') = Some 7 /\
  gone (close_test x_file x_link 2 (Some 100) 200 true d') x_file.
Proof. eexists. eexists. split; [vm_compute; reflexivity|]. repeat split. Qed.

(** * A session is fetched *)

Lemma last_part_some : forall n s, ~ In 47 n -> last_part (s ++ 47 :: n) = Some n.
Proof.
  assert (N : forall n, ~ In 47 n -> last_part n = None).
  { induction n as [|c t IH]; intros X; cbn [last_part]; [reflexivity|]. rewrite IH by (intros Y; apply X; right; exact Y).
    destruct (Z.eqb_spec c 47) as [->|]; [|reflexivity]. exfalso. apply X. left. reflexivity. }
  intros n s X. induction s as [|c t IH]; cbn [app last_part].
  - rewrite (N n X). reflexivity.
  - rewrite IH. reflexivity.
Qed.

(** A session that a class of the limits file has stored below the data directory is opened with that class, and when the fetch is over exactly this is changed: file and link are removed if
    all of it was fetched successfully and its class wants that.
    Missing: sessions of classes that are not in the limits file. *)
Theorem C174_fetch_partial : forall limits c0 dir class sid d l size del begin end_ aval,
  let target := (c0 :: dir) ++ chars "/" ++ class ++ chars "/" ++ sid ++ chars ".owp" in
  length sid = 32%nat -> ~ In 47 class -> Z.of_nat (length target) <= 4096 -> limits class = Some del ->
  lookup l (f_links d) = Some target -> lookup target (f_files d) = Some size ->
  exists n d', open_fetch l limits true d = Some (target, n) /\ close_fetch l target n begin end_ aval d = Some d' /\
    same_but [target; l] d d' /\
    (begin = 0 /\ end_ = 2^32 - 1 /\ aval = 0 /\ del = true -> gone d' target /\ gone d' l) /\
    (~ (begin = 0 /\ end_ = 2^32 - 1 /\ aval = 0 /\ del = true) -> d' = d).
Proof.
  intros limits c0 dir class sid d l size del begin end_ aval target LS NC LT LM LL LF.
  assert (LEN : (length target = length dir + length class + 39)%nat).
  { unfold target. change (chars "/") with [47]. change (chars ".owp") with [46; 111; 119; 112]. rewrite !app_length, LS. cbn [length]. lia. }
  assert (CL : class_of_link target = Some class).
  { unfold class_of_link.
    assert (F : firstn (length target - 37) target = c0 :: dir ++ 47 :: class).
    { rewrite LEN. unfold target. change (chars "/") with [47].
      replace ((c0 :: dir) ++ [47] ++ class ++ [47] ++ sid ++ chars ".owp") with ((c0 :: dir ++ 47 :: class) ++ [47] ++ sid ++ chars ".owp")
        by (cbn [app]; rewrite <- app_assoc; reflexivity).
      rewrite firstn_app. replace (length dir + length class + 39 - 37)%nat with (length (c0 :: dir ++ 47 :: class)) by (cbn [length]; rewrite app_length; cbn [length]; lia).
      rewrite firstn_all, Nat.sub_diag. cbn [firstn]. rewrite app_nil_r. reflexivity. }
    rewrite F. apply last_part_some. exact NC. }
  exists (Class del). unfold open_fetch. rewrite LL, CL, LM, LF.
  assert (OK : (PATH_MAX + 1 <=? len target) || (len target <? 37) = false) by (unfold len, PATH_MAX; rewrite LEN in *; lia). rewrite OK.
  destruct (unlink2 target l d) as (A & B & C). assert (SELF : same_but [target; l] d d) by (intros n _; split; reflexivity).
  unfold close_fetch. change (2^32 - 1) with 4294967295.
  destruct (Z.eqb_spec begin 0); cbn [andb].
  2: { exists d. split; [reflexivity|]. split; [reflexivity|]. split; [exact SELF|]. split; [intros (X & _); contradiction|reflexivity]. }
  destruct (Z.eqb_spec end_ 4294967295); cbn [andb].
  2: { exists d. split; [reflexivity|]. split; [reflexivity|]. split; [exact SELF|]. split; [intros (_ & X & _); contradiction|reflexivity]. }
  destruct (Z.eqb_spec aval 0).
  2: { exists d. split; [reflexivity|]. split; [reflexivity|]. split; [exact SELF|]. split; [intros (_ & _ & X & _); contradiction|reflexivity]. }
  destruct del; eexists; (split; [reflexivity|]); (split; [reflexivity|]).
  - split; [exact C|]. split; [intros _; split; assumption|]. intros X. exfalso. apply X. auto.
  - split; [exact SELF|]. split; [intros (_ & _ & _ & X); discriminate|reflexivity].
Qed.

(** A session whose class has been taken out of the limits file: it is opened, and when it has been fetched as a whole a pointer without value is used *)
Theorem C174_class_refuted : exists limits d n, lookup x_link (f_links d) = Some x_file /\ lookup x_file (f_files d) = Some 5000 /\
  open_fetch x_link limits true d = Some (x_file, n) /\ close_fetch x_link x_file n 0 4294967295 0 d = None.
Proof. exists (fun _ => None), (mkFs [(x_file, 5000)] [(x_link, x_file)]). eexists. split; [reflexivity|]. split; [reflexivity|]. split; [vm_compute; reflexivity|reflexivity]. Qed.

Example C174_case : open_fetch x_link (fun c => if eqb_octets c (chars "root") then Some true else None) true (mkFs [(x_file, 5000)] [(x_link, x_file)]) = Some (x_file, Class true).
Proof. vm_compute. reflexivity. Qed.

Print Assumptions C173_new_partial.
Print Assumptions C173_end.
Print Assumptions C173_taken_refuted.
Print Assumptions C173_record_refuted.
Print Assumptions C174_fetch_partial.
Print Assumptions C174_class_refuted.
