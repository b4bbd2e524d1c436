(** C99 - C101: configuration values *)
From Coq Require Import String ZArith List Bool Lia ZifyBool ZifyNat.
From Verif Require Import Base BaseLemmas Port_Model Options_Model Options_Spec Options_Proofs Config_Model Config_Spec Config_Proofs.
Import ListNotations.
Open Scope Z_scope.

(** C99: after any sequence of operations on keys of at most 64 characters, a key has exactly the value that was stored last and not deleted; missing: longer
    keys, and a replacement that fails in the hash table *)
Theorem C99_read_partial : forall l k, (List.length k <= 64)%nat -> Forall (fun o => (List.length (key_of o) <= 64)%nat) l ->
  (forall o, In o l -> key_of o = k -> ~ full o) ->
  (forall v, get_u (run empty l) k = Some (Some v) <-> holds l k v) /\ (get_u (run empty l) k = Some None <-> absent l k).
Proof.
  intros l k K F N. rewrite get_content by (apply run_ok, ok_empty). rewrite short_same by exact K. rewrite run_final by (try assumption; apply ok_empty).
  change (content empty k) with (@None Z). assert (H : forall v, final l k None = Some v <-> holds l k v) by (intros v; apply final_holds; exact N).
  split.
  - intros v. rewrite <- H. split; congruence.
  - unfold absent. split.
    + intros E v X. apply H in X. congruence.
    + intros A. destruct (final l k None) as [v|] eqn:E; [|reflexivity]. exfalso. apply (A v). apply H. reflexivity.
Qed.

(** C99: the number or the pointer that was stored is what is read *)
Theorem C99_kinds : forall l k, Forall (fun o => (List.length (key_of o) <= 64)%nat) l ->
  (forall n j, 0 <= n < 2 ^ 32 -> (List.length k <= 64)%nat -> get_u32 (run empty (l ++ [SetNumber k n j true true])) k = Some (Some n)) /\
  (forall v, (List.length k <= 64)%nat -> get_v (run empty (l ++ [SetPointer k v true true])) k = Some v).
Proof.
  intros l k F.
  assert (X : forall o, (List.length k <= 64)%nat -> key_of o = k -> get_u (run empty (l ++ [o])) k = Some (after_op o (final l k None))).
  { intros o K E. rewrite get_content by (apply run_ok, ok_empty). rewrite short_same by exact K.
    rewrite run_final; [|apply ok_empty|exact K|apply Forall_app; split; [exact F|constructor; [rewrite E; exact K|constructor]]].
    rewrite final_app. unfold final at 1. cbn [fold_left]. rewrite E, eqb_octets_refl. reflexivity. }
  split.
  - intros n j N K. unfold get_u32. rewrite X by auto. cbn [after_op negb]. f_equal. f_equal. unfold u32. rewrite Z.add_comm, Z_mod_plus_full. apply Z.mod_small. lia.
  - intros v K. unfold get_v. rewrite X by auto. reflexivity.
Qed.

(** C99: whatever the keys and failures, no freed record is ever read, and an operation tells whether it has succeeded *)
Theorem C99_safe : forall l k, get_u (run empty l) k <> None.
Proof. intros l k. rewrite get_content by (apply run_ok, ok_empty). discriminate. Qed.
Theorem C99_results : forall l k v a b,
  snd (set_u (run empty l) k v a b) = (a && b)%bool /\ (snd (delete (run empty l) k) = true <-> exists v, get_u (run empty l) k = Some (Some v)).
Proof.
  intros l k v a b. assert (K : ok (run empty l)) by (apply run_ok, ok_empty). split; [apply set_ok; exact K|].
  destruct (deleted_ok _ k K) as (_ & _ & ->). rewrite get_content by exact K. destruct (content (run empty l) (short k)) as [w|]; split; try discriminate; eauto.
  intros (w & E). discriminate.
Qed.

(** C99: the keys that the library and the daemon use are short enough and different *)
Theorem C99_library_keys : Forall (fun k => (List.length k <= 64)%nat) library_keys /\ NoDup library_keys.
Proof.
  split.
  - apply Forall_forall. intros k I. repeat (destruct I as [<-|I]; [apply Nat.leb_le; reflexivity|]). destruct I.
  - assert (E : nodup (list_eq_dec Z.eq_dec) library_keys = library_keys) by (vm_compute; reflexivity). rewrite <- E. apply NoDup_nodup.
Qed.

(** C99: keys that differ only after 64 characters are the same key *)
Theorem C99_long_refuted : forall k x y v, List.length k = 64%nat -> get_u (run empty [SetPointer (k ++ x) v true true]) (k ++ y) = Some (Some v).
Proof.
  intros k x y v L. rewrite get_content by (apply run_ok, ok_empty). unfold run. cbn [fold_left].
  destruct (apply_ok empty (SetPointer (k ++ x) v true true) ok_empty) as (_ & ->). cbn [key_of after_op negb].
  assert (S1 : forall z, short (k ++ z) = k) by (intros z; unfold short; rewrite firstn_app, L, Nat.sub_diag; rewrite firstn_O, app_nil_r; apply firstn_all2; lia).
  rewrite !S1, eqb_octets_refl. reflexivity.
Qed.

(** C99: a replacement that fails takes the old value away *)
Theorem C99_failed_refuted : forall k v w, (List.length k <= 64)%nat ->
  let l := [SetPointer k v true true; SetPointer k w true false] in holds l k v /\ get_u (run empty l) k = Some None.
Proof.
  intros k v w K l. split.
  - exists [], (SetPointer k v true true), [SetPointer k w true false]. split; [reflexivity|]. split; [cbn; auto|].
    intros o [<-|[]] _. split; [auto|]. cbn. intros v' (_ & _ & _ & X). discriminate.
  - rewrite get_content by (apply run_ok, ok_empty). rewrite short_same by exact K.
    rewrite run_final; [|apply ok_empty|exact K|unfold l; constructor; [exact K|constructor; [exact K|constructor]]]. unfold l, final. cbn [fold_left key_of]. rewrite eqb_octets_refl. reflexivity.
Qed.

(** C99: when the context is freed, all memory of its configuration is released if nothing was deleted from it *)
Theorem C99_memory_partial : forall l, Forall (fun o => ~ is_delete o) l -> heap (free_entries (run empty l)) = [].
Proof.
  intros l F. assert (X : forall i, ~ In i (map fst (heap (free_entries (run empty l))))).
  { intros i I. cbn [free_entries heap] in I. apply free_all in I. destruct I as (I & N). apply N. apply run_tight; try assumption; [apply ok_empty|intros j []]. }
  destruct (heap (free_entries (run empty l))) as [|p h]; [reflexivity|]. exfalso. apply (X (fst p)). left. reflexivity.
Qed.

(** C99: deleting a key does not release its record, so the memory in use is not bounded by the number of keys *)
Theorem C99_memory_refuted : forall n, exists l, List.length (heap (free_entries (run empty l))) = n /\ tab (run empty l) = [].
Proof.
  intros n. exists (flat_map (fun _ => [SetPointer [65] 0 true true; Delete [65]]) (seq 0 n)).
  assert (X : forall m h f, (exists h', run (Store [] h f) (flat_map (fun _ => [SetPointer [65] 0 true true; Delete [65]]) (seq m n)) = Store [] h' (f + n)%nat /\
     List.length h' = (List.length h + n)%nat)).
  { induction n as [|n IH]; intros m h f; cbn [seq flat_map app]; [exists h; rewrite !Nat.add_0_r; auto|].
    unfold run in *. cbn [fold_left]. destruct (IH (S m) ((f, 0) :: h) (S f)) as (h' & E & L). exists h'. split.
    - etransitivity; [exact E|]. f_equal. lia.
    - rewrite L. cbn [List.length]. lia. }
  destruct (X 0%nat [] 0%nat) as (h' & E & L). change empty with (Store [] [] 0). rewrite E. split; [|reflexivity]. cbn [free_entries heap tab fold_left]. rewrite L. reflexivity.
Qed.

Example C99_case :
  let l := [SetPointer (chars "OWPGetPF") 7 true true; SetNumber (chars "TWPTestTimeout") 900 3 true true; SetNumber (chars "TWPTestTimeout") 60 5 true true;
            SetPointer (chars "OWPGetPF") 8 false true; Delete (chars "OWPOpenFile")] in
  get_v (run empty l) (chars "OWPGetPF") = Some 7 /\ get_u32 (run empty l) (chars "TWPTestTimeout") = Some (Some 60) /\ get_v (run empty l) (chars "OWPOpenFile") = Some 0 /\
  heap (free_entries (run empty l)) = [].
Proof. vm_compute. repeat split; reflexivity. Qed.

(** C100: without the option the count of the key derivation is 2048, as documented *)
Theorem C100_default_partial : forall junk, greeting_count (daemon_context 0 junk) = 2048.
Proof. reflexivity. Qed.

(** C100: with it too: the count is taken from the configuration when the context is created and the configuration is still empty, so nothing that an
    application configures later changes it *)
Theorem C100_count_refuted : (forall l, greeting_count (configure create l) = 2048) /\
  (forall n junk, 0 < n < 2 ^ 32 -> greeting_count (daemon_context n junk) = 2048 /\ get_u32 (table (daemon_context n junk)) (chars "OWPKeyDerivationCount") = Some (Some n)).
Proof.
  split; [reflexivity|]. intros n junk N. unfold daemon_context. destruct (Z.eqb_spec n 0) as [->|X]; [lia|]. split; [reflexivity|].
  exact (proj1 (C99_kinds [] (chars "OWPKeyDerivationCount") (Forall_nil _)) n junk ltac:(lia) ltac:(apply Nat.leb_le; reflexivity)).
Qed.

Example C100_case : greeting_count (daemon_context 100000 0) = 2048.
Proof. reflexivity. Qed.

(** C101: a number below 2^32 in owampd.conf, with blanks before it, is the value of its option; one of 2^64 or more is refused; something that does not start
    with a digit or a sign is refused *)
Theorem C101_number_partial : forall pre s, Forall (fun c => 9 <= c <= 13 \/ c = 32) pre -> numeral s ->
  (value s < 2 ^ 32 -> conf_number (pre ++ s) = Some (value s)) /\ (2 ^ 64 <= value s -> conf_number (pre ++ s) = None).
Proof.
  intros pre s P N. pose proof (conf_numeral pre [] s [] P (or_introl eq_refl) N I) as E. cbn [app] in E. rewrite app_nil_r in E. rewrite E.
  pose proof (value_nonneg s (proj2 N)). split; intros L.
  - destruct (Z.ltb_spec 18446744073709551615 (value s)); [lia|]. f_equal. unfold u32. apply Z.mod_small. lia.
  - destruct (Z.ltb_spec 18446744073709551615 (value s)); [reflexivity|lia].
Qed.
Theorem C101_words : forall c s, 58 <= c -> conf_number (c :: s) = None.
Proof.
  intros c s C. unfold conf_number, strtoul10. cbn [skip_space]. assert (X : is_space c = false) by (unfold is_space; lia). rewrite X.
  assert (E : (match c :: s with 45 :: r => (true, r) | 43 :: r => (false, r) | t => (false, t) end) = (false, c :: s)).
  { clear X. destruct c as [|p|p]; try lia. do 6 (destruct p; try lia; try reflexivity). }
  rewrite E. assert (D : (digit c <? 10) = false).
  { unfold digit. destruct ((48 <=? c) && (c <=? 57)) eqn:?; [lia|]. destruct ((97 <=? lower c) && (lower c <=? 102)) eqn:?; lia. }
  rewrite D. rewrite Nat.eqb_refl. reflexivity.
Qed.

(** C101: a number from 2^32 to 2^64 is cut to 32 bits, ... *)
Theorem C101_cut_refuted : forall s, numeral s -> 2 ^ 32 <= value s < 2 ^ 64 -> conf_number s = Some (value s mod 2 ^ 32).
Proof.
  intros s N V. pose proof (conf_numeral [] [] s [] (Forall_nil _) (or_introl eq_refl) N I) as E. cbn [app] in E. rewrite app_nil_r in E. rewrite E.
  destruct (Z.ltb_spec 18446744073709551615 (value s)); [lia|reflexivity].
Qed.
(** C101: ... a negative number is taken modulo 2^32, ... *)
Theorem C101_negative_refuted : forall s, numeral s -> value s < 2 ^ 64 -> conf_number (45 :: s) = Some ((- value s) mod 2 ^ 32).
Proof.
  intros s N V. pose proof (conf_numeral [] [45] s [] (Forall_nil _) (or_intror (or_intror (or_introl eq_refl))) N I) as E. cbn [app] in E. rewrite app_nil_r in E. rewrite E.
  destruct (Z.ltb_spec 18446744073709551615 (value s)); [lia|reflexivity].
Qed.
(** C101: ... and what follows a number is ignored *)
Theorem C101_rest_refuted : forall s rest, numeral s -> value s < 2 ^ 32 -> (match rest with c :: _ => 58 <= c | [] => False end) -> conf_number (s ++ rest) = Some (value s).
Proof.
  intros s rest N V R. pose proof (conf_numeral [] [] s rest (Forall_nil _) (or_introl eq_refl) N) as E. cbn [app] in E. rewrite E.
  - pose proof (value_nonneg s (proj2 N)). destruct (Z.ltb_spec 18446744073709551615 (value s)); [lia|]. f_equal. unfold u32. apply Z.mod_small. lia.
  - destruct rest as [|c r]; [destruct R|]. unfold digit. destruct ((48 <=? c) && (c <=? 57)) eqn:?; [lia|]. destruct ((97 <=? lower c) && (lower c <=? 102)) eqn:?; lia.
Qed.

Example C101_case :
  conf_number (chars "1800") = Some 1800 /\ conf_number (chars "30m") = Some 30 /\ conf_number (chars "-1") = Some 4294967295 /\ conf_number (chars "no") = None /\
  conf_number (chars "4294967296") = Some 0 /\ (forall used, 0 <= used < 2 ^ 32 -> too_many 0 used = false).
Proof. repeat (split; [vm_compute; reflexivity|]). reflexivity. Qed.

Print Assumptions C99_read_partial.
Print Assumptions C99_kinds.
Print Assumptions C99_safe.
Print Assumptions C99_results.
Print Assumptions C99_library_keys.
Print Assumptions C99_long_refuted.
Print Assumptions C99_failed_refuted.
Print Assumptions C99_memory_partial.
Print Assumptions C99_memory_refuted.
Print Assumptions C100_default_partial.
Print Assumptions C100_count_refuted.
Print Assumptions C101_number_partial.
Print Assumptions C101_words.
Print Assumptions C101_cut_refuted.
Print Assumptions C101_negative_refuted.
Print Assumptions C101_rest_refuted.
