(** Proofs about the clean-up of session files. *)
From Coq Require Import ZArith List Bool Lia ZifyBool ZifyNat.
From Verif Require Import Base BaseLemmas Arith_Model Time_Model Sched_Model Wire_Model Wire_Spec Wire_Proofs File_Model File_Spec File_Proofs File_Updates
  Double Double_Proofs Clean_Model Clean_Spec.
Import ListNotations.
Open Scope Z_scope.

Ltac pows := change (2^8) with 256 in *; change (2^16) with 65536 in *; change (2^32) with 4294967296 in *; change (2^62) with 4611686018427387904 in *; change (2^63) with 9223372036854775808 in *;
  change (2^64) with 18446744073709551616 in *.

Section Recorded.
Context {f header : list Z} {items : list item} (R : recorded f header items).

Lemma rec_len_f : length f = (length header + 25 * length items)%nat.
Proof.
  destruct R as (F & _ & _ & _ & _ & _ & _ & I & _). rewrite F, app_length. 
  assert (X: forall l : list item, Forall item_ok l -> length (concat (map fst l)) = (25 * length l)%nat).
  { induction 1 as [|x l [X _] I' IH]; [reflexivity|]. cbn [map concat length]. rewrite app_length, X, IH. lia. }
  rewrite (X _ I). reflexivity.
Qed.

Lemma rec_head : firstn (length header) f = header.
Proof. destruct R as (F & _). rewrite F, firstn_app, Nat.sub_diag, firstn_all. change (firstn 0 (concat (map fst items))) with (@nil Z). apply app_nil_r. Qed.

Lemma rec_initial : exists h, read_initial f = Some h /\ ih_version h = 3 /\ ih_recsize h = 25 /\ ih_odata h = Z.of_nat (length header) /\ ih_oskip h = 0 /\
  ih_size h = Z.of_nat (length header) + 25 * Z.of_nat (length items) /\ ih_ndata h = field header 20 4.
Proof.
  destruct R as (F & A & B & C & D & E & G & I & J). assert (L := rec_len_f).
  assert (S: forall o n, (o + n <= 40)%nat -> sub o n f = sub o n header) by (intros; rewrite F; apply sub_app_l; lia).
  assert (NB: forall o n l, be_dec (sub o n l) = field l o n) by (intros; unfold field, octs_at, sub; symmetry; apply number_be).
  eexists. split; [apply (initial_v3 f 3)|].
  - lia.
  - rewrite S by lia. exact A.
  - rewrite S, NB by lia. exact B.
  - now left.
  - cbn [ih_version ih_recsize ih_odata ih_oskip ih_size ih_ndata]. change (3 =? 3) with true. cbn [ih_recsize].
    rewrite !S, !NB, C, D by lia. rewrite off_t_small by (pows; lia). split; [reflexivity|]. split; [reflexivity|]. split; [reflexivity|]. split; [reflexivity|].
    split; [lia|reflexivity].
Qed.

Lemma concat_skip : forall (l : list item), Forall item_ok l -> forall i, skipn (25 * i) (concat (map fst l)) = concat (map fst (skipn i l)).
Proof.
  induction 1 as [|x l [X _] I IH]; intros i; [now rewrite !skipn_nil|].
  destruct i as [|i]; [reflexivity|]. cbn [map concat skipn]. replace (25 * S i)%nat with (length (fst x) + 25 * i)%nat by lia.
  rewrite skipn_app, skipn_all2 by lia. replace (length (fst x) + 25 * i - length (fst x))%nat with (25 * i)%nat by lia. apply IH.
Qed.

Lemma concat_first : forall (l : list item), Forall item_ok l -> forall i, firstn (25 * i) (concat (map fst l)) = concat (map fst (firstn i l)).
Proof.
  induction 1 as [|x l [X _] I IH]; intros i; [now rewrite !firstn_nil|].
  destruct i as [|i]; [reflexivity|]. cbn [map concat firstn]. replace (25 * S i)%nat with (length (fst x) + 25 * i)%nat by lia.
  rewrite firstn_app, firstn_all2 by lia. replace (length (fst x) + 25 * i - length (fst x))%nat with (25 * i)%nat by lia. f_equal. apply IH.
Qed.

Lemma read_at : forall h i, ih_version h = 3 -> ih_recsize h = 25 ->
  read_rec h (Z.of_nat (length header) + 25 * Z.of_nat i) f = nth_error items i.
Proof.
  intros h i V S. unfold read_rec. destruct (Z.ltb_spec (Z.of_nat (length header) + 25 * Z.of_nat i) 0); [lia|].
  rewrite S, V. unfold fread.
  replace (Z.to_nat (Z.of_nat (length header) + 25 * Z.of_nat i)) with (length header + 25 * i)%nat by lia. change (Z.to_nat 25) with 25%nat.
  assert (L := rec_len_f).
  destruct (nth_error items i) as [x|] eqn:N.
  - assert (i < length items)%nat by (apply nth_error_Some; congruence).
    destruct (Nat.ltb_spec (length f) (length header + 25 * i + 25)); [lia|].
    destruct R as (F & _ & _ & _ & _ & _ & _ & I & _).
    assert (E: sub (length header + 25 * i) 25 f = fst x).
    { unfold sub. rewrite F, skipn_app, skipn_all2 by lia. replace (length header + 25 * i - length header)%nat with (25 * i)%nat by lia.
      cbn [app]. rewrite (concat_skip items I). destruct (nth_error_split _ _ N) as (l1 & l2 & -> & <-).
      rewrite skipn_app, skipn_all, Nat.sub_diag. cbn [app]. change (skipn 0 (x :: l2)) with (x :: l2). cbn [map concat].
      apply Forall_app in I. destruct I as (_ & I). inversion I as [|? ? [X _] _]; subst. rewrite firstn_app, <- X, Nat.sub_diag, firstn_all.
      change (firstn 0 (concat (map fst l2))) with (@nil Z). apply app_nil_r. }
    rewrite E. assert (IX: item_ok x) by (rewrite Forall_forall in I; apply I; eapply nth_error_In; exact N).
    destruct IX as (_ & DX). rewrite DX. destruct x; reflexivity.
  - apply nth_error_None in N. destruct (Nat.ltb_spec (length f) (length header + 25 * i + 25)); [reflexivity|lia].
Qed.

(** ** The pass over the records *)
Variables (next thresh : Z).
Definition kept (x : item) : bool := (r_seq (snd x) <? next) && (owptime (r_send (snd x)) <=? thresh).
Definition bad (x : item) : bool := (next <=? r_seq (snd x)) && negb (is_lost (snd x)).
(** the contents of the new file so far *)
Definition contents (j : nat) (w : option (Z * list Z)) : list Z :=
  match w with None => firstn (length header + 25 * j) f | Some (l, x) => firstn (Z.to_nat l) f ++ x end.

Lemma contents_next : forall j x, nth_error items j = Some x -> firstn (length header + 25 * S j) f = firstn (length header + 25 * j) f ++ fst x.
Proof.
  intros j x N. destruct R as (F & _ & _ & _ & _ & _ & _ & I & _). rewrite F, !firstn_app.
  rewrite !(firstn_all2 header) by lia. rewrite <- app_assoc. f_equal.
  replace (length header + 25 * S j - length header)%nat with (25 * S j)%nat by lia.
  replace (length header + 25 * j - length header)%nat with (25 * j)%nat by lia.
  rewrite !(concat_first items I). destruct (nth_error_split _ _ N) as (l1 & l2 & -> & <-).
  replace (S (length l1)) with (length (l1 ++ [x])) by (rewrite app_length; cbn [length]; lia).
  change (l1 ++ x :: l2) with (l1 ++ [x] ++ l2). rewrite app_assoc, firstn_app, firstn_all, Nat.sub_diag.
  rewrite firstn_app. rewrite (firstn_app (length l1)), firstn_all, Nat.sub_diag. 
  replace (length l1 - length (l1 ++ [x]))%nat with 0%nat by (rewrite app_length; lia).
  change (firstn 0 l2) with (@nil item). change (firstn 0 [x]) with (@nil item). rewrite !app_nil_r, map_app, concat_app. cbn [map concat]. now rewrite app_nil_r.
Qed.

Lemma skip_cons : forall {A} (l : list A) j x, nth_error l j = Some x -> skipn j l = x :: skipn (S j) l.
Proof. induction l as [|a l IH]; intros [|j] x N; try discriminate; cbn [nth_error] in N; [injection N as ->; reflexivity|]. exact (IH j x N). Qed.

Lemma sweep_spec : forall h n j num maxr w, ih_version h = 3 -> ih_recsize h = 25 -> ih_odata h = Z.of_nat (length header) ->
  (j + n = length items)%nat -> Z.of_nat n <= num < 2^32 ->
  match sweep h f next thresh n (Z.of_nat j) (Z.of_nat (length header) + 25 * Z.of_nat j) num maxr w with
  | None => existsb bad (skipn j items) = true
  | Some (num', maxr', w') =>
      existsb bad (skipn j items) = false /\
      num' = num - Z.of_nat n + Z.of_nat (length (filter kept (skipn j items))) /\
      maxr' = fold_left Z.max (map (fun x => r_seq (snd x)) (filter kept (skipn j items))) maxr /\
      contents (length items) w' = contents j w ++ concat (map fst (filter kept (skipn j items))) /\
      (w' = None -> w = None /\ filter kept (skipn j items) = skipn j items)
  end.
Proof.
  intros h n. induction n as [|n IH]; intros j num maxr w V S O J N.
  - cbn [sweep]. rewrite (skipn_all2 items) by lia. cbn [existsb filter map concat length fold_left].
    split; [reflexivity|]. split; [lia|]. split; [reflexivity|]. rewrite app_nil_r. split; [|intros ->; auto]. replace j with (length items) by lia. reflexivity.
  - assert (X: exists x, nth_error items j = Some x).
    { destruct (nth_error items j) eqn:E; [eauto|]. apply nth_error_None in E. lia. }
    destruct X as (x & X). cbn [sweep]. rewrite (read_at h j V S), X. destruct x as (b & r).
    rewrite (skip_cons _ _ _ X). cbn [existsb filter].
    assert (B: bad (b, r) = (next <=? r_seq r) && negb (is_lost r)) by reflexivity.
    rewrite <- B. destruct (bad (b, r)) eqn:BB; [reflexivity|]. cbn [orb].
    assert (K: kept (b, r) = (r_seq r <? next) && (owptime (r_send r) <=? thresh)) by reflexivity. rewrite <- K.
    destruct R as (F & _ & _ & _ & _ & _ & _ & I & SZ).
    replace (Z.of_nat j + 1) with (Z.of_nat (Datatypes.S j)) by lia.
    replace (Z.of_nat (length header) + 25 * Z.of_nat j + ih_recsize h) with (Z.of_nat (length header) + 25 * Z.of_nat (Datatypes.S j)) by lia.
    destruct (kept (b, r)) eqn:KK.
    + specialize (IH (Datatypes.S j) num (Z.max (r_seq r) maxr) (match w with Some (l, x) => Some (l, x ++ b) | None => None end) V S O ltac:(lia) ltac:(lia)).
      destruct (sweep _ _ _ _ n _ _ _ _ _) as [((n', m'), w')|]; [|exact IH].
      destruct IH as (I1 & I2 & I3 & I4 & I5). split; [exact I1|]. cbn [length map concat fold_left snd].
      split; [lia|]. split; [rewrite I3; f_equal; lia|]. split.
      * rewrite I4. cbn [fst]. rewrite app_assoc. f_equal. destruct w as [(l, y)|]; cbn [contents]; [now rewrite app_assoc|].
        exact (contents_next j _ X).
      * intros W. destruct (I5 W) as (W1 & W2). destruct w as [(l, y)|]; [discriminate|]. split; [reflexivity|]. rewrite W2. reflexivity.
    + assert (U: u32 (num - 1) = num - 1) by (unfold u32; apply Z.mod_small; pows; lia). rewrite U.
      specialize (IH (Datatypes.S j) (num - 1) maxr (match w with Some _ => w | None => Some (ih_odata h + u32 (Z.of_nat j * ih_recsize h), []) end) V S O ltac:(lia) ltac:(lia)).
      destruct (sweep _ _ _ _ n _ _ _ _ _) as [((n', m'), w')|]; [|exact IH].
      destruct IH as (I1 & I2 & I3 & I4 & I5). split; [exact I1|]. split; [lia|]. split; [exact I3|]. split.
      * rewrite I4. f_equal. destruct w as [(l, y)|]; cbn [contents]; [reflexivity|]. rewrite app_nil_r.
        rewrite O, S. replace (u32 (Z.of_nat j * 25)) with (25 * Z.of_nat j) by (unfold u32; rewrite Z.mod_small; pows; lia).
        f_equal. lia.
      * intros W. destruct (I5 W) as (W1 & _). destruct w; discriminate.
Qed.
End Recorded.
