(** Proofs about policy messages and the choice of the class of a connection. *)
From Coq Require Import ZArith List Bool Lia.
From Coq Require Import ZifyBool ZifyNat.
From Verif Require Import Base BaseLemmas Control_Proofs File_Proofs Policy_Model.
Import ListNotations.
Open Scope Z_scope.
Ltac Zify.zify_post_hook ::= Z.div_mod_to_equations.

(** ** host order numbers *)
Lemma le_enc_len : forall n x, length (le_enc n x) = n.
Proof. induction n; intros; cbn [le_enc length]; auto. Qed.
Lemma le_dec_enc : forall n x, 0 <= x < 256 ^ Z.of_nat n -> le_dec (le_enc n x) = x.
Proof.
  induction n as [|n IH]; intros x H; cbn [le_enc le_dec]; [change (256 ^ Z.of_nat 0) with 1 in H; lia|].
  replace (256 ^ Z.of_nat (S n)) with (256 * 256 ^ Z.of_nat n) in H by (rewrite Nat2Z.inj_succ, Z.pow_succ_r by lia; reflexivity).
  rewrite IH by (split; [lia|apply Z.div_lt_upper_bound; lia]). lia.
Qed.
Lemma le_enc_dec : forall l, octets l -> le_enc (length l) (le_dec l) = l.
Proof.
  induction l as [|b l IH]; intros O; cbn [le_dec length le_enc]; auto. inversion O; subst. unfold is_u8 in *.
  f_equal; [lia|]. replace ((b + 256 * le_dec l) / 256) with (le_dec l) by lia. auto.
Qed.
Lemma le_dec_inj : forall a b, octets a -> octets b -> length a = length b -> le_dec a = le_dec b -> a = b.
Proof. intros a b Oa Ob L E. rewrite <- (le_enc_dec a), <- (le_enc_dec b), L, E by auto. reflexivity. Qed.
Lemma le_enc_oct : forall n x, octets (le_enc n x).
Proof. induction n; intros; cbn [le_enc]; constructor; [unfold is_u8; lia|apply IHn]. Qed.

Ltac skipf := rewrite sub_app_r by (rewrite le_enc_len; lia); rewrite le_enc_len; cbn [Nat.sub].
Ltac wholef := rewrite sub_whole by apply le_enc_len.
Ltac lastf := rewrite sub_all by apply le_enc_len.

Lemma read_send_response : forall m, 0 <= m < 2^32 -> read_response (send_response m) = m.
Proof.
  intros m H. unfold read_response, send_response.
  rewrite !app_length, !le_enc_len. cbn [Nat.add Nat.eqb negb].
  wholef. do 2 skipf. lastf. skipf. wholef. rewrite !le_dec_enc by (cbn; lia). rewrite Z.eqb_refl. reflexivity.
Qed.
Lemma read_response_inv : forall buf, octets buf -> read_response buf <> MESGINVALID -> buf = send_response (read_response buf).
Proof.
  intros buf O. unfold read_response. destruct (Nat.eqb_spec (length buf) 12) as [L|]; cbn [negb]; [|congruence].
  destruct (Z.eqb_spec (le_dec (sub 0 4 buf)) MESGMARK) as [M1|]; cbn [negb orb]; [|congruence].
  destruct (Z.eqb_spec (le_dec (sub 8 4 buf)) MESGMARK) as [M2|]; cbn [negb orb]; [|congruence].
  intros _. unfold send_response.
  assert (X: forall o, (o + 4 <= 12)%nat -> le_enc 4 (le_dec (sub o 4 buf)) = sub o 4 buf).
  { intros o Ho. pose proof (le_enc_dec (sub o 4 buf) (sub_octets _ _ _ O)) as Q. rewrite sub_length in Q by lia. exact Q. }
  rewrite <- M1 at 1. rewrite <- M2 at 1. rewrite !X by lia.
  rewrite <- (sub_app_split 4 4 4), <- (sub_app_split 0 4 8). symmetry. apply sub_all. exact L.
Qed.

Lemma read_send_query : forall q lim v, q = MESGREQUEST \/ q = MESGRELEASE \/ q = MESGCLAIM -> 0 <= lim < 2^32 -> 0 <= v < 2^64 ->
  read_query (send_query q lim v) = (Some (q, lim, v), false).
Proof.
  intros q lim v Q Hl Hv. unfold read_query, send_query.
  rewrite !app_length, !le_enc_len. cbn [Nat.add Nat.eqb negb].
  wholef. do 5 skipf. lastf. do 1 skipf. wholef. do 2 skipf. wholef. do 3 skipf. wholef. do 4 skipf. wholef.
  assert (0 <= q < 2^32) by (destruct Q as [->|[-> | ->]]; lia).
  rewrite !le_dec_enc by (cbn; lia). rewrite !Z.eqb_refl. cbn [negb orb].
  destruct Q as [->|[-> | ->]]; cbn [Z.eqb Pos.eqb orb]; reflexivity.
Qed.
Lemma read_query_inv : forall buf q lim v e, octets buf -> read_query buf = (Some (q, lim, v), e) ->
  buf = send_query q lim v /\ e = false /\ (q = MESGREQUEST \/ q = MESGRELEASE \/ q = MESGCLAIM).
Proof.
  intros buf q lim v e O. unfold read_query. destruct (Nat.eqb_spec (length buf) 28) as [L|]; cbn [negb]; [|discriminate].
  destruct (Z.eqb_spec (le_dec (sub 0 4 buf)) MESGMARK) as [M1|]; cbn [negb orb]; [|discriminate].
  destruct (Z.eqb_spec (le_dec (sub 24 4 buf)) MESGMARK) as [M2|]; cbn [negb orb]; [|discriminate].
  destruct (Z.eqb_spec (le_dec (sub 4 4 buf)) MESGRESOURCE) as [M3|]; cbn [negb orb]; [|discriminate].
  destruct (_ || _)%bool eqn:K; [|discriminate]. intros E. injection E as <- <- <- <-.
  split; [|split; [auto|lia]]. unfold send_query.
  assert (X: forall o n, (o + n <= 28)%nat -> le_enc n (le_dec (sub o n buf)) = sub o n buf).
  { intros o n Ho. pose proof (le_enc_dec (sub o n buf) (sub_octets _ _ _ O)) as Q. rewrite sub_length in Q by lia. exact Q. }
  rewrite <- M1 at 1. rewrite <- M2 at 1. rewrite <- M3. rewrite !X by lia.
  rewrite <- (sub_app_split 16 8 4), <- (sub_app_split 12 4 12), <- (sub_app_split 8 4 16), <- (sub_app_split 4 4 20), <- (sub_app_split 0 4 24).
  symmetry. apply sub_all. exact L.
Qed.

(** ** class names *)
Lemma read_name_app : forall s n r, ~ In 0 s -> (length s < n)%nat -> read_name n (s ++ 0 :: r) = Some (s, r).
Proof.
  induction s as [|c s IH]; intros n r N H; destruct n as [|n]; cbn [length] in H; try lia; cbn [app read_name].
  - reflexivity.
  - destruct (Z.eqb_spec c 0) as [->|]; [exfalso; apply N; left; auto|]. rewrite IH by (auto; try lia; intro; apply N; right; auto). reflexivity.
Qed.
Lemma read_name_inv : forall n buf s r, read_name n buf = Some (s, r) -> buf = s ++ 0 :: r /\ ~ In 0 s /\ (length s < n)%nat.
Proof.
  induction n as [|n IH]; intros buf s r E; destruct buf as [|c buf]; cbn [read_name] in E; try discriminate.
  destruct (Z.eqb_spec c 0) as [->|].
  - injection E as <- <-. cbn. repeat split; auto; lia.
  - destruct (read_name n buf) as [[s' r']|] eqn:R; [|discriminate]. injection E as <- <-. destruct (IH _ _ _ R) as (-> & N & L).
    cbn [length]. repeat split; [intros [->|I]; auto|lia].
Qed.

Lemma sub04 : forall a b n, length a = n -> sub 0 n (a ++ b) = a.
Proof. intros. now apply sub_whole. Qed.

Lemma read_send_class : forall name rest, ~ In 0 name -> (length name <= 80)%nat ->
  exists m, send_class name = Some m /\ read_class (m ++ rest) = Some (name, rest).
Proof.
  intros name rest N L. unfold send_class.
  set (m := le_enc 4 MESGMARK ++ le_enc 4 MESGCLASS ++ name ++ [0] ++ le_enc 4 MESGMARK).
  assert (Lm: length m = (13 + length name)%nat) by (unfold m; rewrite !app_length, !le_enc_len; cbn [length]; lia).
  destruct (Nat.leb_spec (length m) 93); [|lia]. exists m. split; auto. unfold read_class.
  destruct (Nat.ltb_spec (length (m ++ rest)) 8) as [B|]; [rewrite app_length in B; lia|].
  assert (E: m ++ rest = le_enc 4 MESGMARK ++ le_enc 4 MESGCLASS ++ name ++ 0 :: le_enc 4 MESGMARK ++ rest) by (unfold m; rewrite <- !app_assoc; reflexivity).
  rewrite E. wholef. skipf. wholef. rewrite !eqb_octets_refl. cbn [negb orb].
  replace (skipn 8 (le_enc 4 MESGMARK ++ le_enc 4 MESGCLASS ++ name ++ 0 :: le_enc 4 MESGMARK ++ rest)) with (name ++ 0 :: le_enc 4 MESGMARK ++ rest) by reflexivity.
  rewrite read_name_app by (auto; lia).
  destruct (Nat.ltb_spec (length (le_enc 4 MESGMARK ++ rest)) 4) as [B|]; [rewrite app_length, le_enc_len in B; lia|].
  wholef. rewrite eqb_octets_refl. reflexivity.
Qed.
Lemma read_class_inv : forall buf name rest, read_class buf = Some (name, rest) ->
  ~ In 0 name /\ (length name <= 80)%nat /\ exists m, send_class name = Some m /\ buf = m ++ rest.
Proof.
  intros buf name rest. unfold read_class. destruct (Nat.ltb_spec (length buf) 8); [discriminate|].
  destruct (eqb_octets (sub 0 4 buf) (le_enc 4 MESGMARK)) eqn:A; cbn [negb orb]; [|discriminate]. apply eqb_octets_spec in A.
  destruct (eqb_octets (sub 4 4 buf) (le_enc 4 MESGCLASS)) eqn:B; cbn [negb orb]; [|discriminate]. apply eqb_octets_spec in B.
  destruct (read_name 81 (skipn 8 buf)) as [[s r]|] eqn:R; [|discriminate].
  destruct (Nat.ltb_spec (length r) 4) as [|Lr]; cbn [orb]; [discriminate|].
  destruct (eqb_octets (sub 0 4 r) (le_enc 4 MESGMARK)) eqn:C; cbn [negb]; [|discriminate]. apply eqb_octets_spec in C.
  intros E. injection E as <- <-. destruct (read_name_inv _ _ _ _ R) as (E & N & L). split; auto. split; [lia|].
  unfold send_class. set (m := le_enc 4 MESGMARK ++ le_enc 4 MESGCLASS ++ s ++ [0] ++ le_enc 4 MESGMARK).
  assert (Lm: length m = (13 + length s)%nat) by (unfold m; rewrite !app_length, !le_enc_len; cbn [length]; lia).
  destruct (Nat.leb_spec (length m) 93); [|lia]. exists m. split; auto. unfold m.
  rewrite <- (firstn_skipn 8 buf) at 1. rewrite E.
  replace (firstn 8 buf) with (sub 0 4 buf ++ sub 4 4 buf) by (rewrite <- (sub_app_split 0 4 4); reflexivity).
  rewrite A, B. rewrite <- !app_assoc. do 3 f_equal. cbn [app]. f_equal.
  rewrite <- C. unfold sub. cbn [skipn]. symmetry. apply firstn_skipn.
Qed.

Lemma find_class_from_spec : forall t name i j, find_class_from i name t = Some j -> exists n, (i <= j)%nat /\ nth_error t (j - i) = Some n /\ nd_name n = name.
Proof.
  induction t as [|n t IH]; intros name i j E; cbn [find_class_from] in E; [discriminate|].
  destruct (eqb_octets (nd_name n) name) eqn:Q.
  - injection E as <-. exists n. apply eqb_octets_spec in Q. rewrite Nat.sub_diag. auto.
  - destruct (IH _ _ _ E) as (n' & A & B & C). exists n'. split; [lia|]. split; auto. replace (j - i)%nat with (S (j - S i)) by lia. exact B.
Qed.
Lemma find_class_some : forall t name j, find_class name t = Some j -> exists n, nth_error t j = Some n /\ nd_name n = name.
Proof. intros t name j E. destruct (find_class_from_spec _ _ _ _ E) as (n & _ & B & C). rewrite Nat.sub_0_r in B. eauto. Qed.
Lemma find_class_from_complete : forall t i j n, NoDup (map nd_name t) -> nth_error t j = Some n -> find_class_from i (nd_name n) t = Some (i + j)%nat.
Proof.
  induction t as [|m t IH]; intros i j n N E; [destruct j; discriminate|]. cbn [find_class_from]. inversion N; subst. destruct j as [|j]; cbn [nth_error] in E.
  - injection E as <-. rewrite eqb_octets_refl. f_equal. lia.
  - destruct (eqb_octets (nd_name m) (nd_name n)) eqn:Q.
    + exfalso. apply eqb_octets_spec in Q. apply H1. rewrite Q. apply in_map. eapply nth_error_In; eauto.
    + rewrite (IH (S i) j n); auto. f_equal. lia.
Qed.
Lemma find_class_complete : forall t j n, NoDup (map nd_name t) -> nth_error t j = Some n -> find_class (nd_name n) t = Some j.
Proof. intros. apply (find_class_from_complete t 0 j n); auto. Qed.
