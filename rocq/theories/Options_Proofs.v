From Coq Require Import String ZArith List Bool Lia ZifyBool ZifyNat QArith Qround.
From Verif Require Import Base BaseLemmas Port_Model Options_Model Options_Spec.
Import ListNotations.
Open Scope Z_scope.

Lemma skip_blank : forall pre s, blank pre -> skip_space (pre ++ s) = skip_space s.
Proof.
  induction pre as [|c pre IH]; intros s B; [reflexivity|]. inversion B as [|x y B1 B2]; subst. cbn [app skip_space].
  assert (H : is_space c = true) by (unfold is_space; lia). rewrite H. apply IH. exact B2.
Qed.

Lemma skip_split : forall s, exists pre, blank pre /\ s = pre ++ skip_space s.
Proof.
  induction s as [|c s (pre & B & E)]; [exists []; split; [constructor|reflexivity]|]. cbn [skip_space].
  destruct (is_space c) eqn:S; [|exists []; split; [constructor|reflexivity]].
  exists (c :: pre). split; [constructor; [unfold is_space in S; lia|exact B]|]. cbn [app]. rewrite <- E. reflexivity.
Qed.

Lemma skip_nil_blank : forall s, skip_space s = [] -> blank s.
Proof. intros s H. destruct (skip_split s) as (pre & B & E). rewrite H, app_nil_r in E. rewrite E. exact B. Qed.

Ltac ifs := unfold digit, lower, upper in *; repeat match goal with |- context [if ?b then _ else _] => destruct b eqn:? | H : context [if ?b then _ else _] |- _ => destruct b eqn:? end; lia.

(** ** names *)
Lemma parse_named : forall pre name d, blank pre -> In (name, d) dscp_names -> parse_typeP (pre ++ chars name) = Some (d * 16777216).
Proof.
  intros pre name d B I. unfold parse_typeP, strtoul0. rewrite skip_blank by exact B.
  assert (E : exists c r, pre ++ chars name = c :: r).
  { destruct pre as [|c pre]; [|exists c; eexists; reflexivity]. cbn [app].
    repeat (destruct I as [I|I]; [injection I as <- <-; eexists; eexists; reflexivity|]). destruct I. }
  destruct E as (c & r & E).
  repeat (destruct I as [I|I]; [injection I as <- <-; cbv - [app blank]; cbv - [app blank] in E; rewrite E; reflexivity|]). destruct I.
Qed.

Definition below64 (P : Z -> bool) : bool := forallb (fun n => P (Z.of_nat n)) (seq 0 64).
Lemma below64_ok : forall P, below64 P = true -> forall d, 0 <= d < 64 -> P d = true.
Proof.
  intros P H d D. unfold below64 in H. rewrite forallb_forall in H. specialize (H (Z.to_nat d)). rewrite Z2Nat.id in H by lia.
  apply H. apply in_seq. lia.
Qed.

Lemma parse_number : forall d, 0 <= d < 64 ->
  parse_typeP (decimal d) = Some (d * 16777216) /\ parse_typeP (octal d) = Some (d * 16777216) /\ parse_typeP (hexadecimal d) = Some (d * 16777216).
Proof.
  intros d D.
  assert (X : forall f, below64 (fun d => match parse_typeP (f d) with Some t => t =? d * 16777216 | None => false end) = true -> parse_typeP (f d) = Some (d * 16777216)).
  { intros f H. apply (below64_ok _ H) in D. cbv beta in D. revert D. destruct (parse_typeP (f d)) as [t|]; [|discriminate]. intros D. f_equal. lia. }
  split; [|split]; apply X; vm_compute; reflexivity.
Qed.

Lemma digits_nonneg : forall base s acc v r, 0 <= base -> 0 <= acc -> digits base acc s = (v, r) -> 0 <= v.
Proof.
  intros base. induction s as [|c s IH]; intros acc v r B A E; cbn [digits] in E; [injection E as <- <-; exact A|].
  destruct (digit c <? base); [|injection E as <- <-; exact A].
  eapply IH; [exact B| |exact E]. assert (0 <= digit c) by ifs. nia.
Qed.

Lemma strtoul0_nonneg : forall s v r, strtoul0 s = (v, r) -> 0 <= v.
Proof.
  intros s v r E. unfold strtoul0 in E.
  destruct (match skip_space s with 45 :: r0 => (true, r0) | 43 :: r0 => (false, r0) | t => (false, t) end) as [neg t].
  assert (C : forall base u, 0 <= base -> (let '(v0, r0) := digits base 0 u in
      (if 18446744073709551615 <? v0 then 18446744073709551615 else if neg then (- v0) mod 18446744073709551616 else v0, r0)) = (v, r) -> 0 <= v).
  { intros base u B X. destruct (digits base 0 u) as [v0 r0] eqn:D. apply digits_nonneg in D; [|exact B|lia]. injection X as <- <-.
    destruct (18446744073709551615 <? v0); [lia|]. destruct neg; [|exact D]. apply Z.mod_pos_bound. lia. }
  destruct t as [|c t]; [injection E as <- <-; lia|].
  assert (G : (if digit c <? 10 then (let '(v0, r0) := digits 10 0 (c :: t) in
      (if 18446744073709551615 <? v0 then 18446744073709551615 else if neg then (- v0) mod 18446744073709551616 else v0, r0)) else (0, s)) = (v, r) -> 0 <= v).
  { destruct (digit c <? 10); [apply C; lia|]. intros X. injection X as <- <-. lia. }
  destruct (Z.eq_dec c 48) as [->|N].
  - destruct t as [|x [|h t]]; [apply (C 8 [48]); [lia|exact E]|apply (C 8 [48; x]); [lia|exact E]|].
    destruct ((lower x =? 120) && (digit h <? 16)); [apply (C 16 (h :: t)); [lia|exact E]|apply (C 8 (48 :: x :: h :: t)); [lia|exact E]].
  - apply G. rewrite <- E. clear -N.
    destruct c as [|p|p]; try reflexivity. do 6 (destruct p; try reflexivity). exfalso. apply N. reflexivity.
Qed.

Lemma upper_lower : forall c, upper (lower c) = upper c.
Proof. intros c. ifs. Qed.

Lemma eqb_octets_ok : forall a b, eqb_octets a b = true -> a = b.
Proof.
  induction a as [|x a IH]; intros [|y b] E; cbn in E; try discriminate; [reflexivity|]. apply andb_prop in E. destruct E as (E1 & E2).
  f_equal; [lia|apply IH; exact E2].
Qed.

(** what a name stands for, up to case *)
Definition called (t : list Z) (d : Z) : Prop := exists name, In (name, d) dscp_names /\ map upper t = chars name.

Lemma same_name_called : forall t n name d, same_name t n = true -> map upper n = chars name -> In (name, d) dscp_names ->
  called t d /\ length t = length n.
Proof.
  intros t n name d E U I. apply eqb_octets_ok in E. split.
  - exists name. split; [exact I|]. rewrite <- U, <- E, map_map. apply map_ext. intros c. symmetry. apply upper_lower.
  - rewrite <- E, map_length. reflexivity.
Qed.

Lemma skipn_exact : forall (t : list Z) n, length t = n -> skipn n t = [].
Proof. intros t n <-. apply skipn_all. Qed.

Lemma parse_name_ok : forall t tos r, parse_name t = Some (tos, r) ->
  (exists d u, t = u ++ r /\ called u d /\ tos = 4 * d) \/ (tos = 0 /\ r = t).
Proof.
  intros t tos r E. unfold parse_name in E.
  assert (NAMED : forall n name d k, same_name t n = true -> map upper n = chars name -> In (name, d) dscp_names -> length n = k ->
    Some (4 * d, skipn k t) = Some (tos, r) -> exists d u, t = u ++ r /\ called u d /\ tos = 4 * d).
  { intros n name d k A B C D X. destruct (same_name_called _ _ _ _ A B C) as (F & G). injection X as <- <-. exists d, t.
    rewrite skipn_exact by congruence. rewrite app_nil_r. auto. }
  destruct (same_name t [110; 111; 110; 101]) eqn:N1; [left; apply (NAMED _ "NONE"%string 0 4%nat N1); auto; cbn; tauto|].
  destruct (same_name t [100; 101; 102; 97; 117; 108; 116]) eqn:N2; [left; apply (NAMED _ "DEFAULT"%string 0 7%nat N2); auto; cbn; tauto|].
  destruct (same_name t [100; 102]) eqn:N3; [left; apply (NAMED _ "DF"%string 0 2%nat N3); auto; cbn; tauto|].
  destruct (same_name t [101; 102]) eqn:N4; [left; apply (NAMED _ "EF"%string 46 2%nat N4); auto; cbn; tauto|].
  clear N1 N2 N3 N4 NAMED.
  destruct ((upper (char 0 t) =? 67) && (upper (char 1 t) =? 83)) eqn:CS.
  - destruct ((48 <=? char 2 t) && (char 2 t <=? 55)) eqn:D; [|discriminate].
    destruct t as [|c0 [|c1 [|c2 t]]]; try (unfold char in D; cbn in D; lia). change (char 0 (c0 :: c1 :: c2 :: t)) with c0 in *.
    change (char 1 (c0 :: c1 :: c2 :: t)) with c1 in *. change (char 2 (c0 :: c1 :: c2 :: t)) with c2 in *.
    assert (tos = 32 * (c2 - 48)) by congruence. assert (r = skipn 3 (c0 :: c1 :: c2 :: t)) by congruence. subst tos r. clear E. left. exists (8 * (c2 - 48)), [c0; c1; c2]. split; [reflexivity|]. split; [|lia].
    assert (U : map upper [c0; c1; c2] = [67; 83; c2]).
    { cbn [map]. f_equal; [ifs|]. f_equal; [ifs|]. f_equal. ifs. }
    assert (X : c2 = 48 \/ c2 = 49 \/ c2 = 50 \/ c2 = 51 \/ c2 = 52 \/ c2 = 53 \/ c2 = 54 \/ c2 = 55) by lia. unfold called. rewrite U.
    destruct X as [X|[X|[X|[X|[X|[X|[X|X]]]]]]]; subst c2;
      [exists "CS0"%string|exists "CS1"%string|exists "CS2"%string|exists "CS3"%string|exists "CS4"%string|exists "CS5"%string|exists "CS6"%string|exists "CS7"%string];
      (split; [cbn; tauto|reflexivity]).
  - destruct ((char 0 t =? 65) && (upper (char 1 t) =? 70)) eqn:AF; [|injection E as <- <-; right; auto].
    destruct ((49 <=? char 2 t) && (char 2 t <=? 52) && (49 <=? char 3 t) && (char 3 t <=? 51)) eqn:D; [|discriminate].
    destruct t as [|c0 [|c1 [|c2 [|c3 t]]]]; try (unfold char in D; cbn in D; lia). change (char 0 (c0 :: c1 :: c2 :: c3 :: t)) with c0 in *.
    change (char 1 (c0 :: c1 :: c2 :: c3 :: t)) with c1 in *. change (char 2 (c0 :: c1 :: c2 :: c3 :: t)) with c2 in *.
    change (char 3 (c0 :: c1 :: c2 :: c3 :: t)) with c3 in *.
    assert (U : map upper [c0; c1; c2; c3] = [65; 70; c2; c3]).
    { cbn [map]. f_equal; [ifs|]. f_equal; [ifs|]. f_equal; [ifs|]. f_equal. ifs. }
    assert (X : c2 = 49 \/ c2 = 50 \/ c2 = 51 \/ c2 = 52) by lia. assert (Y : c3 = 49 \/ c3 = 50 \/ c3 = 51) by lia.
    assert (tos = Z.lor (32 * (c2 - 48)) (8 * (c3 - 48))) by congruence. assert (r = skipn 4 (c0 :: c1 :: c2 :: c3 :: t)) by congruence. subst tos r. clear E.
    left. exists (8 * (c2 - 48) + 2 * (c3 - 48)), [c0; c1; c2; c3]. split; [reflexivity|].
    unfold called. rewrite U. clear -X Y.
    destruct X as [X|[X|[X|X]]]; destruct Y as [Y|[Y|Y]]; subst c2 c3; (split; [|reflexivity]);
      [exists "AF11"%string|exists "AF12"%string|exists "AF13"%string|exists "AF21"%string|exists "AF22"%string|exists "AF23"%string
      |exists "AF31"%string|exists "AF32"%string|exists "AF33"%string|exists "AF41"%string|exists "AF42"%string|exists "AF43"%string];
      (split; [cbn; tauto|reflexivity]).
Qed.

Lemma called_range : forall u d, called u d -> 0 <= d < 64.
Proof.
  intros u d (name & I & _). repeat (destruct I as [I|I]; [injection I as <- <-; lia|]). destruct I.
Qed.

Lemma parse_only : forall s t, parse_typeP s = Some t -> exists d, 0 <= d < 64 /\ t = d * 16777216 /\
  (strtoul0 s = (d, []) \/ (exists pre u post, blank pre /\ blank post /\ s = pre ++ u ++ post /\ called u d) \/ (d = 0 /\ blank s)).
Proof.
  intros s t E. unfold parse_typeP in E. destruct (strtoul0 s) as [v e] eqn:S.
  assert (REST : match parse_name (skip_space s) with None => None | Some (tos, r) => match skip_space r with [] => Some (tos * 4194304) | _ => None end end = Some t ->
    exists d, 0 <= d < 64 /\ t = d * 16777216 /\
    ((v, e) = (d, []) \/ (exists pre u post, blank pre /\ blank post /\ s = pre ++ u ++ post /\ called u d) \/ (d = 0 /\ blank s))).
  { intros X. destruct (parse_name (skip_space s)) as [[tos r]|] eqn:P; [|discriminate].
    destruct (skip_space r) eqn:R; [|discriminate]. injection X as <-. apply skip_nil_blank in R.
    destruct (skip_split s) as (pre & B & D).
    destruct (parse_name_ok _ _ _ P) as [(d & u & F & C & T)|(T & F)].
    - exists d. pose proof (called_range _ _ C). split; [assumption|]. split; [lia|]. right. left. exists pre, u, r.
      repeat (split; [assumption|]). split; [rewrite <- F; exact D|exact C].
    - exists 0. split; [lia|]. split; [lia|]. right. right. split; [reflexivity|]. rewrite D. apply Forall_app. split; [exact B|]. rewrite <- F. exact R. }
  destruct e as [|c e]; [|apply REST; exact E].
  destruct (Z.ltb_spec v 64) as [L|L]; [|apply REST; exact E].
  cbn [skip_space] in E. injection E as <-. apply strtoul0_nonneg in S. exists v. split; [lia|]. split; [unfold u8; rewrite Z.mod_small by lia; lia|]. left. reflexivity.
Qed.

(** ** the socket *)
Lemma class_ok : forall t, is_u32 t ->
  (t = 0 /\ traffic_class t = Some None) \/
  (exists d, 0 < d < 64 /\ t = d * 16777216 /\ traffic_class t = Some (Some (4 * d))) \/
  (traffic_class t = None /\ forall d, 0 <= d < 64 -> t <> d * 16777216).
Proof.
  intros t U. unfold is_u32 in U. unfold traffic_class. destruct (Z.eqb_spec t 0) as [->|N]; [left; auto|].
  assert (MASK : Z.land t 1056964608 = Z.land (t / 16777216) 63 * 16777216).
  { change 1056964608 with (Z.shiftl (Z.ones 6) 24). change 63 with (Z.ones 6). change 16777216 with (2 ^ 24).
    rewrite <- Z.shiftr_div_pow2 by lia. rewrite <- Z.shiftl_mul_pow2 by lia. apply Z.bits_inj'. intros n Hn.
    rewrite Z.land_spec. destruct (Z.ltb_spec n 24) as [L|L].
    - rewrite !Z.shiftl_spec_low by lia. apply andb_false_r.
    - rewrite !Z.shiftl_spec by lia. rewrite Z.land_spec, Z.shiftr_spec by lia. f_equal. f_equal. lia. }
  assert (LOW : Z.land (t / 16777216) 63 = (t / 16777216) mod 64) by (change 63 with (Z.ones 6); rewrite Z.land_ones by lia; reflexivity).
  assert (SPLIT : Z.land t 1056964608 + Z.land t (Z.lnot 1056964608) = t).
  {
    assert (D : Z.land (Z.land t 1056964608) (Z.land t (Z.lnot 1056964608)) = 0).
    { apply Z.bits_inj'. intros n Hn. rewrite !Z.land_spec, Z.lnot_spec, Z.bits_0 by lia. destruct (Z.testbit t n), (Z.testbit 1056964608 n); reflexivity. }
    rewrite Z.add_nocarry_lxor by exact D. apply Z.bits_inj'. intros n Hn. rewrite Z.lxor_spec, !Z.land_spec, Z.lnot_spec by lia.
    destruct (Z.testbit t n), (Z.testbit 1056964608 n); reflexivity. }
  destruct (Z.eqb_spec (Z.land t (Z.lnot 1056964608)) 0) as [E|E]; cbn [negb].
  - right. left. exists ((t / 16777216) mod 64). rewrite MASK, LOW in SPLIT.
    assert (M := Z.mod_pos_bound (t / 16777216) 64 ltac:(lia)).
    assert (Q : t / 16777216 = (t / 16777216) mod 64) by (rewrite <- SPLIT at 1; rewrite E, Z.add_0_r, Z.div_mul by lia; reflexivity).
    split; [lia|]. split; [lia|]. f_equal. f_equal. unfold u8. rewrite (Z.mod_small (t / 16777216) 256) by lia. rewrite LOW.
    rewrite Z.shiftl_mul_pow2 by lia. change (2 ^ 2) with 4. lia.
  - right. right. split; [reflexivity|]. intros d D T. apply E. rewrite MASK, LOW in SPLIT.
    assert (Q : t / 16777216 = d) by (rewrite T; apply Z.div_mul; lia). rewrite Q, Z.mod_small in SPLIT by lia. lia.
Qed.

(** ** schedules *)
Section Schedule.
Variable strtod : list Z -> option (Q * list Z).
Hypothesis strtod_nil : strtod [] = None.

Definition flush (cur : list Z) : list (list Z) := match cur with [] => [] | _ => [rev cur] end.

Lemma tokens_part : forall p cur r, ~ In 44 p -> tokens cur (p ++ 44 :: r) = flush (rev p ++ cur) ++ tokens [] r.
Proof.
  induction p as [|c p IH]; intros cur r N; cbn [app tokens rev].
  - rewrite Z.eqb_refl. reflexivity.
  - destruct (Z.eqb_spec c 44) as [->|X]; [destruct N; left; reflexivity|]. rewrite IH by (intros Y; apply N; right; exact Y).
    rewrite <- app_assoc. reflexivity.
Qed.

Lemma tokens_last : forall p cur, ~ In 44 p -> tokens cur p = flush (rev p ++ cur).
Proof.
  induction p as [|c p IH]; intros cur N; cbn [tokens rev app]; [reflexivity|].
  destruct (Z.eqb_spec c 44) as [->|X]; [destruct N; left; reflexivity|]. rewrite IH by (intros Y; apply N; right; exact Y).
  rewrite <- app_assoc. reflexivity.
Qed.

Lemma flush_rev : forall p, flush (rev p ++ []) = match p with [] => [] | _ => [p] end.
Proof.
  intros p. rewrite app_nil_r. unfold flush. destruct (rev p) as [|c q] eqn:R.
  - apply (f_equal (@rev Z)) in R. rewrite rev_involutive in R. subst p. reflexivity.
  - rewrite <- R, rev_involutive. destruct p; [discriminate|reflexivity].
Qed.

Lemma tokens_commas : forall parts, parts <> [] -> Forall (fun p => ~ In 44 p) parts ->
  tokens [] (commas parts) = flat_map (fun p => match p with [] => [] | _ => [p] end) parts.
Proof.
  induction parts as [|p parts IH]; intros N F; [destruct (N eq_refl)|]. inversion F as [|x y F1 F2]; subst. cbn [flat_map].
  destruct parts as [|q parts].
  - cbn [commas flat_map]. rewrite app_nil_r, tokens_last by exact F1. apply flush_rev.
  - change (commas (p :: q :: parts)) with (p ++ 44 :: commas (q :: parts)). rewrite tokens_part by exact F1. rewrite flush_rev.
    f_equal. apply IH; [discriminate|exact F2].
Qed.

Lemma count_commas : forall parts, parts <> [] -> Forall (fun p => ~ In 44 p) parts ->
  S (length (filter (fun c => c =? 44) (commas parts))) = length parts.
Proof.
  assert (Z0 : forall p : list Z, ~ In 44 p -> filter (fun c => c =? 44) p = []).
  { induction p as [|c p IH]; intros N; [reflexivity|]. cbn [filter]. destruct (Z.eqb_spec c 44) as [->|X]; [destruct N; left; reflexivity|].
    apply IH. intros Y. apply N. right. exact Y. }
  induction parts as [|p parts IH]; intros N F; [destruct (N eq_refl)|]. inversion F as [|x y F1 F2]; subst.
  destruct parts as [|q parts]; [cbn [commas length]; rewrite Z0 by exact F1; reflexivity|].
  change (commas (p :: q :: parts)) with (p ++ 44 :: commas (q :: parts)). rewrite filter_app, Z0 by exact F1. cbn [app filter]. rewrite Z.eqb_refl.
  cbn [length]. f_equal. apply IH; [discriminate|exact F2].
Qed.

Lemma parse_tokens_ok : forall l ss, parse_tokens strtod l = Some ss <-> Forall2 (fun t s => parse_slot strtod t = Some s) l ss.
Proof.
  induction l as [|t l IH]; intros ss; cbn [parse_tokens].
  - split; [intros E; injection E as <-; constructor|intros F; inversion F; reflexivity].
  - split.
    + intros E. destruct (parse_slot strtod t) as [s|] eqn:P; [|discriminate]. destruct (parse_tokens strtod l) as [r|] eqn:R; [|discriminate].
      injection E as <-. constructor; [exact P|]. apply IH. reflexivity.
    + intros F. inversion F as [|x y z w F1 F2]; subst. rewrite F1. apply IH in F2. rewrite F2. reflexivity.
Qed.

Lemma parse_slots_ok : forall parts ss, parts <> [] -> Forall (fun p => ~ In 44 p) parts ->
  (parse_slots strtod (commas parts) = Some ss <-> Forall2 (fun t s => parse_slot strtod t = Some s) parts ss).
Proof.
  intros parts ss N F. unfold parse_slots. rewrite tokens_commas, count_commas by assumption. split.
  - intros E. destruct (parse_tokens strtod _) as [l|] eqn:P; [|discriminate]. destruct (Nat.eqb_spec (length l) (length parts)) as [L|L]; [|discriminate].
    injection E as <-. apply parse_tokens_ok in P.
    assert (X : flat_map (fun p : list Z => match p with [] => [] | _ => [p] end) parts = parts).
    { assert (LL : length (flat_map (fun p : list Z => match p with [] => [] | _ => [p] end) parts) = length parts).
      { rewrite <- L. clear -P. induction P; cbn; congruence. }
      clear -LL. revert LL. induction parts as [|p parts IH]; intros LL; [reflexivity|]. cbn [flat_map] in *.
      assert (B : forall q : list (list Z), (length (flat_map (fun p : list Z => match p with [] => [] | _ => [p] end) q) <= length q)%nat).
      { clear. induction q as [|p q IH]; [cbn; lia|]. cbn [flat_map]. rewrite app_length. destruct p; cbn [length]; lia. }
      destruct p as [|c p]; [cbn [app length] in LL; specialize (B parts); lia|]. cbn [app length] in *. f_equal. apply IH. lia. }
    rewrite X in P. exact P.
  - intros P. assert (X : flat_map (fun p : list Z => match p with [] => [] | _ => [p] end) parts = parts).
    { clear -P strtod_nil. induction P as [|t s l ss P1 P2 IH]; [reflexivity|]. cbn [flat_map].
      destruct t as [|c t]; [unfold parse_slot in P1; rewrite strtod_nil in P1; discriminate|]. cbn [app]. f_equal. exact IH. }
    rewrite X. apply parse_tokens_ok in P. rewrite P. apply parse_tokens_ok in P.
    assert (L : length ss = length parts) by (clear -P; induction P; cbn; congruence). rewrite L, Nat.eqb_refl. reflexivity.
Qed.
End Schedule.
