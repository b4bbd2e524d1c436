From Coq Require Import ZArith List Bool Lia ZifyBool ZifyNat.
From Verif Require Import Base BaseLemmas Config_Model Config_Spec Config_Proofs Priv_Model Priv_Spec.
Import ListNotations.
Open Scope Z_scope.

Lemma wanted_user : forall e o u g, wanted e o = Some (u, g) -> allowroot o = false -> u <> 0 /\ exists s, user o = Some s /\ option_id (users e) (errno1 e) s = Some u.
Proof.
  intros e o u g E A. unfold wanted in E. destruct (user o) as [s|] eqn:U.
  - destruct (option_id (users e) (errno1 e) s) as [v|] eqn:X; [|discriminate]. rewrite A in E. destruct (Z.eqb_spec v 0); [discriminate|]. cbn [andb] in E.
    destruct (group o) as [t|].
    + destruct (option_id (grps e) (errno2 e) t) as [h|]; [|discriminate]. destruct (h =? 0); [discriminate|]. injection E as <- <-. eauto.
    + injection E as <- <-. eauto.
  - rewrite A in E. discriminate.
Qed.
Lemma wanted_group : forall e o u g, wanted e o = Some (u, g) ->
  match group o with Some s => g <> 0 /\ option_id (grps e) (errno2 e) s = Some g | None => g = 0 end.
Proof.
  intros e o u g E. unfold wanted in E. destruct (match user o with Some s => option_id (users e) (errno1 e) s | None => Some 0 end) as [v|]; [|discriminate].
  destruct ((v =? 0) && negb (allowroot o)); [discriminate|]. destruct (group o) as [t|]; [|injection E as _ <-; reflexivity].
  destruct (option_id (grps e) (errno2 e) t) as [h|]; [|discriminate]. destruct (Z.eqb_spec h 0); [discriminate|]. injection E as <- <-. auto.
Qed.

Lemma start_ids : forall e o c c' , ruid c = 0 -> euid c = 0 -> start e o c = Some c' -> exists u g, wanted e o = Some (u, g) /\
  (if u =? 0 then euid c' = 0 else ruid c' = u /\ euid c' = u /\ suid c' = u) /\
  (if g =? 0 then rgid c' = rgid c /\ egid c' = egid c /\ sgid c' = sgid c else rgid c' = g /\ egid c' = g /\ sgid c' = g) /\ groups c' = groups c.
Proof.
  intros e o [ru eu su rg eg sg gs] c' R0 E0 E. cbn [ruid euid] in R0, E0. subst ru eu. unfold start in E. cbn [euid Z.eqb] in E.
  destruct (wanted e o) as [[u g]|] eqn:W; [|discriminate]. exists u, g. split; [reflexivity|].
  unfold when, andthen, seteuid, setuid, setegid, setgid in E.
  repeat (match type of E with context [if ?b then _ else _] => destruct b eqn:? end; cbn [ruid euid suid rgid egid sgid groups] in E; try discriminate E);
    injection E as <-; cbn [ruid euid suid rgid egid sgid groups] in *; destruct (Z.eqb_spec g 0); destruct (Z.eqb_spec u 0); try lia; repeat split; lia.
Qed.

Lemma stuck_ids : forall l c u, u <> 0 -> ruid c = u -> euid c = u -> suid c = u -> let d := attempts c l in ruid d = u /\ euid d = u /\ suid d = u.
Proof.
  induction l as [|k l IH]; intros c u U A B C; [cbn; auto|]. cbn [attempts fold_left]. apply IH; [exact U|..]; unfold attempt, seteuid, setuid, setegid, setgid; rewrite ?A, ?B, ?C;
    destruct k; destruct (Z.eqb_spec u 0); try contradiction; cbn [negb andb orb]; repeat match goal with |- context [if ?b then _ else _] => destruct b eqn:? end; cbn [ruid euid suid]; lia.
Qed.

Lemma stuck_gids : forall l c u g, u <> 0 -> ruid c = u -> euid c = u -> suid c = u -> rgid c = g -> egid c = g -> sgid c = g ->
  let d := attempts c l in rgid d = g /\ egid d = g /\ sgid d = g.
Proof.
  induction l as [|k l IH]; intros c u g U A B C A' B' C'; [cbn; auto|]. cbn [attempts fold_left]. apply (IH _ u); [exact U|..]; unfold attempt, seteuid, setuid, setegid, setgid; rewrite ?A, ?B, ?C, ?A', ?B', ?C';
    destruct k; destruct (Z.eqb_spec u 0); try contradiction; cbn [negb andb orb]; repeat match goal with |- context [if ?b then _ else _] => destruct b eqn:? end; cbn [ruid euid suid rgid egid sgid]; lia.
Qed.

Lemma option_id_ok : forall db s id, denotes db s id -> option_id db 0 s = Some id.
Proof.
  intros db s id [H|(H & t & -> & N & V & L & I)]; unfold option_id; rewrite H; [reflexivity|].
  pose proof (strtoul10_numeral [] [] t [] ltac:(constructor) ltac:(left; reflexivity) N Logic.I) as S. cbn [app] in S. rewrite app_nil_r in S. rewrite S.
  assert (0 <= value t).
  { destruct N as (_ & N). unfold value. clear -N. assert (G : forall acc, 0 <= acc -> 0 <= fold_left (fun a c => 10 * a + (c - 48)) t acc).
    { induction t as [|c t IH]; intros acc A; [exact A|]. cbn [fold_left]. inversion N; subst. apply IH; [assumption|lia]. }
    apply G. lia. }
  assert (X : 18446744073709551615 <? value t = false) by lia. rewrite X. unfold u32. rewrite Z.mod_small by lia. rewrite V, I. reflexivity.
Qed.
