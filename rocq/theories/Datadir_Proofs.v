(** Proofs about the data directory *)
From Coq Require Import ZArith List Bool Lia ZifyBool ZifyNat.
From Verif Require Import Base BaseLemmas Datadir_Model Datadir_Spec.
Import ListNotations.
Open Scope Z_scope.

Lemma len_app : forall a b, len (a ++ b) = len a + len b.
Proof. intros a b. unfold len. rewrite app_length. lia. Qed.

(** ** names *)
Lemma node_dir_len : forall datadir node add p, node_dir datadir node add = Some p -> len p + add <= PATH_MAX.
Proof.
  intros datadir. induction node as [|n parent IH]; intros add p E; cbn [node_dir] in E.
  - destruct (Z.ltb_spec PATH_MAX (len datadir + 1 + len hierarchy + add)); [discriminate|]. assert (X : p = datadir ++ sep ++ hierarchy) by congruence. subst p. rewrite !len_app. change (len sep) with 1. lia.
  - destruct (node_dir datadir parent (len n + 1 + add)) as [q|] eqn:Q; [|discriminate]. assert (X : p = q ++ sep ++ n) by congruence. subst p. apply IH in Q. rewrite !len_app. change (len sep) with 1. lia.
Qed.
Lemma node_dir_text : forall datadir node add, node_dir datadir node add = if PATH_MAX <? len (dir_text datadir node) + add then None else Some (dir_text datadir node).
Proof.
  intros datadir. induction node as [|n up IH]; intros add; cbn [node_dir dir_text].
  - rewrite !len_app. change (len sep) with 1. replace (len datadir + (1 + len hierarchy) + add) with (len datadir + 1 + len hierarchy + add) by lia. reflexivity.
  - rewrite IH, !len_app. change (len sep) with 1. replace (len (dir_text datadir up) + (len n + 1 + add)) with (len (dir_text datadir up) + (1 + len n) + add) by lia.
    destruct (PATH_MAX <? _); reflexivity.
Qed.

Lemma last_part_none : forall s, ~ In 47 s -> last_part s = None.
Proof. induction s as [|c s IH]; intros N; [reflexivity|]. cbn. rewrite IH by firstorder. destruct (Z.eqb_spec c 47) as [->|]; [exfalso; apply N; left; reflexivity|reflexivity]. Qed.
Lemma last_part_app : forall s n, ~ In 47 n -> last_part (s ++ sep ++ n) = Some n.
Proof.
  intros s n N. induction s as [|c s IH]; cbn; [rewrite last_part_none by exact N; reflexivity|]. cbn in IH. rewrite IH. reflexivity.
Qed.

(** ** start *)
Section Start.
Variable parent_of : name -> option (option name).
Variable root : name.
Variable disk_limit : name -> Z.
Variable hex : list Z -> bool.
Hypothesis root_top : parent_of root = Some None.
Notation class_dir := (class_dir parent_of root).
Notation verify := (verify parent_of disk_limit hex).

Lemma class_dir_up : forall d p up, class_dir (d :: p :: up) = true -> parent_of d = Some (Some p) /\ class_dir (p :: up) = true.
Proof.
  intros d p up H. change (class_dir (d :: p :: up)) with (match parent_of d with Some (Some q) => eqb_octets q p | _ => false end && class_dir (p :: up)) in H.
  apply andb_true_iff in H. destruct H as (A & B). split; [|exact B]. destruct (parent_of d) as [[q|]|]; try discriminate. apply eqb_octets_spec in A. congruence.
Qed.
Lemma class_dir_suffix : forall a b, b <> [] -> class_dir (a ++ b) = true -> class_dir b = true.
Proof.
  induction a as [|x a IH]; intros b N H; [exact H|]. apply IH; [exact N|]. destruct (a ++ b) as [|p up] eqn:E.
  - apply app_eq_nil in E. destruct E as (_ & E). contradiction.
  - change ((x :: a) ++ b) with (x :: (a ++ b)) in H. rewrite E in H. apply class_dir_up in H. apply H.
Qed.
Lemma class_dir_known : forall d up, class_dir (d :: up) = true -> exists q, parent_of d = Some q.
Proof.
  intros d [|p up] H.
  - cbn in H. apply eqb_octets_spec in H. subst. eauto.
  - apply class_dir_up in H. destruct H as (H & _). eauto.
Qed.
Lemma class_dir_unique : forall b b' e, class_dir (e :: b) = true -> class_dir (e :: b') = true -> b = b'.
Proof.
  induction b as [|p b IH]; intros [|p' b'] e A B.
  - reflexivity.
  - cbn in A. apply eqb_octets_spec in A. subst e. apply class_dir_up in B. destruct B as (B & _). congruence.
  - cbn in B. apply eqb_octets_spec in B. subst e. apply class_dir_up in A. destruct A as (A & _). congruence.
  - apply class_dir_up in A, B. destruct A as (A1 & A2), B as (B1 & B2). assert (p = p') by congruence. subst p'. f_equal. eapply IH; eassumption.
Qed.
Lemma class_dir_nodup : forall c, class_dir c = true -> NoDup c.
Proof.
  induction c as [|e b IH]; intros H; [constructor|]. constructor.
  - intros I. apply in_split in I. destruct I as (b1 & b2 & E). assert (H2 : class_dir (e :: b2) = true).
    { apply (class_dir_suffix (e :: b1)); [discriminate|]. cbn [app]. rewrite <- E. exact H. }
    pose proof (class_dir_unique _ _ _ H H2) as U. subst b. apply (f_equal (@length _)) in U. rewrite app_length in U. cbn in U. lia.
  - destruct b as [|p b]; [constructor|]. apply IH. apply class_dir_up in H. apply H.
Qed.

Lemma stored_chain : forall t at_ c f s, In (c, f, s) (stored t at_) -> exists l, c = l ++ at_ /\ (l = [] \/ exists l' d, l = l' ++ [d] /\ In d (dir_names t)).
Proof.
  induction t as [|g z rest IH|d r sub IHs rest IHr]; intros at_ c f s I; cbn [stored] in I.
  - destruct I.
  - destruct I as [I|I].
    + injection I as <- <- <-. exists []. auto.
    + apply IH in I. exact I.
  - apply in_app_iff in I. destruct I as [I|I].
    + apply IHs in I. destruct I as (l & -> & _). exists (l ++ [d]). rewrite <- app_assoc. split; [reflexivity|]. right. exists l, d. split; [reflexivity|left; reflexivity].
    + apply IHr in I. destruct I as (l & -> & [->|(l' & e & -> & X)]); [exists []; auto|]. exists (l' ++ [e]). split; [reflexivity|]. right. exists l', e. split; [reflexivity|right; exact X].
Qed.
Lemma directories_chain : forall t at_ y r, In (y, r) (directories t at_) -> exists l d, y = l ++ d :: at_ /\ In d (dir_names t).
Proof.
  induction t as [|g z rest IH|d r sub IHs rest IHr]; intros at_ y rd I; cbn [directories] in I.
  - destruct I.
  - apply IH in I. exact I.
  - destruct I as [I|I].
    + injection I as <- <-. exists [], d. split; [reflexivity|left; reflexivity].
    + apply in_app_iff in I. destruct I as [I|I].
      * apply IHs in I. destruct I as (l & e & -> & _). exists (l ++ [e]), d. rewrite <- app_assoc. split; [reflexivity|left; reflexivity].
      * apply IHr in I. destruct I as (l & e & -> & X). exists l, e. split; [reflexivity|right; exact X].
Qed.

Notation good := (fun x : list name * name * Z => class_dir (fst (fst x)) && session_name hex (snd (fst x))).
Definition sel (t : tree) (at_ : list name) : list (list name * name * Z) := filter good (stored t at_).

Lemma space_cons : forall d x l, space d (x :: l) = (if existsb (eqb_octets d) (fst (fst x)) then snd x else 0) + space d l.
Proof. reflexivity. Qed.
Lemma space_app : forall d a b, space d (a ++ b) = space d a + space d b.
Proof. intros d. induction a as [|x a IH]; intros b; [reflexivity|]. cbn [app]. rewrite !space_cons, IH. lia. Qed.
Lemma space_zero : forall d l, (forall x, In x l -> ~ In d (fst (fst x))) -> space d l = 0.
Proof.
  intros d. induction l as [|x l IH]; intros H; [reflexivity|]. rewrite space_cons. rewrite IH by (intros; apply H; right; assumption).
  destruct (existsb (eqb_octets d) (fst (fst x))) eqn:E; [|reflexivity]. apply existsb_exists in E. destruct E as (y & I & E). apply eqb_octets_spec in E. subst y.
  exfalso. apply (H x (or_introl eq_refl) I).
Qed.
Lemma space_same : forall d d' l, (forall x, In x l -> In d (fst (fst x)) /\ In d' (fst (fst x))) -> space d l = space d' l.
Proof.
  intros d d'. induction l as [|x l IH]; intros H; [reflexivity|]. rewrite !space_cons. rewrite IH by (intros; apply H; right; assumption).
  destruct (H x (or_introl eq_refl)) as (A & B).
  assert (X : forall e, In e (fst (fst x)) -> existsb (eqb_octets e) (fst (fst x)) = true) by (intros e I; apply existsb_exists; exists e; split; [exact I|apply eqb_octets_refl]).
  rewrite (X d A), (X d' B). reflexivity.
Qed.

Lemma upd_same : forall f k v, upd f k v k = v.
Proof. intros. unfold upd. rewrite eqb_octets_refl. reflexivity. Qed.
Lemma upd_other : forall f k v x, x <> k -> upd f k v x = f x.
Proof. intros f k v x N. unfold upd. destruct (eqb_octets x k) eqn:E; [apply eqb_octets_spec in E; contradiction|reflexivity]. Qed.

Lemma sel_unknown : forall sub d at_, parent_of d = None -> sel sub (d :: at_) = [].
Proof.
  intros sub d at_ N. unfold sel. assert (H : forall x, In x (stored sub (d :: at_)) -> good x = false).
  { intros [[c f] s] I. apply stored_chain in I. destruct I as (l & -> & _). cbn [fst snd]. destruct (class_dir (l ++ d :: at_)) eqn:C; [|reflexivity].
    apply class_dir_suffix in C; [|discriminate]. apply class_dir_known in C. destruct C as (q & C). congruence. }
  induction (stored sub (d :: at_)) as [|x l IH]; [reflexivity|]. cbn [filter]. rewrite (H x (or_introl eq_refl)). apply IH. intros y I. apply H. right. exact I.
Qed.
Lemma sel_cons_dir : forall d r sub rest at_, sel (ADir d r sub rest) at_ = sel sub (d :: at_) ++ sel rest at_.
Proof. intros. unfold sel. cbn [stored]. apply filter_app. Qed.
Lemma sel_chain : forall t c x, In x (sel t c) -> class_dir (fst (fst x)) = true /\ exists l, fst (fst x) = l ++ c.
Proof.
  intros t c [[y f] s] I. apply filter_In in I. destruct I as (I & G). cbn [fst snd] in *. apply andb_true_iff in G. split; [apply G|]. apply stored_chain in I. destruct I as (l & -> & _). eauto.
Qed.

Lemma app_last : forall (l l' : list name) d d', l ++ [d] = l' ++ [d'] -> d = d'.
Proof. intros l l' d d' H. apply app_inj_tail in H. apply H. Qed.

Definition fresh (t : tree) (c : list name) (u : usage) : Prop := forall y r, In (y, r) (directories t c) -> class_dir y = true -> us_init u (hd [] y) = 0.
Definition settled (c : list name) (u : usage) : Prop := forall d, ~ In d c -> disk_limit d <> 0 -> us_used u d = us_init u d.

Lemma verify_ok : forall t n up u u', distinct t -> class_dir (n :: up) = true -> fresh t (n :: up) u -> settled (n :: up) u -> verify t n (n :: up) u = Some u' ->
  us_links u' = us_links u ++ map (fun x => (snd (fst x), fst (fst x))) (sel t (n :: up)) /\
  (forall d, ~ In d up -> us_init u' d = us_init u d + space d (sel t (n :: up))) /\ (forall d, In d up -> us_init u' d = us_init u d) /\ settled (n :: up) u'.
Proof.
  induction t as [|g z rest IH|d0 r sub IHs rest IHr]; intros n up u u' DI CD FR SE V; cbn [Datadir_Model.verify] in V.
  - injection V as <-. cbn. rewrite app_nil_r. split; [reflexivity|]. split; [intros; lia|]. split; [reflexivity|exact SE].
  - unfold sel. cbn [stored filter fst snd]. destruct (session_name hex g) eqn:SN.
    + rewrite CD. cbn [andb]. match type of V with context [existsb ?f (us_links u)] => destruct (existsb f (us_links u)) end; [discriminate|].
      assert (NU : ~ In n up) by (apply class_dir_nodup in CD; inversion CD; assumption).
      apply IH in V; [|exact DI|exact CD| |].
      * destruct V as (V1 & V2 & V3 & V4). cbn [us_init us_links] in *. fold (sel rest (n :: up)). split; [rewrite V1, <- app_assoc; reflexivity|].
        split; [|split; [|exact V4]].
        -- intros d ND. rewrite V2 by exact ND. rewrite space_cons. cbn [fst snd]. destruct (eqb_octets d n) eqn:E.
           ++ apply eqb_octets_spec in E. subst d. rewrite upd_same. cbn [existsb]. rewrite eqb_octets_refl. cbn [orb]. lia.
           ++ assert (d <> n) by (intros ->; rewrite eqb_octets_refl in E; discriminate). rewrite upd_other by assumption. cbn [existsb]. rewrite E. cbn [orb].
              replace (existsb (eqb_octets d) up) with false; [lia|]. symmetry. destruct (existsb (eqb_octets d) up) eqn:X; [|reflexivity]. apply existsb_exists in X. destruct X as (y & I & X).
              apply eqb_octets_spec in X. subst y. contradiction.
        -- intros d I. rewrite V3 by exact I. apply upd_other. intros ->. contradiction.
      * intros y rd I C. cbn [us_init]. destruct (directories_chain _ _ _ _ I) as (l & e & -> & _).
        rewrite upd_other; [apply (FR _ rd); [exact I|exact C]|]. apply class_dir_nodup in C. intros X. destruct l as [|x l]; cbn [app hd] in X; subst; cbn [app] in C; inversion C as [|? ? C1 _]; subst; apply C1.
        -- left. reflexivity.
        -- apply in_app_iff. right. right. left. reflexivity.
      * intros d ND L. cbn [us_used us_init]. rewrite upd_other; [apply SE; assumption|]. intros ->. apply ND. left. reflexivity.
    + rewrite andb_false_r. apply IH in V; [exact V|exact DI|exact CD|exact FR|exact SE].
  - cbn [distinct] in DI. destruct DI as (DN & DS & DR). rewrite sel_cons_dir. destruct (parent_of d0) as [[p|]|] eqn:PA; [| discriminate |].
    + destruct (eqb_octets p n && r) eqn:E; [|discriminate]. apply andb_true_iff in E. destruct E as (E & ->). apply eqb_octets_spec in E. subst p.
      destruct (verify sub d0 (d0 :: n :: up) u) as [u1|] eqn:V1; [|discriminate].
      assert (CD0 : class_dir (d0 :: n :: up) = true).
      { change (class_dir (d0 :: n :: up)) with (match parent_of d0 with Some (Some q) => eqb_octets q n | _ => false end && class_dir (n :: up)). rewrite PA, eqb_octets_refl. exact CD. }
      pose proof (class_dir_nodup _ CD0) as ND0. inversion ND0 as [|? ? N0 ND1]; subst. inversion ND1 as [|? ? N1 _]; subst.
      destruct (IHs d0 (n :: up) u u1 DS CD0) as (A1 & A2 & A3 & A4); [| |exact V1|].
      { intros y rd I C. apply (FR y rd); [|exact C]. cbn [directories]. right. apply in_app_iff. left. exact I. }
      { intros d ND L. apply SE; [|exact L]. intros I. apply ND. right. exact I. }
      assert (I0 : us_init u d0 = 0). { apply (FR (d0 :: n :: up) true); [left; reflexivity|exact CD0]. }
      assert (CH : forall x, In x (sel sub (d0 :: n :: up)) -> In d0 (fst (fst x)) /\ In n (fst (fst x))).
      { intros x I. apply sel_chain in I. destruct I as (_ & l & ->). split; apply in_app_iff; right; [left; reflexivity|right; left; reflexivity]. }
      assert (T0 : us_init u1 d0 = space n (sel sub (d0 :: n :: up))).
      { rewrite A2 by exact N0. rewrite I0, (space_same d0 n) by exact CH. lia. }
      set (u2 := dir_done disk_limit d0 (Some n) u1) in *.
      assert (B1 : us_init u2 n = us_init u n + space n (sel sub (d0 :: n :: up))). { unfold u2, dir_done. cbn [us_init]. rewrite upd_same, T0, A3 by (left; reflexivity). lia. }
      assert (B2 : forall d, d <> n -> us_init u2 d = us_init u1 d). { intros d X. unfold u2, dir_done. cbn [us_init]. apply upd_other. exact X. }
      assert (FR2 : fresh rest (n :: up) u2).
      { intros y rd I C. destruct (directories_chain _ _ _ _ I) as (l & e & Ey & De). pose proof (class_dir_nodup _ C) as NY.
        assert (HY : exists h y', y = h :: y' /\ ~ In h (n :: up)).
        { subst y. destruct l as [|x l]; cbn [app] in *; eexists; eexists; (split; [reflexivity|]); inversion NY as [|? ? NY1 _]; subst; [exact NY1|].
          intros X. apply NY1. apply in_app_iff. right. right. exact X. }
        destruct HY as (h & y' & Ey' & NH). rewrite Ey'. cbn [hd]. rewrite B2 by (intros ->; apply NH; left; reflexivity).
        rewrite A2 by exact NH.
        assert (F0 : us_init u h = 0). { pose proof (FR y rd) as F. cbn [directories] in F. rewrite Ey' in F at 3. cbn [hd] in F. apply F; [right; apply in_app_iff; right; exact I|exact C]. }
        rewrite F0, space_zero; [lia|]. intros x IX HX. apply sel_chain in IX. destruct IX as (CX & lx & EX). apply in_split in HX. destruct HX as (a & b & HX).
        assert (CB : class_dir (h :: b) = true). { apply (class_dir_suffix a); [discriminate|]. rewrite <- HX. exact CX. }
        rewrite Ey' in C. pose proof (class_dir_unique _ _ _ C CB) as U. subst b. rewrite <- Ey' in HX. rewrite Ey, EX in HX.
        replace (lx ++ d0 :: n :: up) with ((lx ++ [d0]) ++ n :: up) in HX by (rewrite <- app_assoc; reflexivity).
        replace (a ++ l ++ e :: n :: up) with (((a ++ l) ++ [e]) ++ n :: up) in HX by (rewrite <- !app_assoc; reflexivity).
        apply app_inv_tail in HX. apply app_last in HX. subst e. contradiction. }
      assert (SE2 : settled (n :: up) u2).
      { intros d ND L. destruct (eqb_octets d d0) eqn:ED.
        - apply eqb_octets_spec in ED. subst d. rewrite B2 by (intros ->; apply ND; left; reflexivity). unfold u2, dir_done, resource_usage. cbn [us_used].
          replace (disk_limit d0 =? 0) with false by lia. apply upd_same.
        - assert (NE : d <> d0) by (intros ->; rewrite eqb_octets_refl in ED; discriminate). rewrite B2 by (intros ->; apply ND; left; reflexivity).
          unfold u2, dir_done, resource_usage. cbn [us_used]. assert (X : us_used u1 d = us_init u1 d). { apply A4; [|exact L]. intros [Y|Y]; [symmetry in Y; contradiction|contradiction]. }
          destruct (disk_limit d0 =? 0); [exact X|]. rewrite upd_other by exact NE. exact X. }
      apply IHr in V; [|exact DR|exact CD|exact FR2|exact SE2]. destruct V as (V1' & V2 & V3 & V4). split; [|split; [|split; [|exact V4]]].
      * rewrite V1'. unfold u2, dir_done. cbn [us_links]. rewrite A1, map_app, app_assoc. reflexivity.
      * intros d ND. rewrite V2 by exact ND. rewrite space_app. destruct (eqb_octets d n) eqn:E.
        -- apply eqb_octets_spec in E. subst d. rewrite B1. lia.
        -- assert (NE : d <> n) by (intros ->; rewrite eqb_octets_refl in E; discriminate). rewrite B2 by exact NE. rewrite A2; [lia|]. intros [X|X]; [symmetry in X; contradiction|contradiction].
      * intros d I. rewrite V3 by exact I. rewrite B2 by (intros ->; contradiction). apply A3. right. exact I.
    + rewrite sel_unknown by exact PA. cbn [app]. apply IHr; [exact DR|exact CD| |exact SE|exact V].
      intros y rd I C. apply (FR y rd); [|exact C]. cbn [directories]. right. apply in_app_iff. right. exact I.
Qed.

Lemma verify_links : forall sub d0 c u u1, class_dir (d0 :: c) = true -> verify sub d0 (d0 :: c) u = Some u1 ->
  us_links u1 = us_links u ++ map (fun x => (snd (fst x), fst (fst x))) (sel sub (d0 :: c)).
Proof.
induction sub as [|g z rest IH|e r sub IHs rest IHr]; intros d0 c u u1 CD0 V; cbn [Datadir_Model.verify] in V.
             - injection V as <-. cbn. rewrite app_nil_r. reflexivity.
             - unfold sel. cbn [stored filter fst snd]. destruct (session_name hex g) eqn:SN.
               + rewrite CD0. cbn [andb]. match type of V with context [existsb ?f (us_links u)] => destruct (existsb f (us_links u)) end; [discriminate|]. apply IH in V; [|exact CD0]. rewrite V. cbn [us_links]. rewrite <- app_assoc. reflexivity.
               + rewrite andb_false_r. apply IH in V; [exact V|exact CD0].
             - rewrite sel_cons_dir. destruct (parent_of e) as [[p|]|] eqn:PA; [|discriminate|].
               + destruct (eqb_octets p d0 && r) eqn:E; [|discriminate]. apply andb_true_iff in E. destruct E as (E & ->). apply eqb_octets_spec in E. subst p.
                 destruct (verify sub e (e :: d0 :: c) u) as [u2|] eqn:V2; [|discriminate].
                 assert (CE : class_dir (e :: d0 :: c) = true).
                 { change (class_dir (e :: d0 :: c)) with (match parent_of e with Some (Some q) => eqb_octets q d0 | _ => false end && class_dir (d0 :: c)). rewrite PA, eqb_octets_refl. exact CD0. }
                 apply IHs in V2; [|exact CE]. apply IHr in V; [|exact CD0]. rewrite V. unfold dir_done. cbn [us_links]. rewrite V2, map_app, app_assoc. reflexivity.
               + rewrite sel_unknown by exact PA. apply IHr in V; [exact V|exact CD0]. 
Qed.
(** when it succeeds *)
Definition in_order (t : tree) (c : list name) : Prop :=
  forall d y r, In (d :: y, r) (directories t c) -> y = c \/ class_dir y = true -> parent_of d <> None -> class_dir (d :: y) = true /\ r = true.
Lemma verify_works : forall t n up u, class_dir (n :: up) = true ->
  (verify t n (n :: up) u <> None <-> in_order t (n :: up) /\ NoDup (map (fun x => snd (fst x)) (sel t (n :: up))) /\
    (forall x, In x (sel t (n :: up)) -> ~ In (snd (fst x)) (map fst (us_links u)))).
Proof.
  induction t as [|g z rest IH|d0 r sub IHs rest IHr]; intros n up u CD; cbn [Datadir_Model.verify].
  - cbn. split; [intros _|intros _; discriminate]. split; [intros d y r []|]. split; [constructor|intros x []].
  - unfold sel. cbn [stored filter fst snd]. destruct (session_name hex g) eqn:SN.
    + rewrite CD. cbn [andb map fst snd]. fold (sel rest (n :: up)). match goal with |- context [existsb ?f (us_links u)] => destruct (existsb f (us_links u)) eqn:EX end.
      * split; [intros X; contradiction|]. intros (_ & _ & C). exfalso. apply existsb_exists in EX. destruct EX as ([a b] & I & E). cbn [fst] in E. apply eqb_octets_spec in E. subst a.
        apply (C _ (or_introl eq_refl)). cbn [fst snd]. apply in_map_iff. exists (g, b). auto.
      * rewrite IH by exact CD. cbn [us_links].
        assert (NG : ~ In g (map fst (us_links u))). { intros I. apply in_map_iff in I. destruct I as (x & <- & I). assert (X : existsb (fun y => eqb_octets (fst y) (fst x)) (us_links u) = true) by (apply existsb_exists; exists x; split; [exact I|apply eqb_octets_refl]). congruence. }
        assert (IO : in_order (AFile g z rest) (n :: up) <-> in_order rest (n :: up)) by (split; intros H; exact H). rewrite IO.
        split; intros (A & B & C); (split; [exact A|]).
        -- split.
           ++ constructor; [|exact B]. intros I. apply in_map_iff in I. destruct I as (x & <- & I). apply (C x I). rewrite map_app. apply in_app_iff. right. left. reflexivity.
           ++ intros x [<-|I]; [exact NG|]. intros J. apply (C x I). rewrite map_app. apply in_app_iff. left. exact J.
        -- inversion B as [|? ? B1 B2]; subst. split; [exact B2|]. intros x I. rewrite map_app. intros J. apply in_app_iff in J. destruct J as [J|[J|[]]].
           ++ apply (C x); [right; exact I|exact J].
           ++ cbn [fst] in J. apply B1. rewrite J. apply in_map_iff. exists x. auto.
    + rewrite andb_false_r. fold (sel rest (n :: up)). rewrite IH by exact CD. reflexivity.
  - rewrite sel_cons_dir. destruct (parent_of d0) as [[p|]|] eqn:PA.
    + destruct (eqb_octets p n && r) eqn:E.
      * apply andb_true_iff in E. destruct E as (E & ->). apply eqb_octets_spec in E. subst p.
        assert (CD0 : class_dir (d0 :: n :: up) = true).
        { change (class_dir (d0 :: n :: up)) with (match parent_of d0 with Some (Some q) => eqb_octets q n | _ => false end && class_dir (n :: up)). rewrite PA, eqb_octets_refl. exact CD. }
        specialize (IHs d0 (n :: up) u CD0).
        assert (IO : in_order (ADir d0 true sub rest) (n :: up) <-> in_order sub (d0 :: n :: up) /\ in_order rest (n :: up)).
        { unfold in_order. cbn [directories]. split.
          - intros H. split; intros d y r I C K; (apply H; [right; apply in_app_iff; auto| |exact K]).
            + destruct C as [->|C]; right; [exact CD0|exact C].
            + exact C.
          - intros (H1 & H2) d y r [I|I] C K.
            + injection I as <- <- <-. auto.
            + apply in_app_iff in I. destruct I as [I|I]; [|exact (H2 d y r I C K)]. apply H1; [exact I| |exact K]. destruct C as [->|C]; [|right; exact C]. right. exact CD. }
        rewrite IO. destruct (verify sub d0 (d0 :: n :: up) u) as [u1|] eqn:V1.
        -- assert (L : us_links u1 = us_links u ++ map (fun x => (snd (fst x), fst (fst x))) (sel sub (d0 :: n :: up))).
           { eapply verify_links; [exact CD0|exact V1]. }
           rewrite IHr by exact CD. unfold dir_done at 1. cbn [us_links]. rewrite L.
           destruct IHs as (IHs & _). specialize (IHs ltac:(discriminate)). destruct IHs as (S1 & S2 & S3).
           split.
           ++ intros (A & B & C). split; [split; assumption|]. rewrite map_app. split.
              ** revert S2. generalize (sel sub (d0 :: n :: up)) as l, C. clear -B. induction l as [|x l IH]; intros C D; [exact B|]. cbn [map app] in *. inversion D; subst. constructor.
                 --- intros I. apply in_app_iff in I. destruct I as [I|I]; [contradiction|]. apply in_map_iff in I. destruct I as (y & E & I). apply (C y I). rewrite map_app. apply in_app_iff. right. left. symmetry. exact E.
                 --- apply IH; [|assumption]. intros y I J. apply (C y I). rewrite map_app in *. apply in_app_iff in J. apply in_app_iff. destruct J as [J|J]; [auto|]. right. right. exact J.
              ** intros x I. apply in_app_iff in I. destruct I as [I|I]; [apply S3; exact I|]. intros J. apply (C x I). rewrite map_app. apply in_app_iff. auto.
           ++ intros ((_ & A) & B & C). rewrite map_app in B. split; [exact A|]. split.
              ** revert B. generalize (map (fun x : list name * name * Z => snd (fst x)) (sel sub (d0 :: n :: up))). induction l as [|x l IH]; intros B; [exact B|]. inversion B; subst. auto.
              ** intros x I. rewrite map_app. intros J. apply in_app_iff in J. destruct J as [J|J]; [apply (C x); [apply in_app_iff; right; exact I|exact J]|].
                 rewrite map_map in J. apply in_map_iff in J. destruct J as (y & E & J). cbn [fst] in E.
                 assert (I1 : In (snd (fst x)) (map (fun x => snd (fst x)) (sel sub (d0 :: n :: up)))) by (apply in_map_iff; exists y; auto).
                 assert (I2 : In (snd (fst x)) (map (fun x => snd (fst x)) (sel rest (n :: up)))) by (apply in_map_iff; exists x; auto).
                 revert B I1 I2. clear. generalize (map (fun x : list name * name * Z => snd (fst x)) (sel sub (d0 :: n :: up))) as a. generalize (map (fun x : list name * name * Z => snd (fst x)) (sel rest (n :: up))) as b.
                 intros b a. induction a as [|z a IH]; intros ND I1 I2; [destruct I1|]. cbn [app] in ND. inversion ND; subst. destruct I1 as [->|I1]; [|exact (IH H2 I1 I2)]. apply H1. apply in_app_iff. auto.
        -- split; [intros X; contradiction|]. intros ((A & _) & B & C). exfalso. apply IHs; [|reflexivity]. split; [exact A|]. split.
           ++ rewrite map_app in B. revert B. generalize (map (fun x : list name * name * Z => snd (fst x)) (sel sub (d0 :: n :: up))). induction l as [|x l IH]; intros B; [constructor|].
              cbn [app] in B. inversion B; subst. constructor; [|auto]. intros I. apply H1. apply in_app_iff. auto.
           ++ intros x I. apply C. apply in_app_iff. auto.
      * split; [intros X; contradiction|]. intros (A & _). exfalso. destruct (A d0 (n :: up) r) as (C & ->); [left; reflexivity|left; reflexivity|congruence|].
        apply class_dir_up in C. destruct C as (C & _). rewrite PA in C. injection C as ->. rewrite eqb_octets_refl in E. discriminate.
    + split; [intros X; contradiction|]. intros (A & _). exfalso. destruct (A d0 (n :: up) r) as (C & ->); [left; reflexivity|left; reflexivity|congruence|].
      apply class_dir_up in C. destruct C as (C & _). congruence.
    + rewrite sel_unknown by exact PA. cbn [app]. rewrite IHr by exact CD.
      assert (IO : in_order (ADir d0 r sub rest) (n :: up) <-> in_order rest (n :: up)).
      { unfold in_order. cbn [directories]. split.
        - intros H d y r0 I C K. apply H; [right; apply in_app_iff; auto|exact C|exact K].
        - intros H d y r0 [I|I] C K; [injection I as <- <- <-; contradiction|]. apply in_app_iff in I. destruct I as [I|I]; [|exact (H d y r0 I C K)].
          exfalso. destruct (directories_chain _ _ _ _ I) as (l & e & Ey & _). 
          assert (Y : exists l', y = l' ++ d0 :: n :: up). { destruct l as [|x l]; cbn [app] in Ey; injection Ey as -> ->; [exists []; reflexivity|]. exists (l ++ [e]). rewrite <- app_assoc. reflexivity. }
          destruct Y as (l' & ->). destruct C as [C|C].
          + apply (f_equal (@length _)) in C. rewrite app_length in C. cbn in C. lia.
          + apply class_dir_suffix in C; [|discriminate]. apply class_dir_known in C. destruct C as (q & C). congruence. }
      rewrite IO. reflexivity.
Qed.

Lemma nodup_app : forall (a b : list name), NoDup (a ++ b) <-> NoDup a /\ NoDup b /\ forall x, In x a -> ~ In x b.
Proof.
  induction a as [|x a IH]; intros b; cbn [app].
  - split; [intros H; split; [constructor|split; [exact H|intros x []]]|intros (_ & H & _); exact H].
  - split.
    + intros H. inversion H as [|? ? N D]; subst. apply IH in D. destruct D as (A & B & C). split; [constructor; [|exact A]; intros I; apply N; apply in_app_iff; auto|]. split; [exact B|].
      intros y [<-|I] J; [apply N; apply in_app_iff; auto|exact (C y I J)].
    + intros (A & B & C). inversion A as [|? ? N D]; subst. constructor.
      * intros I. apply in_app_iff in I. destruct I as [I|I]; [contradiction|]. exact (C x (or_introl eq_refl) I).
      * apply IH. split; [exact D|]. split; [exact B|]. intros y I. apply C. right. exact I.
Qed.

Notation verify_top := (verify_top parent_of root disk_limit hex).
Lemma top_root : class_dir [root] = true.
Proof. cbn. apply eqb_octets_refl. Qed.

Lemma verify_top_ok : forall t u u', distinct t -> (In root (dir_names t) -> forall d, us_init u d = 0) -> settled [] u -> verify_top t u = Some u' ->
  us_links u' = us_links u ++ map (fun x => (snd (fst x), fst (fst x))) (sel t []) /\ (forall d, us_init u' d = us_init u d + space d (sel t [])) /\ settled [] u'.
Proof.
  induction t as [|g z rest IH|d0 r sub _ rest IHr]; intros u u' DI ZE SE V; cbn [Datadir_Model.verify_top] in V.
  - injection V as <-. cbn. rewrite app_nil_r. split; [reflexivity|]. split; [intros; lia|exact SE].
  - unfold sel. cbn [stored filter fst snd Datadir_Spec.class_dir andb]. apply IH; [exact DI|exact ZE|exact SE|exact V].
  - rewrite sel_cons_dir. cbn [distinct] in DI. destruct DI as (DN & DS & DR). destruct (parent_of d0) as [q|] eqn:PA.
    + destruct (eqb_octets d0 root && r) eqn:E; [|discriminate]. apply andb_true_iff in E. destruct E as (E & ->). apply eqb_octets_spec in E. subst d0.
      destruct (verify sub root [root] u) as [u1|] eqn:V1; [|discriminate]. assert (ZA : forall d, us_init u d = 0) by (apply ZE; left; reflexivity).
      apply verify_ok in V1; [|exact DS|exact top_root|intros y rd _ _; apply ZA|intros d _ L; apply SE; [intros []|exact L]].
      destruct V1 as (A1 & A2 & _ & A4). apply IHr in V; [|exact DR|intros I; contradiction|].
      * destruct V as (V1 & V2 & V3). split; [|split; [|exact V3]].
        -- rewrite V1. unfold dir_done. cbn [us_links]. rewrite A1, map_app, app_assoc. reflexivity.
        -- intros d. rewrite V2. unfold dir_done. cbn [us_init]. rewrite A2 by (intros []). rewrite space_app. lia.
      * intros d _ L. unfold dir_done, resource_usage. cbn [us_used us_init]. destruct (eqb_octets d root) eqn:ED.
        -- apply eqb_octets_spec in ED. subst d. replace (disk_limit root =? 0) with false by lia. apply upd_same.
        -- assert (NE : d <> root) by (intros ->; rewrite eqb_octets_refl in ED; discriminate).
           assert (X : us_used u1 d = us_init u1 d). { apply A4; [|exact L]. intros [Y|[]]. symmetry in Y. contradiction. }
           destruct (disk_limit root =? 0); [exact X|]. rewrite upd_other by exact NE. exact X.
    + rewrite sel_unknown by exact PA. apply IHr; [exact DR|intros I; apply ZE; right; exact I|exact SE|exact V].
Qed.

Lemma verify_top_works : forall t u, (verify_top t u <> None <-> in_order t [] /\ NoDup (map (fun x => snd (fst x)) (sel t [])) /\
    (forall x, In x (sel t []) -> ~ In (snd (fst x)) (map fst (us_links u)))).
Proof.
  induction t as [|g z rest IH|d0 r sub _ rest IHr]; intros u; cbn [Datadir_Model.verify_top].
  - cbn. split; [intros _|intros _; discriminate]. split; [intros d y r []|]. split; [constructor|intros x []].
  - unfold sel. cbn [stored filter fst snd Datadir_Spec.class_dir andb]. fold (sel rest []). rewrite IH. reflexivity.
  - rewrite sel_cons_dir. destruct (parent_of d0) as [q|] eqn:PA.
    + destruct (eqb_octets d0 root && r) eqn:E.
      * apply andb_true_iff in E. destruct E as (E & ->). apply eqb_octets_spec in E. subst d0.
        pose proof (verify_works sub root [] u top_root) as W.
        assert (IO : in_order (ADir root true sub rest) [] <-> in_order sub [root] /\ in_order rest []).
        { unfold in_order. cbn [directories]. split.
          - intros H. split; intros d y r I C K; (apply H; [right; apply in_app_iff; auto| |exact K]).
            + destruct C as [->|C]; right; [exact top_root|exact C].
            + exact C.
          - intros (H1 & H2) d y r [I|I] C K.
            + injection I as <- <- <-. split; [exact top_root|reflexivity].
            + apply in_app_iff in I. destruct I as [I|I]; [|exact (H2 d y r I C K)]. apply H1; [exact I| |exact K]. destruct C as [->|C]; [|right; exact C].
              exfalso. destruct (directories_chain _ _ _ _ I) as (l & e & Ey & _). apply (f_equal (@length _)) in Ey. rewrite app_length in Ey. cbn in Ey. lia. }
        rewrite IO. rewrite map_app, nodup_app. destruct (verify sub root [root] u) as [u1|] eqn:V1.
        -- pose proof (verify_links _ _ _ _ _ top_root V1) as L. destruct W as (W & _). specialize (W ltac:(discriminate)). destruct W as (S1 & S2 & S3).
           rewrite IHr. unfold dir_done at 1. cbn [us_links]. rewrite L, map_app, map_map. cbn [fst].
           split.
           ++ intros (A & B & C). split; [split; assumption|]. split.
              ** split; [exact S2|]. split; [exact B|]. intros x I J. apply in_map_iff in J. destruct J as (y & <- & J). apply (C y J). apply in_app_iff. auto.
              ** intros x I. apply in_app_iff in I. destruct I as [I|I]; [apply S3; exact I|]. intros J. apply (C x I). apply in_app_iff. auto.
           ++ intros ((_ & A) & (_ & B & D) & C). split; [exact A|]. split; [exact B|]. intros x I J. apply in_app_iff in J. destruct J as [J|J].
              ** apply (C x); [apply in_app_iff; auto|exact J].
              ** apply (D _ J). apply in_map_iff. exists x. auto.
        -- split; [intros X; contradiction|]. intros ((A & _) & (B & _) & C). exfalso. apply W; [|reflexivity]. split; [exact A|]. split; [exact B|]. intros x I. apply C. apply in_app_iff. auto.
      * split; [intros X; contradiction|]. intros (A & _). exfalso. destruct (A d0 [] r) as (C & ->); [left; reflexivity|left; reflexivity|congruence|]. cbn in C. rewrite C in E. discriminate.
    + rewrite sel_unknown by exact PA. cbn [app]. rewrite IHr.
      assert (IO : in_order (ADir d0 r sub rest) [] <-> in_order rest []).
      { unfold in_order. cbn [directories]. split.
        - intros H d y r0 I C K. apply H; [right; apply in_app_iff; auto|exact C|exact K].
        - intros H d y r0 [I|I] C K; [injection I as <- <- <-; contradiction|]. apply in_app_iff in I. destruct I as [I|I]; [|exact (H d y r0 I C K)].
          exfalso. destruct (directories_chain _ _ _ _ I) as (l & e & Ey & _).
          assert (Y : exists l', y = l' ++ [d0]). { destruct l as [|x l]; cbn [app] in Ey; injection Ey as -> ->; [exists []; reflexivity|]. exists (l ++ [e]). rewrite <- app_assoc. reflexivity. }
          destruct Y as (l' & ->). destruct C as [C|C].
          + apply (f_equal (@length _)) in C. rewrite app_length in C. cbn in C. lia.
          + apply class_dir_suffix in C; [|discriminate]. apply class_dir_known in C. destruct C as (q & C). congruence. }
      rewrite IO. reflexivity.
Qed.

Lemma start_ok : forall t u, distinct t -> start parent_of root disk_limit hex t = Some u ->
  us_links u = map (fun x => (snd (fst x), fst (fst x))) (sessions parent_of root hex t) /\
  forall d, disk_limit d <> 0 -> us_used u d = space d (sessions parent_of root hex t).
Proof.
  intros t u D S. apply verify_top_ok in S; [|exact D|reflexivity|intros d _ _; reflexivity]. destruct S as (A & B & C). split; [exact A|].
  intros d L. rewrite C by (try exact L; intros []). rewrite B. reflexivity.
Qed.
Lemma start_works : forall t, start parent_of root disk_limit hex t <> None <-> in_order t [] /\ NoDup (map (fun x => snd (fst x)) (sessions parent_of root hex t)).
Proof.
  intros t. unfold start. rewrite verify_top_works. cbn [us_links map]. split; [intros (A & B & _); split; assumption|]. intros (A & B). split; [exact A|]. split; [exact B|]. intros x _ [].
Qed.
(** the links lead to files, in any directory structure *)
Lemma start_links : forall t u, start parent_of root disk_limit hex t = Some u ->
  us_links u = map (fun x => (snd (fst x), fst (fst x))) (sessions parent_of root hex t).
Proof.
  intros t u. unfold start. assert (G : forall t v u, verify_top t v = Some u -> us_links u = us_links v ++ map (fun x => (snd (fst x), fst (fst x))) (sel t [])).
  { clear t u. induction t as [|g z rest IH|d0 r sub _ rest IHr]; intros v u V; cbn [Datadir_Model.verify_top] in V.
    - injection V as <-. cbn. rewrite app_nil_r. reflexivity.
    - unfold sel. cbn [stored filter fst snd Datadir_Spec.class_dir andb]. apply IH. exact V.
    - rewrite sel_cons_dir. destruct (parent_of d0) as [q|] eqn:PA.
      + destruct (eqb_octets d0 root && r) eqn:E; [|discriminate]. apply andb_true_iff in E. destruct E as (E & ->). apply eqb_octets_spec in E. subst d0.
        destruct (verify sub root [root] v) as [u1|] eqn:V1; [|discriminate]. apply IHr in V. rewrite V. unfold dir_done. cbn [us_links].
        rewrite (verify_links _ _ _ _ _ top_root V1), map_app, app_assoc. reflexivity.
      + rewrite sel_unknown by exact PA. apply IHr. exact V. }
  intros S. apply G in S. exact S.
Qed.
End Start.

(** ** histories *)
Lemma contents_stored : forall t at_ c f s, contents t at_ c f s <-> In (c, f, s) (stored t at_).
Proof.
  induction t as [|g z rest IH|d r sub IHs rest IHr]; intros at_ c f s; cbn [contents stored].
  - reflexivity.
  - rewrite IH. cbn [In]. split; intros [H|H]; auto; left; [destruct H as (-> & -> & ->); reflexivity|injection H as <- <- <-; auto].
  - rewrite IHs, IHr, in_app_iff. reflexivity.
Qed.
Lemma in_without : forall A (n : name) (l : list (name * A)) x, In x (without n l) <-> In x l /\ fst x <> n.
Proof.
  intros A n l x. unfold without. rewrite filter_In. split; intros (I & H); (split; [exact I|]).
  - intros <-. rewrite eqb_octets_refl in H. discriminate.
  - apply negb_true_iff. destruct (eqb_octets (fst x) n) eqn:E; [apply eqb_octets_spec in E; contradiction|exact E].
Qed.
Lemma in_without_file : forall c n l x, In x (without_file c n l) <-> In x l /\ x <> (c, n).
Proof.
  intros c n l [y g]. unfold without_file. rewrite filter_In. cbn [fst snd]. unfold same_place. destruct (list_eq_dec (list_eq_dec Z.eq_dec) y c) as [->|N]; cbn [andb].
  - destruct (eqb_octets g n) eqn:E; cbn.
    + apply eqb_octets_spec in E. subst g. split; [intros (_ & H); discriminate|]. intros (_ & H). contradiction.
    + split; [|tauto]. intros (I & _). split; [exact I|]. intros X. injection X as ->. rewrite eqb_octets_refl in E. discriminate.
  - split; [|tauto]. intros (I & _). split; [exact I|]. intros X. injection X as -> ->. contradiction.
Qed.

Section H.
Variable hex : list Z -> bool.
Record inv (w : world) : Prop := {
  i_links : forall f c, In (f, c) (w_links w) -> In (c, f) (w_files w);
  i_one : forall f c c', In (c, f) (w_files w) -> In (c', f) (w_files w) -> c = c';
  i_calls : forall f p, In (f, p) (w_calls w) -> In (match p with Creating c => c | Removing c => c end, f) (w_files w) /\ ~ In f (map fst (w_links w));
  i_call : forall f p p', In (f, p) (w_calls w) -> In (f, p') (w_calls w) -> p = p';
  i_linked : forall c f, In (c, f) (w_files w) -> session_name hex f = true -> class_dir (w_parent w) (w_root w) c = true -> In (f, c) (w_links w) \/ In f (map fst (w_calls w)) }.

Lemma inv_step : forall w w', inv w -> step hex false w w' -> inv w'.
Proof.
  intros w w' [IL IO IC IU IK] ST. destruct ST as [w chain f SN NF NC|w chain f I NL|w chain f I L|w chain f I NC|w chain f I|w parent_of root disk_limit t u RT CO SO]; unfold change in *; constructor; cbn [w_files w_links w_calls w_parent w_root].
  - intros g c J. right. apply IL. exact J.
  - intros g c c' [J|J] [K|K].
    + congruence.
    + injection J as <- <-. exfalso. exact (NF _ K).
    + injection K as <- <-. exfalso. exact (NF _ J).
    + exact (IO g c c' J K).
  - intros g p [J|J].
    + injection J as <- <-. split; [left; reflexivity|]. intros K. apply in_map_iff in K. destruct K as ([a b] & <- & K). apply IL in K. exact (NF _ K).
    + apply IC in J. destruct J as (J1 & J2). split; [right; exact J1|exact J2].
  - intros g p p' [J|J] [K|K].
    + congruence.
    + injection J as <- <-. exfalso. apply NC. apply in_map_iff. exists (f, p'). auto.
    + injection K as <- <-. exfalso. apply NC. apply in_map_iff. exists (f, p). auto.
    + exact (IU g p p' J K).
  - intros c g [J|J] S C; [injection J as -> ->; right; left; reflexivity|]. destruct (IK c g J S C) as [X|X]; [left; exact X|right; right; exact X].
  - intros g c [J|J]; [|apply IL; exact J]. injection J as <- <-. apply IC in I. apply I.
  - exact IO.
  - intros g p J. apply in_without in J. destruct J as (J & N). cbn [fst] in N. destruct (IC g p J) as (A & B). split; [exact A|]. intros [X|X]; [symmetry in X; contradiction|contradiction].
  - intros g p p' J K. apply in_without in J, K. exact (IU g p p' (proj1 J) (proj1 K)).
  - intros c g J S C. destruct (IK c g J S C) as [X|X]; [left; right; exact X|]. destruct (list_eq_dec Z.eq_dec g f) as [->|N].
    + left. left. f_equal. pose proof (proj1 (IC _ _ I)) as F. cbn in F. exact (IO f _ _ F J).
    + right. apply in_map_iff in X. destruct X as (x & <- & X). apply in_map_iff. exists x. split; [reflexivity|]. apply in_without. auto.
  - intros g c J. apply in_without in J. apply IL. apply J.
  - exact IO.
  - exfalso. apply (proj2 (IC _ _ I)). exact L.
  - exfalso. apply (proj2 (IC _ _ I)). exact L.
  - exfalso. apply (proj2 (IC _ _ I)). exact L.
  - intros g c J. apply in_without in J. apply IL. apply J.
  - exact IO.
  - intros g p [J|J].
    + injection J as <- <-. split; [apply IL; exact I|]. intros K. apply in_map_iff in K. destruct K as (x & E & K). apply in_without in K. destruct K as (_ & K). contradiction.
    + destruct (IC g p J) as (A & B). split; [exact A|]. intros K. apply B. apply in_map_iff in K. destruct K as (x & E & K). apply in_without in K. apply in_map_iff. exists x. split; [exact E|apply K].
  - intros g p p' [J|J] [K|K].
    + congruence.
    + injection J as <- <-. exfalso. apply NC. apply in_map_iff. exists (f, p'). auto.
    + injection K as <- <-. exfalso. apply NC. apply in_map_iff. exists (f, p). auto.
    + exact (IU g p p' J K).
  - intros c g J S C. destruct (IK c g J S C) as [X|X]; [|right; right; exact X]. destruct (list_eq_dec Z.eq_dec g f) as [->|N]; [right; left; reflexivity|]. left. apply in_without. auto.
  - intros g c J. apply in_without_file. split; [apply IL; exact J|]. intros E. injection E as -> ->. apply (proj2 (IC _ _ I)). apply in_map_iff. exists (f, chain). auto.
  - intros g c c' J K. apply in_without_file in J, K. exact (IO g c c' (proj1 J) (proj1 K)).
  - intros g p J. apply in_without in J. destruct J as (J & N). cbn [fst] in N. destruct (IC g p J) as (A & B). split; [|exact B]. apply in_without_file. split; [exact A|]. intros E. injection E as _ ->. contradiction.
  - intros g p p' J K. apply in_without in J, K. exact (IU g p p' (proj1 J) (proj1 K)).
  - intros c g J S C. apply in_without_file in J. destruct J as (J & N). destruct (IK c g J S C) as [X|X]; [left; exact X|]. right. apply in_map_iff in X. destruct X as (x & <- & X). apply in_map_iff. exists x. split; [reflexivity|].
    apply in_without. split; [exact X|]. intros E. apply N. pose proof (proj1 (IC _ _ I)) as F. cbn in F. rewrite E in *. f_equal. exact (IO f _ _ J F).
  - intros g c J. rewrite (start_links _ _ _ _ RT _ _ SO) in J. apply in_map_iff in J. destruct J as ([[a b] z] & E & J). cbn [fst snd] in E. injection E as <- <-. apply CO. exists z.
    apply contents_stored. apply filter_In in J. apply J.
  - exact IO.
  - intros g p [].
  - intros g p p' [].
  - intros c g J S C. left. rewrite (start_links _ _ _ _ RT _ _ SO). apply CO in J. destruct J as (z & J). apply contents_stored in J. apply in_map_iff. exists (c, g, z). split; [reflexivity|].
    apply filter_In. split; [exact J|]. cbn [fst snd]. rewrite C, S. reflexivity.
Qed.
Lemma inv_reach : forall w, reach hex false w -> inv w.
Proof.
  intros w R. induction R as [parent_of root|w w' R IH ST]; [|eapply inv_step; eassumption]. constructor; cbn.
  - intros f c [].
  - intros f c c' [].
  - intros f p [].
  - intros f p p' [].
  - intros c f [].
Qed.
End H.

(** ** places *)
Lemma components_app : forall a b cur, components cur (a ++ sep ++ b) = components cur a ++ components [] b.
Proof.
  induction a as [|c a IH]; intros b cur; [reflexivity|]. cbn [app components]. destruct (c =? 47); [cbn [app]; f_equal; apply IH|apply IH].
Qed.
Lemma components_one : forall s cur, ~ In 47 s -> components cur s = [rev cur ++ s].
Proof.
  induction s as [|c s IH]; intros cur N; cbn [components]; [rewrite app_nil_r; reflexivity|]. destruct (Z.eqb_spec c 47) as [->|]; [exfalso; apply N; left; reflexivity|].
  rewrite IH by (intros I; apply N; right; exact I). cbn [rev]. rewrite <- app_assoc. reflexivity.
Qed.
Lemma walk_path_app : forall l l' at_, walk_path at_ (l ++ l') = walk_path (walk_path at_ l) l'.
Proof.
  induction l as [|n l IH]; intros l' at_; [reflexivity|]. cbn [app walk_path]. destruct (_ || _); [apply IH|]. destruct (eqb_octets n [46; 46]); apply IH.
Qed.
Lemma place_last : forall cwd a s, a <> [] -> proper s -> place_of cwd (a ++ sep ++ s) = s :: place_of cwd a.
Proof.
  intros cwd a s NE (NS & N0 & N1 & N2). unfold place_of. destruct a as [|c a]; [contradiction|].
  rewrite components_app, walk_path_app, (components_one s) by exact NS. cbn [rev app walk_path].
  replace (eqb_octets s []) with false by (symmetry; destruct (eqb_octets s []) eqn:E; [apply eqb_octets_spec in E; contradiction|reflexivity]).
  replace (eqb_octets s [46]) with false by (symmetry; destruct (eqb_octets s [46]) eqn:E; [apply eqb_octets_spec in E; contradiction|reflexivity]).
  replace (eqb_octets s [46; 46]) with false by (symmetry; destruct (eqb_octets s [46; 46]) eqn:E; [apply eqb_octets_spec in E; contradiction|reflexivity]).
  cbn [orb]. reflexivity.
Qed.
Lemma place_abs : forall cwd cwd' s, place_of cwd (47 :: s) = place_of cwd' (47 :: s).
Proof. reflexivity. Qed.

Definition shown (l : list name) : list name := filter (fun n => negb (eqb_octets n [] || eqb_octets n [46])) l.
Lemma walk_down : forall l at_, ~ In [46; 46] l -> walk_path at_ l = rev (shown l) ++ at_.
Proof.
  induction l as [|n l IH]; intros at_ N; [reflexivity|]. cbn [walk_path shown filter]. fold (shown l). assert (N2 : ~ In [46; 46] l) by (intros I; apply N; right; exact I).
  destruct (eqb_octets n [] || eqb_octets n [46]) eqn:E; cbn [negb]; [apply IH; exact N2|].
  destruct (eqb_octets n [46; 46]) eqn:E2; [apply eqb_octets_spec in E2; exfalso; apply N; left; exact E2|]. rewrite IH by exact N2. cbn [rev]. rewrite <- app_assoc. reflexivity.
Qed.
Lemma shown_app : forall a b, shown (a ++ b) = shown a ++ shown b.
Proof. intros. apply filter_app. Qed.

Lemma sid_proper : forall sid, length sid = 32%nat -> ~ In 47 sid -> proper (sid ++ ext).
Proof.
  intros sid L N. assert (X : length (sid ++ ext) = 36%nat) by (rewrite app_length, L; reflexivity). split; [|split; [|split]].
  - intros I. apply in_app_iff in I. destruct I as [I|I]; [contradiction|]. cbn in I. lia.
  - intros E. rewrite E in X. discriminate.
  - intros E. rewrite E in X. discriminate.
  - intros E. rewrite E in X. discriminate.
Qed.
Lemma filepath_text : forall datadir node sid p, filepath datadir node sid = Some p -> p = dir_text datadir node ++ sep ++ sid ++ ext.
Proof. intros datadir node sid p. unfold filepath. rewrite node_dir_text. destruct (PATH_MAX <? _); [discriminate|]. congruence. Qed.
Lemma dir_text_cons : forall datadir node, exists r, dir_text datadir node = datadir ++ sep ++ r.
Proof.
  intros datadir. induction node as [|n up (r & IH)]; [exists hierarchy; reflexivity|]. cbn [dir_text]. rewrite IH. exists (r ++ sep ++ n). rewrite <- !app_assoc. reflexivity.
Qed.
Lemma class_found : forall datadir n up sid, length sid = 32%nat -> ~ In 47 n -> datadir <> [] -> class_of_link (dir_text datadir (n :: up) ++ sep ++ sid ++ ext) = Some n.
Proof.
  intros datadir n up sid L N D. unfold class_of_link. set (dt := dir_text datadir (n :: up)).
  assert (X : length (dt ++ sep ++ sid ++ ext) = (length dt + 37)%nat) by (rewrite !app_length, L; reflexivity). rewrite X. replace (length dt + 37 - 37)%nat with (length dt) by lia.
  rewrite firstn_app, firstn_all, Nat.sub_diag. cbn [firstn]. rewrite app_nil_r. unfold dt. cbn [dir_text]. destruct (dir_text_cons datadir up) as (r & ->).
  destruct datadir as [|c datadir]; [contradiction|]. cbn [app]. change (c :: datadir ++ sep ++ r) with (c :: (datadir ++ sep ++ r)). cbn [app].
  apply last_part_app. exact N.
Qed.
Lemma same_place_refl : forall a, same_place a a = true.
Proof. intros a. unfold same_place. destruct (list_eq_dec (list_eq_dec Z.eq_dec) a a); [reflexivity|contradiction]. Qed.
Lemma same_place_ok : forall a b, same_place a b = true -> a = b.
Proof. intros a b. unfold same_place. destruct (list_eq_dec (list_eq_dec Z.eq_dec) a b); [auto|discriminate]. Qed.
Lemma link_place : forall cwd datadir sid, datadir <> [] -> length sid = 32%nat -> ~ In 47 sid -> place_of cwd (linkpath datadir sid) = (sid ++ ext) :: place_of cwd (datadir ++ sep ++ catalog).
Proof.
  intros cwd datadir sid D L N. unfold linkpath. replace (datadir ++ sep ++ catalog ++ sep ++ sid ++ ext) with ((datadir ++ sep ++ catalog) ++ sep ++ sid ++ ext) by (rewrite <- !app_assoc; reflexivity).
  apply place_last; [|apply sid_proper; assumption]. destruct datadir; [contradiction|discriminate].
Qed.
