From Coq Require Import ZArith List Bool Lia.
From Coq Require Import ZifyBool ZifyNat.
From Verif Require Import Base BaseLemmas Policy_Model Policy_Spec Policy_Proofs Policy_Class Policy_Net Limits_Model Limits_Spec.
Import ListNotations.
Open Scope Z_scope.
Ltac Zify.zify_post_hook ::= Z.div_mod_to_equations.

(** ** find_lim *)
Lemma find_lim_in : forall lim l, (exists k, find_lim lim l = Some k) <-> In lim (map fst l).
Proof.
  intros lim. induction l as [|[a v] l IH]; cbn [find_lim map fst In].
  - split; [intros (k & E); discriminate|intros []].
  - destruct (Z.eqb_spec a lim) as [->|N]; [split; [auto|eauto]|].
    split.
    + intros (k & E). right. apply IH. destruct (find_lim lim l); [eauto|discriminate].
    + intros [H|H]; [congruence|]. apply IH in H as (k & ->). eexists; reflexivity.
Qed.
Lemma find_lim_none : forall lim l, find_lim lim l = None <-> ~ In lim (map fst l).
Proof.
  intros lim l. rewrite <- find_lim_in. destruct (find_lim lim l); split; intros H; try discriminate; auto.
  - exfalso. apply H. eauto.
  - intros (k & E). discriminate.
Qed.

Lemma inherit_spec : forall pl own, NoDup (map fst pl) -> NoDup (map fst own) ->
  NoDup (map fst (inherit pl own)) /\ (forall lim v, In (lim, v) (inherit pl own) <-> In (lim, v) own \/ (In (lim, v) pl /\ ~ In lim (map fst own))) /\
  incl (map fst pl) (map fst (inherit pl own)) /\ (forall P, Forall P pl -> Forall P own -> Forall P (inherit pl own)).
Proof.
  induction pl as [|[lim v] pl IH]; intros own Np No; cbn [inherit].
  - split; auto. split; [intros; cbn [In]; tauto|]. split; [intros x []|auto].
  - cbn [map fst] in Np. inversion Np as [|? ? N1 N2]; subst. destruct (find_lim lim own) as [k|] eqn:F.
    + assert (I: In lim (map fst own)) by (apply find_lim_in; eauto).
      destruct (IH own N2 No) as (A & B & C & D). split; auto. split; [|split].
      * intros lim' v'. rewrite B. cbn [In]. split; [tauto|]. intros [H|([H|H] & Q)]; [tauto| |tauto]. injection H as <- <-. exfalso. tauto.
      * intros x [<-|H]; [|apply C; exact H]. apply in_map_iff in I as ((a & b) & Ea & Ib). cbn [fst] in Ea. subst a. apply (in_map fst (inherit pl own) (lim, b)). apply (proj2 (B lim b)). left. exact Ib.
      * intros P Fp Fo. inversion Fp; subst. apply D; auto.
    + apply find_lim_none in F.
      assert (No': NoDup (map fst (own ++ [(lim, v)]))).
      { rewrite map_app. cbn [map fst]. apply NoDup_Add with (a := lim) (l := map fst own). - rewrite <- (app_nil_r (map fst own)) at 1. apply Add_app. - split; auto. }
      destruct (IH (own ++ [(lim, v)]) N2 No') as (A & B & C & D). split; auto. split; [|split].
      * intros lim' v'. rewrite B. rewrite map_app, !in_app_iff. cbn [map fst In]. split.
        -- intros [[H|[H|[]]]|(H & Q)]; [tauto|injection H as <- <-; tauto|]. right. split; [tauto|]. tauto.
        -- intros [H|([H|H] & Q)]; [tauto|injection H as <- <-; tauto|]. destruct (Z.eq_dec lim lim') as [<-|Ne]; [|right; split; auto; intros [X|[X|[]]]; tauto].
           exfalso. apply N1. change lim with (fst (lim, v')). apply in_map. exact H.
      * intros x [<-|H]; [|apply C; exact H]. apply (in_map fst (inherit pl (own ++ [(lim, v)])) (lim, v)). apply (proj2 (B lim v)). left. apply in_or_app. right. left. auto.
      * intros P Fp Fo. inversion Fp; subst. apply D; auto. apply Forall_app. split; auto.
Qed.

(** ** scanning *)
Lemma skip_while_all : forall p a b, Forall (fun c => p c = true) a -> skip_while p (a ++ b) = skip_while p b.
Proof. induction a as [|c a IH]; intros b F; cbn [app skip_while]; auto. inversion F; subst. rewrite H1. auto. Qed.
Lemma skip_while_stop : forall p c b, p c = false -> skip_while p (c :: b) = c :: b.
Proof. intros. cbn [skip_while]. rewrite H. reflexivity. Qed.
Lemma span_not_app : forall p a b, Forall (fun c => p c = false) a -> (b = [] \/ exists c r, b = c :: r /\ p c = true) -> span_not p (a ++ b) = (a, b).
Proof.
  induction a as [|c a IH]; intros b F H; cbn [app].
  - destruct H as [->|(c & r & -> & E)]; cbn [span_not]; [reflexivity|rewrite E; reflexivity].
  - inversion F; subst. cbn [span_not]. rewrite H2, IH by auto. reflexivity.
Qed.
Lemma isspace_spec : forall c, isspace c = true <-> is_space c.
Proof. intros c. unfold isspace, is_space. lia. Qed.
Lemma fimp : forall (P Q : Z -> Prop) l, (forall c, P c -> Q c) -> Forall P l -> Forall Q l.
Proof. intros P Q l H F. eapply Forall_impl; eauto. Qed.

Lemma split_pair_spec : forall p, pair_wf p -> split_pair (render_pair p) = POk (px_key p, px_val p).
Proof.
  intros [pre key sep val post] (W1 & W2 & W3 & W0 & W4 & W5 & W6 & W7). cbn [px_pre px_key px_sep px_val px_post] in *. unfold split_pair, render_pair. cbn [px_pre px_key px_sep px_val px_post].
  rewrite skip_while_all by (eapply fimp; [|exact W1]; intros c; apply isspace_spec).
  destruct sep as [|s0 sep]; [congruence|]. inversion W5 as [|? ? S0 S1]; subst.
  assert (E0: (isspace s0 || equals s0)%bool = true) by (unfold equals; destruct S0 as [H | ->]; [apply isspace_spec in H; rewrite H; reflexivity|reflexivity]).
  assert (K: skip_while isspace (key ++ (s0 :: sep) ++ val ++ post) = key ++ (s0 :: sep) ++ val ++ post).
  { destruct key as [|k0 key]; [congruence|]. inversion W3 as [|? ? (X & _) _]; subst. cbn [app]. apply skip_while_stop. apply not_true_iff_false. intros H. apply X. apply isspace_spec. exact H. }
  assert (Kf: Forall (fun c => (isspace c || equals c)%bool = false) key).
  { eapply fimp; [|exact W3]. intros c (X & Y & _). unfold equals. apply orb_false_iff. split; [apply not_true_iff_false; intros H; apply X; apply isspace_spec; exact H|lia]. }
  assert (V: forall r, Forall (fun c => is_space c \/ c = 61) r -> fst (span_not isspace (skip_while (fun c => isspace c || equals c)%bool (r ++ val ++ post))) = val).
  { intros r Fr. rewrite skip_while_all by (eapply fimp; [|exact Fr]; intros c [H | ->]; [apply isspace_spec in H; rewrite H; reflexivity|reflexivity]).
    destruct val as [|v0 val].
    - cbn [app]. rewrite <- (app_nil_r post). rewrite skip_while_all; [reflexivity|]. eapply fimp; [|exact W2]. intros c H. apply isspace_spec in H. rewrite H. reflexivity.
    - inversion W6 as [|? ? (X & Y) Z0]; subst. cbn [hd] in W7.
      assert (isspace v0 = false) by (apply not_true_iff_false; intros H; apply X; apply isspace_spec; exact H).
      cbn [app]. rewrite skip_while_stop by (unfold equals; rewrite H; cbn [orb]; lia).
      change (v0 :: val ++ post) with ((v0 :: val) ++ post). rewrite span_not_app; [reflexivity| |].
      + constructor; auto. eapply fimp; [|exact Z0]. intros c (Q & _). apply not_true_iff_false. intros H'. apply Q. apply isspace_spec. exact H'.
      + destruct post as [|c post]; [left; auto|right]. exists c, post. split; auto. inversion W2; subst. apply isspace_spec. auto. }
  rewrite K. rewrite span_not_app; auto; [|right; exists s0, (sep ++ val ++ post); auto]. cbn [app]. rewrite V by auto. reflexivity.
Qed.

(** ** strtok *)
Lemma span_not_len : forall p s a b, span_not p s = (a, b) -> s = a ++ b /\ Forall (fun c => p c = false) a.
Proof.
  induction s as [|c s IH]; intros a b E; cbn [span_not] in E; [injection E as <- <-; split; auto|].
  destruct (p c) eqn:P; [injection E as <- <-; split; auto|]. destruct (span_not p s) as [a' b'] eqn:S. injection E as <- <-. destruct (IH _ _ eq_refl) as (-> & F). split; auto.
Qed.
Lemma skip_while_suffix : forall p s, exists a, s = a ++ skip_while p s.
Proof. induction s as [|c s (a & IH)]; cbn [skip_while]; [exists []; auto|]. destruct (p c); [exists (c :: a); cbn [app]; congruence|exists []; auto]. Qed.
Lemma skip_while_hd : forall p s c r, skip_while p s = c :: r -> p c = false.
Proof. induction s as [|x s IH]; intros c r E; cbn [skip_while] in E; [discriminate|]. destruct (p x) eqn:P; [eauto|]. injection E as <- <-. exact P. Qed.
Lemma strtok_inv : forall d s a r, strtok d s = Some (a, r) -> a <> [] /\ Forall (fun c => d c = false) a /\ (length r < length s)%nat /\ (forall c, In c a \/ In c r -> In c s).
Proof.
  intros d s a r E. unfold strtok in E. destruct (skip_while_suffix d s) as (pre & Es). destruct (skip_while d s) as [|c s'] eqn:K; [discriminate|].
  pose proof (skip_while_hd _ _ _ _ K) as Hc. destruct (span_not d (c :: s')) as [a' b] eqn:S. injection E as <- <-.
  destruct (span_not_len _ _ _ _ S) as (E2 & F). split; [|split; [exact F|]].
  - intros ->. cbn [span_not] in S. rewrite Hc in S. destruct (span_not d s'). discriminate.
  - assert (a' <> []). { intros ->. cbn [span_not] in S. rewrite Hc in S. destruct (span_not d s'). discriminate. }
    rewrite Es, E2, !app_length. split.
    + destruct a'; [congruence|]. destruct b; cbn [length]; lia.
    + intros x [I|I]; rewrite !in_app_iff; [auto|]. right. right. destruct b; [destruct I|right; exact I].
Qed.
Lemma strtok_app : forall d pre a sepc r, Forall (fun c => d c = true) pre -> a <> [] -> Forall (fun c => d c = false) a -> d sepc = true -> strtok d (pre ++ a ++ sepc :: r) = Some (a, r).
Proof.
  intros d pre a sepc r Fp Na Fa Hs. unfold strtok. rewrite skip_while_all by auto. destruct a as [|a0 a]; [congruence|]. inversion Fa; subst. cbn [app].
  rewrite skip_while_stop by auto. change (a0 :: a ++ sepc :: r) with ((a0 :: a) ++ sepc :: r). rewrite span_not_app; auto. right. eauto.
Qed.
Lemma strtok_end : forall d pre a, Forall (fun c => d c = true) pre -> a <> [] -> Forall (fun c => d c = false) a -> strtok d (pre ++ a) = Some (a, []).
Proof.
  intros d pre a Fp Na Fa. unfold strtok. rewrite skip_while_all by auto. destruct a as [|a0 a]; [congruence|]. inversion Fa; subst.
  rewrite skip_while_stop by auto. pose proof (span_not_app d (a0 :: a) [] Fa (or_introl eq_refl)) as E. rewrite app_nil_r in E. rewrite E. reflexivity.
Qed.

Section ORACLES.
Variable strtonum : list Z -> option Z.

Lemma same_word_spec : forall s k, same_word s k = true <-> lower s = k.
Proof. intros. unfold same_word. rewrite eqb_octets_spec. reflexivity. Qed.

(** ** rendered pairs *)
Definition apply_item (t : tree) (lt : ltemp) (it : item) : option ltemp :=
  match it with
  | IParent n => match lt_parent lt, find_class n t with None, Some i => Some (mkLt (Some i) (lt_lims lt)) | _, _ => None end
  | ILimit lim v => if existsb (Z.eqb lim) (map fst (lt_lims lt)) then None else Some (mkLt (lt_parent lt) (lt_lims lt ++ [(lim, v)]))
  end.

Lemma word_key : forall key k w, lower key = k -> same_word key w = eqb_octets k w.
Proof. intros key k w <-. reflexivity. Qed.

Lemma parse_pair_spec : forall t lt p it, t <> [] \/ (forall n, it <> IParent n) -> pair_wf p -> says strtonum p it -> (length (lt_lims lt) < 5)%nat ->
  match apply_item t lt it with Some lt' => parse_pair strtonum t lt (render_pair p) = POk lt' | None => True end.
Proof.
  intros t lt p it Ht W Sy L. unfold parse_pair. destruct (Z.leb_spec 5 (Z.of_nat (length (lt_lims lt)))); [lia|].
  rewrite split_pair_spec by exact W.
  assert (Lim: forall lim v, lower (px_key p) <> w_parent -> lim_of_name (px_key p) = Some lim -> lim_value strtonum lim (px_val p) = Some v ->
    match apply_item t lt (ILimit lim v) with Some lt' =>
      (if same_word (px_key p) w_parent then match t with [] => PErr | _ :: _ => match lt_parent lt with Some _ => PErr | None => match find_class (px_val p) t with Some i => POk (mkLt (Some i) (lt_lims lt)) | None => PErr end end end
       else match lim_of_name (px_key p) with None => PErr | Some lim => match find_lim lim (lt_lims lt) with Some _ => PErr | None => match lim_value strtonum lim (px_val p) with Some v => POk (mkLt (lt_parent lt) (lt_lims lt ++ [(lim, v)])) | None => PErr end end end) = POk lt'
    | None => True end).
  { intros lim v Np En Ev. cbn [apply_item]. destruct (existsb (Z.eqb lim) (map fst (lt_lims lt))) eqn:X; [exact I|].
    destruct (same_word (px_key p) w_parent) eqn:Q; [apply same_word_spec in Q; contradiction|]. rewrite En.
    destruct (find_lim lim (lt_lims lt)) as [k|] eqn:F; [|rewrite Ev; reflexivity]. exfalso.
    assert (In lim (map fst (lt_lims lt))) by (apply find_lim_in; eauto).
    assert (existsb (Z.eqb lim) (map fst (lt_lims lt)) = true) by (apply existsb_exists; exists lim; split; auto; lia). congruence. }
  destruct it as [n|lim v]; cbn [says] in Sy.
  - destruct Sy as (Sk & <-). cbn [apply_item]. rewrite (proj2 (same_word_spec _ _) Sk).
    destruct t as [|n0 t]; [destruct Ht as [Ht|Ht]; [congruence|exfalso; eapply Ht; reflexivity]|].
    destruct (lt_parent lt); [exact I|]. destruct (find_class (px_val p) (n0 :: t)); [reflexivity|exact I].
  - apply Lim.
    + destruct Sy as [([(K & _)|[(K & _)|(K & _)]] & _)|([(K & _)|(K & _)] & _)]; rewrite K; discriminate.
    + unfold lim_of_name. destruct Sy as [([(K & ->)|[(K & ->)|(K & ->)]] & _)|([(K & ->)|(K & ->)] & _)]; rewrite !(word_key _ _ _ K); reflexivity.
    + unfold lim_value. destruct Sy as [([(K & ->)|[(K & ->)|(K & ->)]] & V)|([(K & ->)|(K & ->)] & [(V & ->)|(V & ->)])]; cbn [lim_type Z.eqb Pos.eqb orb]; auto;
        rewrite !(word_key _ _ _ V); reflexivity.
Qed.

Lemma render_pair_nc : forall p, pair_wf p -> Forall (fun c => comma c = false) (render_pair p) /\ render_pair p <> [].
Proof.
  intros p (W1 & W2 & W3 & W0 & W4 & W5 & W6 & W7). unfold render_pair. split.
  - assert (Sp: forall c, is_space c -> comma c = false) by (intros c H; unfold comma, is_space in *; lia).
    repeat (apply Forall_app; split).
    + eapply fimp; [|exact W1]. exact Sp.
    + eapply fimp; [|exact W3]. intros c (_ & _ & H). unfold comma. lia.
    + eapply fimp; [|exact W5]. intros c [H | ->]; [auto|reflexivity].
    + eapply fimp; [|exact W6]. intros c (_ & H). unfold comma. lia.
    + eapply fimp; [|exact W2]. exact Sp.
  - destruct (px_key p); [congruence|]. destruct (px_pre p); discriminate.
Qed.

Fixpoint apply_items (t : tree) (lt : ltemp) (l : list item) : option ltemp :=
  match l with [] => Some lt | it :: r => match apply_item t lt it with Some lt' => apply_items t lt' r | None => None end end.

(** the number of limits seen before each pair is below five *)
Fixpoint room (n : nat) (l : list item) : Prop := match l with [] => True | it :: r => (n < 5)%nat /\ room (match it with ILimit _ _ => S n | _ => n end) r end.

Lemma apply_item_len : forall t lt it lt', apply_item t lt it = Some lt' -> length (lt_lims lt') = match it with ILimit _ _ => S (length (lt_lims lt)) | _ => length (lt_lims lt) end.
Proof.
  intros t lt [n|lim v] lt' E; cbn [apply_item] in E.
  - destruct (lt_parent lt); [discriminate|]. destruct (find_class n t); [|discriminate]. injection E as <-. reflexivity.
  - destruct (existsb _ _); [discriminate|]. injection E as <-. cbn [lt_lims]. rewrite app_length. cbn [length]. lia.
Qed.

Lemma parse_pairs_spec : forall t ps its, (t <> [] \/ parents_of its = []) -> Forall pair_wf ps -> Forall2 (says strtonum) ps its -> forall lt lt' fuel,
  room (length (lt_lims lt)) its -> apply_items t lt its = Some lt' -> (length (render_pairs ps) <= fuel)%nat -> parse_pairs strtonum fuel t lt (render_pairs ps) = POk lt'.
Proof.
  intros t ps its Ht Wf F. revert Ht Wf. induction F as [|p it ps its Sy F IH]; intros Ht Wf lt lt' fuel Rm E Hf.
  - cbn [apply_items] in E. injection E as <-. cbn [render_pairs] in *. destruct fuel; reflexivity.
  - inversion Wf as [|? ? W1 W2]; subst. cbn [apply_items room] in *. destruct Rm as (R1 & R2). destruct (apply_item t lt it) as [lt1|] eqn:A; [|discriminate].
    assert (Ht1: t <> [] \/ (forall n, it <> IParent n)). { destruct Ht as [Ht|Ht]; [left; auto|right]. intros n ->. discriminate. }
    assert (Ht2: t <> [] \/ parents_of its = []). { destruct Ht as [Ht|Ht]; [left; auto|right]. destruct it; [discriminate|exact Ht]. }
    pose proof (parse_pair_spec t lt p it Ht1 W1 Sy R1) as P. rewrite A in P.
    destruct (render_pair_nc p W1) as (N1 & N2).
    assert (T: exists r, strtok comma (render_pairs (p :: ps)) = Some (render_pair p, r) /\ r = render_pairs ps).
    { destruct ps as [|p2 ps].
      - exists []. cbn [render_pairs]. split; auto. apply (strtok_end comma []); auto.
      - eexists. cbn [render_pairs]. split; [apply (strtok_app comma []); auto|reflexivity]. }
    destruct T as (r & T & ->). pose proof (strtok_inv _ _ _ _ T) as (_ & _ & Len & _).
    destruct fuel as [|fuel]; [lia|]. cbn [parse_pairs]. rewrite T, P. apply IH; auto.
    + rewrite (apply_item_len _ _ _ _ A). exact R2.
    + lia.
Qed.

Variable numhost : list Z -> option (list Z).
Variable strtoul : list Z -> option Z.
Hypothesis strtonum_u64 : forall s v, strtonum s = Some v -> 0 <= v < 2^64.
Hypothesis numhost_len : forall s a, numhost s = Some a -> octets a /\ (length a = 4 \/ length a = 16)%nat.
(** ** what any accepted line gives *)
Definition lt_ok (t : tree) (lt : ltemp) : Prop :=
  NoDup (map fst (lt_lims lt)) /\ Forall (fun e => 0 <= snd e < 2^64) (lt_lims lt) /\ match lt_parent lt with Some p => (p < length t)%nat | None => True end.
Lemma lim_value_u64 : forall lim s v, lim_value strtonum lim s = Some v -> 0 <= v < 2^64.
Proof.
  intros lim s v E. unfold lim_value in E. destruct (lim_type lim).
  - eapply strtonum_u64; eauto.
  - destruct (same_word s w_on); [injection E as <-; lia|]. destruct (same_word s w_off); [injection E as <-; lia|discriminate].
  - destruct (same_word s w_on); [injection E as <-; lia|]. destruct (same_word s w_off); [injection E as <-; lia|discriminate].
Qed.
Lemma nodup_snoc : forall (A : Type) (l : list A) x, NoDup l -> ~ In x l -> NoDup (l ++ [x]).
Proof. intros A l x N I. apply NoDup_Add with (a := x) (l := l); auto. rewrite <- (app_nil_r l) at 1. apply Add_app. Qed.
Lemma parse_pair_ok : forall t lt s lt', lt_ok t lt -> parse_pair strtonum t lt s = POk lt' -> lt_ok t lt'.
Proof.
  intros t lt s lt' (K1 & K2 & K3) E. unfold parse_pair in E. destruct (5 <=? _); [discriminate|]. destruct (split_pair s) as [| |[name val]]; try discriminate.
  destruct (same_word name w_parent).
  - destruct t as [|n t]; [discriminate|]. destruct (lt_parent lt); [discriminate|]. destruct (find_class val (n :: t)) as [i|] eqn:F; [|discriminate]. injection E as <-.
    split; [exact K1|]. split; [exact K2|]. cbn [lt_parent]. destruct (find_class_some _ _ _ F) as (m & A & _). apply nth_error_Some. congruence.
  - destruct (lim_of_name name) as [lim|]; [|discriminate]. destruct (find_lim lim (lt_lims lt)) eqn:F; [discriminate|].
    destruct (lim_value strtonum lim val) as [v|] eqn:V; [|discriminate]. injection E as <-. split; [|split].
    + cbn [lt_lims]. rewrite map_app. apply nodup_snoc; auto. apply find_lim_none. exact F.
    + cbn [lt_lims]. apply Forall_app. split; auto. constructor; auto. cbn [snd]. eapply lim_value_u64; eauto.
    + exact K3.
Qed.
Lemma parse_pairs_ok : forall fuel t lt s lt', lt_ok t lt -> parse_pairs strtonum fuel t lt s = POk lt' -> lt_ok t lt'.
Proof.
  induction fuel as [|fuel IH]; intros t lt s lt' K E; cbn [parse_pairs] in E; destruct (strtok comma s) as [[p r]|]; try discriminate; try (injection E as <-; exact K).
  destruct (parse_pair strtonum t lt p) as [| |lt1] eqn:P; try discriminate. eapply IH; [|exact E]. eapply parse_pair_ok; eauto.
Qed.

Definition fresh (t : tree) : Prop := forall n, In n t -> nd_used n = repeat 0 (length (nd_lims n)).
Definition names_ok (t : tree) : Prop := NoDup (map nd_name t) /\ Forall (fun n => nd_name n <> [] /\ (length (nd_name n) <= 80)%nat) t.
Definition rooted (t : tree) : Prop := forall i n, nth_error t i = Some n -> (nd_parent n = None <-> i = 0%nat).
Definition conf_ok (t : tree) : Prop := tree_ok t /\ fresh t /\ names_ok t /\ rooted t.

Lemma find_class_from_none : forall t i name, find_class_from i name t = None -> ~ In name (map nd_name t).
Proof.
  induction t as [|n t IH]; intros i name E I; cbn [find_class_from map In] in *; [auto|]. destruct (eqb_octets (nd_name n) name) eqn:Q; [discriminate|].
  destruct I as [I|I]; [|eapply IH; eauto]. subst name. rewrite eqb_octets_refl in Q. discriminate.
Qed.

Lemma conf_snoc : forall t n, conf_ok t -> ~ In (nd_name n) (map nd_name t) -> nd_name n <> [] -> (length (nd_name n) <= 80)%nat ->
  nd_used n = repeat 0 (length (nd_lims n)) -> NoDup (map fst (nd_lims n)) -> Forall (fun e => 0 <= snd e < 2^64) (nd_lims n) ->
  match nd_parent n with None => t = [] | Some p => exists pn, nth_error t p = Some pn /\ incl (map fst (nd_lims pn)) (map fst (nd_lims n)) end -> conf_ok (t ++ [n]).
Proof.
  intros t n (T1 & T2 & (T3 & T4) & T5) H1 H2 H3 H4 H5 H6 H7.
  assert (P: forall p pn, nth_error t p = Some pn -> nth_error (t ++ [n]) p = Some pn) by (intros p pn E; rewrite nth_error_app1; auto; apply nth_error_Some; congruence).
  assert (Cs: forall i m, nth_error (t ++ [n]) i = Some m -> nth_error t i = Some m \/ (i = length t /\ m = n)).
  { intros i m E. destruct (Nat.lt_ge_cases i (length t)) as [L|L]; [left; rewrite nth_error_app1 in E; auto|right].
    rewrite nth_error_app2 in E by auto. destruct (i - length t)%nat as [|k] eqn:Q; cbn [nth_error] in E; [injection E as <-; split; [lia|auto]|destruct k; discriminate]. }
  split; [|split; [|split]].
  - intros i m E. destruct (Cs i m E) as [E'|(-> & ->)].
    + destruct (T1 i m E') as (A & B & C & D & F). split; auto. split; auto. split; auto. split; auto. destruct (nd_parent m) as [p|]; auto.
      destruct F as (F1 & pn & F2 & F3). split; auto. exists pn. split; auto.
    + split; [rewrite H4; apply repeat_length|]. split; auto. split; auto. split.
      * rewrite H4. apply Forall_forall. intros x I. apply repeat_spec in I. subst. lia.
      * destruct (nd_parent n) as [p|]; auto. destruct H7 as (pn & F2 & F3). split; [apply nth_error_Some; congruence|]. exists pn. split; auto.
  - intros m I. apply in_app_or in I as [I|[<-|[]]]; auto.
  - split.
    + rewrite map_app. apply nodup_snoc; auto.
    + apply Forall_app. split; auto.
  - intros i m E. destruct (Cs i m E) as [E'|(-> & ->)]; [apply T5; auto|]. destruct (nd_parent n) as [p|].
    + destruct H7 as (pn & F2 & _). split; [discriminate|]. intros Q. destruct t; [destruct p; discriminate|discriminate].
    + subst t. split; auto.
Qed.

Lemma parse_limit_line_ok : forall t line t', conf_ok t -> parse_limit_line strtonum t line = POk t' -> conf_ok t' /\ exists n, t' = t ++ [n].
Proof.
  intros t line t' K E. unfold parse_limit_line in E. destruct (strtok wspace line) as [[cname r]|] eqn:T1; [|discriminate].
  destruct (Z.ltb_spec 80 (Z.of_nat (length cname))) as [|L]; [discriminate|]. destruct (find_class cname t) eqn:F; [discriminate|].
  destruct (strtok wspace r) as [[w r2]|]; [|discriminate]. destruct (negb (same_word w w_with)); [discriminate|].
  destruct (parse_pairs strtonum (length r2) t {| lt_parent := None; lt_lims := [] |} r2) as [| |lt] eqn:P; try discriminate.
  assert (Lt: lt_ok t lt). { eapply parse_pairs_ok; [|exact P]. split; [constructor|]. split; [constructor|exact I]. }
  destruct Lt as (L1 & L2 & L3). pose proof (strtok_inv _ _ _ _ T1) as (Nn & _).
  apply find_class_from_none in F.
  destruct (lt_parent lt) as [p|] eqn:Pp.
  - destruct (nth_error t p) as [pn|] eqn:Q; [|discriminate]. injection E as <-. split; [|eauto].
    assert (Kp := K). destruct Kp as (T & _). destruct (T p pn Q) as (_ & Np & Fp & _).
    destruct (inherit_spec (nd_lims pn) (lt_lims lt) Np L1) as (I1 & _ & I3 & I4).
    apply conf_snoc; cbn [nd_name nd_lims nd_used nd_parent]; auto; [lia|]. exists pn. auto.
  - destruct t as [|n0 t]; [|discriminate]. injection E as <-. split; [|eexists; reflexivity].
    apply (conf_snoc []); cbn [nd_name nd_lims nd_used nd_parent]; auto; try lia.
Qed.

(** ** assign lines *)
Lemma rest_zero_spec : forall l, rest_zero l = true -> l = zeros (length l).
Proof. induction l as [|b l IH]; intros E; cbn [rest_zero] in E; auto. apply andb_prop in E as (E1 & E2). cbn [length zeros repeat]. f_equal; [lia|]. apply IH. exact E2. Qed.
Lemma be_dec_zeros : forall n, be_dec (zeros n) = 0.
Proof. induction n; cbn [zeros repeat]; [reflexivity|]. rewrite be_dec_cons. unfold zeros in IHn. rewrite IHn. lia. Qed.
Lemma low_bits_zero : forall x k, 0 <= k -> Z.land x (Z.lnot (Z.shiftl 255 k)) = 0 -> x mod 2^k = 0.
Proof.
  intros x k Hk E. apply Z.bits_inj'. intros i Hi. rewrite Z.bits_0. destruct (Z.lt_ge_cases i k) as [L|L]; [|apply Z.mod_pow2_bits_high; lia].
  rewrite Z.mod_pow2_bits_low by lia. assert (B: Z.testbit (Z.land x (Z.lnot (Z.shiftl 255 k))) i = false) by (rewrite E; apply Z.bits_0).
  rewrite Z.land_spec, Z.lnot_spec, Z.shiftl_spec, (Z.testbit_neg_r 255) in B by lia. cbn [negb] in B. rewrite andb_true_r in B. exact B.
Qed.
Lemma skipn_nth : forall (a : list Z) b, (b < length a)%nat -> skipn b a = byte b a :: skipn (S b) a.
Proof. induction a as [|x a IH]; intros b Hb; cbn [length] in Hb; [lia|]. destruct b as [|b]; [reflexivity|]. exact (IH b ltac:(lia)). Qed.
Lemma net_ok_spec : forall n a, octets a -> (length a = 4 \/ length a = 16)%nat -> 1 <= n <= 8 * Z.of_nat (length a) ->
  net_ok n (Z.of_nat (length a)) (a ++ zeros (16 - length a)) = true -> net_key_ok n (Z.of_nat (length a)) (a ++ zeros (16 - length a)).
Proof.
  intros n a O Hs Hn E. set (s := length a) in *. exists s. split; auto. split; auto. split; auto.
  split; [apply Forall_app; split; [exact O|apply zeros_octets]|]. split; [rewrite app_length, zeros_length; unfold s in *; lia|].
  assert (Fs: firstn s (a ++ zeros (16 - s)) = a) by (rewrite firstn_app; unfold s; rewrite Nat.sub_diag, firstn_all; cbn [firstn]; apply app_nil_r).
  split; [rewrite skipn_app; unfold s; rewrite Nat.sub_diag, skipn_all; reflexivity|]. rewrite Fs.
  unfold net_ok in E. apply andb_prop in E as (E1 & E2). set (b := Z.to_nat (n / 8)) in *.
  destruct (Z.ltb_spec (n / 8) (Z.of_nat s)) as [Lb|Lb].
  - assert (Hb: (b < s)%nat) by (unfold b; lia). rewrite Nat2Z.id in E2.
    assert (Er: firstn (s - S b) (skipn (S b) (a ++ zeros (16 - s))) = skipn (S b) a).
    { rewrite skipn_app, firstn_app. rewrite firstn_all2 by (rewrite skipn_length; unfold s; lia). rewrite skipn_length. replace (s - S b - (length a - S b))%nat with 0%nat by (unfold s; lia). apply app_nil_r. }
    rewrite Er in E2. apply rest_zero_spec in E2. rewrite skipn_length in E2. fold s in E2.
    assert (Ex: byte b (a ++ zeros (16 - s)) = byte b a) by (unfold byte; apply app_nth1; exact Hb). rewrite Ex in E1. apply Z.eqb_eq in E1.
    assert (Ea: a = firstn b a ++ byte b a :: zeros (s - S b)).
    { rewrite <- E2. rewrite <- (firstn_skipn b a) at 1. f_equal. apply skipn_nth. exact Hb. }
    apply low_bits_zero in E1; [|lia].
    rewrite Ea, be_dec_app, be_dec_cons, be_dec_zeros. cbn [length]. rewrite zeros_length.
    set (k := Z.of_nat (s - S b)). replace (Z.of_nat (S (s - S b))) with (k + 1) by (unfold k; lia).
    assert (P1: 256 ^ k = 2 ^ (8 * k)) by (change 256 with (2^8); rewrite <- Z.pow_mul_r by (unfold k; lia); reflexivity).
    rewrite Z.pow_add_r by (unfold k; lia). rewrite P1. change (256 ^ 1) with 256.
    replace (8 * Z.of_nat s - n) with (8 * k + (8 - n mod 8)) by (assert (Zb: Z.of_nat b = n / 8) by (unfold b; lia); assert (Zk: k = Z.of_nat s - 1 - Z.of_nat b) by (unfold k; lia); rewrite Zk, Zb; clear; lia).
    rewrite Z.pow_add_r by (unfold k; lia).
    set (x := byte b a) in *. set (g := 2 ^ (8 * k)). assert (0 < g) by (apply Z.pow_pos_nonneg; unfold k; lia).
    assert (Ew: 256 = 2 ^ (n mod 8) * 2 ^ (8 - n mod 8)) by (rewrite <- Z.pow_add_r by lia; replace (n mod 8 + (8 - n mod 8)) with 8 by lia; reflexivity).
    set (h := 2 ^ (8 - n mod 8)) in *. assert (0 < h) by (apply Z.pow_pos_nonneg; lia).
    pose proof (Z.div_mod x h ltac:(lia)) as D. rewrite E1 in D.
    replace (be_dec (firstn b a) * (g * 256) + (x * g + 0)) with ((be_dec (firstn b a) * 2 ^ (n mod 8) + x / h) * (g * h)).
    + apply Z.mod_mul. nia.
    + rewrite Ew. clearbody g h x. rewrite D at 2. ring.
  - replace (8 * Z.of_nat s - n) with 0 by lia. apply Z.mod_1_r.
Qed.
Lemma parse_net_ok : forall x k, parse_net numhost strtoul x = Some k -> exists m sz a, k = PidNet m sz a /\ net_key_ok m sz a.
Proof.
  intros x k E. unfold parse_net in E. destruct (split_mask x) as [host mask].
  assert (G: forall n, match numhost host with Some a => 1 <= n <= 8 * Z.of_nat (length a) /\
     (let addr := a ++ zeros (16 - length a) in if net_ok n (Z.of_nat (length a)) addr then Some (PidNet n (Z.of_nat (length a)) addr) else None) = Some k | None => False end ->
     exists m sz a, k = PidNet m sz a /\ net_key_ok m sz a).
  { intros n H. destruct (numhost host) as [a|] eqn:N; [|contradiction]. destruct H as (H1 & H2). cbv zeta in H2. destruct (numhost_len _ _ N) as (O & L).
    destruct (net_ok n (Z.of_nat (length a)) (a ++ zeros (16 - length a))) eqn:Q; [|discriminate]. injection H2 as <-. do 3 eexists. split; [reflexivity|]. apply net_ok_spec; auto. }
  destruct mask as [[|m0 m]|].
  - discriminate.
  - destruct (numhost host) as [a|]; [|discriminate]. destruct (strtoul (m0 :: m)) as [n|]; [|discriminate].
    destruct ((n <? 1) || (Z.of_nat (length a) * 8 <? n))%bool eqn:B; [discriminate|]. apply (G n). split; [lia|exact E].
  - destruct (numhost host) as [a|] eqn:N; [|discriminate]. apply (G (Z.of_nat (length a) * 8)). destruct (numhost_len _ _ N) as (O & L). split; [lia|exact E].
Qed.

Definition assigns_ok (t : tree) (l : idents) : Prop := idents_ok l /\ Forall (fun e => (snd e < length t)%nat) l.
Lemma store_ok : forall t k v l, assigns_ok t l -> (v < length t)%nat -> (forall m sz a, k = PidNet m sz a -> net_key_ok m sz a) -> assigns_ok t (ident_store k v l).
Proof.
  intros t k v l ((N & Ok) & F) V K. unfold ident_store. split; [split|].
  - cbn [map fst]. constructor.
    + intros I. apply in_map_iff in I as ((k' & v') & E & I). cbn [fst] in E. subst k'. apply filter_In in I as (_ & I). cbn [fst] in I.
      assert (pid_eqb k k = true) by (apply pid_eqb_spec; reflexivity). rewrite H in I. discriminate.
    + clear -N. induction l as [|e l IH]; cbn [filter]; [constructor|]. cbn [map] in N. inversion N; subst. destruct (negb (pid_eqb k (fst e))); [|auto].
      cbn [map]. constructor; auto. intros I. apply H1. apply in_map_iff in I as (x & E & I). apply filter_In in I as (I & _). rewrite <- E. apply in_map. exact I.
  - intros m sz a c [I|I]; [injection I as -> ->; eapply K; reflexivity|]. apply filter_In in I as (I & _). eapply Ok; eauto.
  - constructor; auto. apply Forall_forall. intros x I. apply filter_In in I as (I & _). apply (proj1 (Forall_forall _ _) F). exact I.
Qed.
Lemma parse_assign_ok : forall known t l line l', assigns_ok t l -> parse_assign_line numhost strtoul known t l line = Some l' -> assigns_ok t l'.
Proof.
  intros known t l line l' K E. unfold parse_assign_line in E. destruct (strtok wspace line) as [[kind r]|]; [|discriminate].
  set (X := if same_word kind w_default then _ else _) in E.
  assert (HX: forall k r', X = Some (k, r') -> forall m sz a, k = PidNet m sz a -> net_key_ok m sz a).
  { intros k r' Q m sz a ->. unfold X in Q. destruct (same_word kind w_default); [destruct (ident_fetch PidDefault l); discriminate|].
    destruct (same_word kind w_net).
    - destruct (strtok wspace r) as [[a' r2]|]; [|discriminate]. destruct (parse_net numhost strtoul a') as [k|] eqn:P; [|discriminate].
      injection Q as -> _. destruct (parse_net_ok _ _ P) as (m' & sz' & a'' & E' & Kk). injection E' as -> -> ->. exact Kk.
    - destruct (same_word kind w_user); [|discriminate]. destruct (strtok wspace r) as [[u r2]|]; [|discriminate]. destruct (_ || _)%bool; discriminate. }
  clearbody X. destruct X as [[k r']|]; [|discriminate]. destruct (strtok wspace r') as [[c r2]|]; [|discriminate].
  destruct (find_class c t) as [i|] eqn:F; [|discriminate]. injection E as <-. apply store_ok; auto.
  - destruct (find_class_some _ _ _ F) as (n & A & _). apply nth_error_Some. congruence.
  - intros. eapply HX; eauto.
Qed.

Lemma parse_lines_ok : forall known lines t l t' l', conf_ok t -> assigns_ok t l -> parse_lines strtonum numhost strtoul known t l lines = POk (t', l') -> conf_ok t' /\ assigns_ok t' l'.
Proof.
  intros known. induction lines as [|x lines IH]; intros t l t' l' C A E; cbn [parse_lines] in E; [injection E as <- <-; auto|].
  destruct (parse_line strtonum numhost strtoul known t l x) as [| |[t1 l1]] eqn:P; try discriminate. eapply IH; [| |exact E]; unfold parse_line in P.
  - destruct (prefix_word w_limit x) as [r|].
    + destruct (parse_limit_line strtonum t r) as [| |t2] eqn:Q; try discriminate. injection P as <- <-. apply (parse_limit_line_ok _ _ _ C Q).
    + destruct (prefix_word w_assign x) as [r|]; [|discriminate]. destruct (parse_assign_line _ _ _ _ _ _); [|discriminate]. injection P as <- <-. exact C.
  - destruct (prefix_word w_limit x) as [r|].
    + destruct (parse_limit_line strtonum t r) as [| |t2] eqn:Q; try discriminate. injection P as <- <-. destruct (parse_limit_line_ok _ _ _ C Q) as (_ & n & ->).
      destruct A as (A1 & A2). split; auto. eapply Forall_impl; [|exact A2]. intros e H. cbn beta in *. rewrite app_length. lia.
    + destruct (prefix_word w_assign x) as [r|]; [|discriminate]. destruct (parse_assign_line _ _ _ _ _ _) as [l2|] eqn:Q; [|discriminate]. injection P as <- <-. eapply parse_assign_ok; eauto.
Qed.

Lemma parse_conf_ok : forall known lines t l, parse_conf strtonum numhost strtoul known lines = POk (t, l) -> conf_ok t /\ assigns_ok t l /\ t <> [].
Proof.
  intros known lines t l E. unfold parse_conf in E.
  assert (C0: conf_ok []). { split; [intros [|i] n Q; discriminate|]. split; [intros n []|]. split; [split; constructor|]. intros [|i] n Q; discriminate. }
  assert (A0: assigns_ok [] []). { split; [split; [constructor|intros m sz a c []]|constructor]. }
  destruct (parse_lines strtonum numhost strtoul known [] [] lines) as [| |[t1 l1]] eqn:P; try discriminate.
  destruct (parse_lines_ok known lines _ _ _ _ C0 A0 P) as (C1 & A1). destruct t1 as [|n t1].
  - destruct (parse_limit_line strtonum [] _) as [| |t2] eqn:Q; try discriminate. injection E as <- <-. destruct (parse_limit_line_ok _ _ _ C0 Q) as (C2 & n & ->). split; auto. split; [|destruct n; discriminate].
    destruct A1 as (A1 & A2). split; auto. eapply Forall_impl; [|exact A2]. intros e H. cbn [length] in *. lia.
  - injection E as <- <-. split; auto. split; auto. discriminate.
Qed.
End ORACLES.
