(** Reflective reasoning about chains of buffer writes [put o1 b1 (put o2 b2 ... buf)]: the offsets
    are compared by computation on the list of (offset, length) pairs. *)
From Coq Require Import ZArith List Bool Lia ZifyBool ZifyNat Arith.
From Verif Require Import Base BaseLemmas.
Import ListNotations.
Local Open Scope nat_scope.

(** writes in program order: the head of the list is executed first *)
Definition writes (ws : list (nat * list Z)) (buf : list Z) : list Z :=
  fold_left (fun b w => put (fst w) (snd w) b) ws buf.

Definition shape (ws : list (nat * list Z)) : list (nat * nat) :=
  map (fun w => (fst w, length (snd w))) ws.

Definition in_range (n : nat) (sh : list (nat * nat)) : bool :=
  forallb (fun w => fst w + snd w <=? n) sh.

Definition disjoint (o l : nat) (w : nat * nat) : bool :=
  (o + l <=? fst w) || (fst w + snd w <=? o).

(** [hit n sh i o l]: the i-th write is (o,l), all writes fit in n octets, later ones do not
    overlap it *)
Definition hit (n : nat) (sh : list (nat * nat)) (i o l : nat) : bool :=
  in_range n sh &&
  match skipn i sh with
  | (o', l') :: later => (o =? o') && (l =? l') && forallb (disjoint o l) later
  | [] => false
  end.

Definition miss (n : nat) (sh : list (nat * nat)) (o l : nat) : bool :=
  in_range n sh && forallb (disjoint o l) sh.

Lemma writes_length : forall ws buf n, in_range n (shape ws) = true -> (n <= length buf)%nat ->
  length (writes ws buf) = length buf.
Proof.
  induction ws as [|[o b] ws IH]; intros buf n H Hn; cbn in *; auto.
  apply andb_prop in H as [H1 H2]. apply Nat.leb_le in H1.
  change (length (writes ws (put o b buf)) = length buf).
  rewrite (IH _ n); auto; rewrite put_length; lia.
Qed.

Lemma writes_octets : forall ws buf, Forall (fun w => octets (snd w)) ws -> octets buf ->
  octets (writes ws buf).
Proof.
  induction ws as [|[o b] ws IH]; intros buf H Hb; cbn; auto.
  inversion H; subst. apply IH; auto. now apply put_octets.
Qed.

Lemma writes_miss : forall n ws buf o l, miss n (shape ws) o l = true -> (n <= length buf)%nat ->
  sub o l (writes ws buf) = sub o l buf.
Proof.
  intros n. induction ws as [|[o' b] ws IH]; intros buf o l H Hn; [reflexivity|].
  change (sub o l (writes ws (put o' b buf)) = sub o l buf).
  unfold miss in H. cbn in H. apply andb_prop in H as [H1 H2].
  apply andb_prop in H1 as [H1 H3]. apply andb_prop in H2 as [H2 H4].
  apply Nat.leb_le in H1. cbn in *.
  assert (E: sub o l (writes ws (put o' b buf)) = sub o l (put o' b buf)).
  { apply IH. - unfold miss. apply andb_true_intro. split; assumption. - rewrite put_length; lia. }
  rewrite E.
  apply sub_put_disjoint; [|lia].
  unfold disjoint in H2. cbn in H2. lia.
Qed.

Lemma writes_hit : forall n ws buf i o l, hit n (shape ws) i o l = true -> (n <= length buf)%nat ->
  sub o l (writes ws buf) = snd (nth i ws (0, @nil Z)).
Proof.
  intros n. induction ws as [|[o' b] ws IH]; intros buf i o l H Hn; unfold hit in H; cbn in H.
  - destruct i; discriminate.
  - apply andb_prop in H as [H1 H2]. apply andb_prop in H1 as [H1 H3]. apply Nat.leb_le in H1.
    assert (Hp: length (put o' b buf) = length buf) by (apply put_length; lia).
    destruct i; cbn [nth skipn] in *.
    + cbn in H2. apply andb_prop in H2 as [H2 H4]. apply andb_prop in H2 as [H2 H5].
      apply Nat.eqb_eq in H2, H5. subst o l. cbn [snd].
      transitivity (sub o' (length b) (put o' b buf)).
      * change (sub o' (length b) (writes ws (put o' b buf)) = sub o' (length b) (put o' b buf)).
        apply (writes_miss n); [unfold miss; apply andb_true_intro; split; assumption|lia].
      * apply sub_put_same; lia.
    + change (sub o l (writes ws (put o' b buf)) = snd (nth i ws (0, @nil Z))).
      apply IH; [|lia]. unfold hit. apply andb_true_intro. split; assumption.
Qed.

(** find the write index of an exact (o,l) match, last one first *)
Fixpoint find_idx (sh : list (nat * nat)) (o l i : nat) : option nat :=
  match sh with
  | [] => None
  | (o', l') :: r =>
    match find_idx r o l (S i) with
    | Some k => Some k
    | None => if (o =? o') && (l =? l') then Some i else None
    end
  end.

Ltac reify_puts t acc :=
  lazymatch t with
  | put ?o ?b ?r => reify_puts r ((o, b) :: acc)
  | _ => constr:((acc, t))
  end.

(** Given [m = put .. (put .. buf)], produce [sh : shape ws = <literal>] with the literal given *)
Lemma hit_sub : forall n ws sh buf i o l,
  shape ws = sh -> hit n sh i o l = true -> (n <= length buf)%nat ->
  sub o l (writes ws buf) = snd (nth i ws (0, @nil Z)).
Proof. intros. subst sh. now apply (writes_hit n). Qed.

Lemma miss_sub : forall n ws sh buf o l,
  shape ws = sh -> miss n sh o l = true -> (n <= length buf)%nat ->
  sub o l (writes ws buf) = sub o l buf.
Proof. intros. subst sh. now apply (writes_miss n). Qed.

Lemma len_writes : forall n ws sh buf,
  shape ws = sh -> in_range n sh = true -> (n <= length buf)%nat ->
  length (writes ws buf) = length buf.
Proof. intros. subst sh. eapply writes_length; eauto. Qed.

(** rewrite every [sub o l (writes ws buf)] in the goal, where SH : shape ws = sh *)
Ltac wsub n SH :=
  repeat match goal with
  | |- context [sub ?o ?l (writes ?ws ?buf)] =>
    match type of SH with
    | shape ws = ?sh =>
      let k := eval vm_compute in (find_idx sh o l 0) in
      lazymatch k with
      | Some ?i => rewrite (hit_sub n ws sh buf i o l SH) by first [vm_compute; reflexivity | lia];
                   cbn [nth snd]
      | None => rewrite (miss_sub n ws sh buf o l SH) by first [vm_compute; reflexivity | lia]
      end
    end
  end.
