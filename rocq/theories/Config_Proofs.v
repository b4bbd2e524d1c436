From Coq Require Import ZArith List Bool Lia ZifyBool ZifyNat.
From Verif Require Import Base BaseLemmas Port_Model Options_Model Options_Proofs Config_Model Config_Spec.
Import ListNotations.
Open Scope Z_scope.

Lemma eqb_octets_refl : forall a, eqb_octets a a = true.
Proof. induction a as [|x a IH]; [reflexivity|]. cbn. rewrite Z.eqb_refl. exact IH. Qed.
Lemma octets_spec : forall a b, reflect (a = b) (eqb_octets a b).
Proof.
  intros a b. destruct (eqb_octets a b) eqn:E; constructor; [apply eqb_octets_ok; exact E|]. intros ->. rewrite eqb_octets_refl in E. discriminate.
Qed.

(** ** the hash table *)
Section Map.
Context {V : Type}.
Implicit Types t : list (list Z * V).

Lemma lookup_in : forall t k v, lookup t k = Some v -> In (k, v) t.
Proof.
  induction t as [|[k' v'] t IH]; intros k v E; cbn in E; [discriminate|]. destruct (octets_spec k k') as [->|N]; [injection E as ->; left; reflexivity|right; auto].
Qed.

Lemma lookup_none : forall t k, ~ In k (map fst t) -> lookup t k = None.
Proof.
  induction t as [|[k' v'] t IH]; intros k N; [reflexivity|]. cbn. destruct (octets_spec k k') as [->|X]; [destruct N; left; reflexivity|]. apply IH. intros I. apply N. right. exact I.
Qed.

Lemma lookup_remove : forall t k k', NoDup (map fst t) -> lookup (remove t k) k' = if eqb_octets k k' then None else lookup t k'.
Proof.
  induction t as [|[a v] t IH]; intros k k' N; cbn [remove lookup map fst] in *; [destruct (eqb_octets k k'); reflexivity|].
  inversion N as [|x y N1 N2]; subst. destruct (octets_spec k a) as [->|X].
  - destruct (octets_spec a k') as [<-|Y].
    + apply lookup_none. exact N1.
    + destruct (octets_spec k' a) as [->|Z0]; [congruence|reflexivity].
  - cbn [lookup]. destruct (octets_spec k' a) as [->|Y].
    + destruct (octets_spec k a) as [->|Z0]; [congruence|reflexivity].
    + apply IH. exact N2.
Qed.

Lemma remove_in : forall t k p, In p (remove t k) -> In p t.
Proof.
  induction t as [|[a v] t IH]; intros k p I; cbn [remove] in I; [exact I|]. destruct (eqb_octets k a); [right; exact I|]. destruct I as [I|I]; [left; exact I|right; eauto].
Qed.

Lemma remove_nodup : forall {W} (f : list Z * V -> W) t k, NoDup (map f t) -> NoDup (map f (remove t k)).
Proof.
  intros W f. induction t as [|[a v] t IH]; intros k N; cbn [remove map] in *; [constructor|]. inversion N as [|x y N1 N2]; subst.
  destruct (eqb_octets k a); [exact N2|]. cbn [map]. constructor; [|apply IH; exact N2]. intros I. apply N1.
  apply in_map_iff in I. destruct I as (p & E & I). apply in_map_iff. exists p. split; [exact E|]. eapply remove_in. exact I.
Qed.

Lemma remove_gone : forall t k, NoDup (map fst t) -> ~ In k (map fst (remove t k)).
Proof.
  induction t as [|[a v] t IH]; intros k N; cbn [remove map fst] in *; [auto|]. inversion N as [|x y N1 N2]; subst.
  destruct (octets_spec k a) as [->|X]; [exact N1|]. cbn [map fst]. intros [I|I]; [congruence|]. exact (IH k N2 I).
Qed.

Lemma remove_value_gone : forall t k v, NoDup (map snd t) -> lookup t k = Some v -> ~ In v (map snd (remove t k)).
Proof.
  induction t as [|[a w] t IH]; intros k v N E; cbn [remove lookup map snd] in *; [discriminate|]. inversion N as [|x y N1 N2]; subst.
  destruct (octets_spec k a) as [->|X]; [injection E as ->; exact N1|]. cbn [map snd]. intros [I|I]; [|exact (IH k v N2 E I)].
  subst w. apply N1. apply lookup_in in E. apply in_map_iff. exists (k, v). auto.
Qed.
End Map.

(** ** the heap *)
Lemma value_release : forall h i j, value_of (release h i) j = if Nat.eqb i j then None else value_of h j.
Proof.
  induction h as [|[a v] h IH]; intros i j; unfold release in *; cbn [filter fst value_of]; [destruct (Nat.eqb i j); reflexivity|].
  destruct (Nat.eqb_spec a i) as [->|X]; cbn [negb].
  - rewrite IH. destruct (Nat.eqb_spec i j) as [->|Y]; [reflexivity|]. destruct (Nat.eqb_spec j i); [congruence|reflexivity].
  - cbn [value_of]. rewrite IH. destruct (Nat.eqb_spec j a) as [->|Y]; [|reflexivity]. destruct (Nat.eqb_spec i a); [congruence|reflexivity].
Qed.

Lemma release_ids : forall h i, map fst (release h i) = filter (fun j => negb (Nat.eqb j i)) (map fst h).
Proof. induction h as [|[a v] h IH]; intros i; [reflexivity|]. unfold release in *. cbn [filter map fst]. destruct (negb (Nat.eqb a i)); cbn [map fst]; rewrite IH; reflexivity. Qed.

(** ** the invariant *)
Record ok (s : store) : Prop := {
  ok_keys : NoDup (map fst (tab s));
  ok_ids : NoDup (map snd (tab s));
  ok_live : forall i, In i (map snd (tab s)) -> exists v, value_of (heap s) i = Some v;
  ok_fresh : forall i, In i (map fst (heap s)) -> (i < fresh s)%nat
}.

Lemma value_in : forall h i v, value_of h i = Some v -> In i (map fst h).
Proof. induction h as [|[a w] h IH]; intros i v E; cbn in *; [discriminate|]. destruct (Nat.eqb_spec i a); [left; congruence|right; eauto]. Qed.

Lemma tab_fresh : forall s, ok s -> forall i, In i (map snd (tab s)) -> (i < fresh s)%nat.
Proof. intros s K i I. destruct (ok_live s K i I) as (v & E). apply (ok_fresh s K). eapply value_in. exact E. Qed.

(** the value of a key *)
Definition content (s : store) (k : list Z) : option Z := match lookup (tab s) k with Some i => value_of (heap s) i | None => None end.

Lemma get_content : forall s key, ok s -> get_u s key = Some (content s (short key)).
Proof.
  intros s key K. unfold get_u, content. destruct (lookup (tab s) (short key)) as [i|] eqn:L; [|reflexivity].
  apply lookup_in in L. destruct (ok_live s K i) as (v & E); [apply in_map_iff; exists (short key, i); auto|]. rewrite E. reflexivity.
Qed.

Lemma ok_empty : ok empty.
Proof. constructor; cbn; try constructor; intros i []. Qed.

Lemma removed_ok : forall s k i, ok s -> lookup (tab s) k = Some i ->
  ok (Store (remove (tab s) k) (release (heap s) i) (fresh s)) /\
  forall k', content (Store (remove (tab s) k) (release (heap s) i) (fresh s)) k' = if eqb_octets k k' then None else content s k'.
Proof.
  intros s k i K L. split.
  - constructor; cbn [tab heap fresh].
    + apply remove_nodup. apply (ok_keys s K).
    + apply remove_nodup. apply (ok_ids s K).
    + intros j J. assert (N : j <> i) by (intros ->; exact (remove_value_gone _ _ _ (ok_ids s K) L J)).
      assert (J2 : In j (map snd (tab s))).
      { apply in_map_iff in J. destruct J as (p & E & J). apply in_map_iff. exists p. split; [exact E|]. eapply remove_in. exact J. }
      destruct (ok_live s K j J2) as (v & E). exists v. rewrite value_release. destruct (Nat.eqb_spec i j); [congruence|exact E].
    + intros j J. rewrite release_ids in J. apply filter_In in J. apply (ok_fresh s K). tauto.
  - intros k'. unfold content. cbn [tab heap]. rewrite lookup_remove by apply (ok_keys s K).
    destruct (octets_spec k k') as [->|X]; [reflexivity|]. destruct (lookup (tab s) k') as [j|] eqn:L'; [|reflexivity].
    rewrite value_release. destruct (Nat.eqb_spec i j) as [->|]; [|reflexivity]. exfalso. apply X.
    pose proof (ok_ids s K) as N. apply lookup_in in L. apply lookup_in in L'. clear -N L L'.
    induction (tab s) as [|[a w] t IH]; [destruct L|]. cbn [map snd] in N. inversion N as [|x y N1 N2]; subst.
    destruct L as [L|L]; destruct L' as [L'|L'].
    + congruence.
    + exfalso. apply N1. injection L as <- <-. apply in_map_iff. exists (k', w). auto.
    + exfalso. apply N1. injection L' as <- <-. apply in_map_iff. exists (k, w). auto.
    + apply IH; assumption.
Qed.

Lemma deleted_ok : forall s key, ok s -> ok (fst (delete s key)) /\
  (forall k', content (fst (delete s key)) k' = if eqb_octets (short key) k' then None else content s k') /\
  snd (delete s key) = match content s (short key) with Some _ => true | None => false end.
Proof.
  intros s key K. unfold delete. destruct (lookup (tab s) (short key)) as [i|] eqn:L; cbn [fst snd].
  - destruct (removed_ok s _ i K L) as ([A B C D] & E). cbn [tab heap fresh] in *.
    assert (SAME : forall j, In j (map snd (remove (tab s) (short key))) -> value_of (release (heap s) i) j = value_of (heap s) j).
    { intros j J. rewrite value_release. destruct (Nat.eqb_spec i j) as [<-|]; [|reflexivity]. exfalso. exact (remove_value_gone _ _ _ (ok_ids s K) L J). }
    split; [|split].
    + constructor; cbn [tab heap fresh]; [exact A|exact B| |exact (ok_fresh s K)]. intros j J. rewrite <- SAME by exact J. apply C. exact J.
    + intros k'. rewrite <- E. unfold content. cbn [tab heap]. destruct (lookup (remove (tab s) (short key)) k') as [j|] eqn:L'; [|reflexivity].
      symmetry. apply SAME. apply lookup_in in L'. apply in_map_iff. exists (k', j). auto.
    + unfold content. rewrite L. destruct (ok_live s K i) as (v & X); [apply lookup_in in L; apply in_map_iff; exists (short key, i); auto|]. rewrite X. reflexivity.
  - split; [exact K|]. split; [|unfold content; rewrite L; reflexivity].
    intros k'. destruct (octets_spec (short key) k') as [<-|]; [|reflexivity]. unfold content. rewrite L. reflexivity.
Qed.

Lemma set_ok : forall s key v a b, ok s -> ok (fst (set_u s key v a b)) /\ snd (set_u s key v a b) = a && b /\
  forall k', content (fst (set_u s key v a b)) k' =
    if negb a then content s k' else if eqb_octets (short key) k' then (if b then Some v else None) else content s k'.
Proof.
  intros s key v a b K. unfold set_u. destruct a; cbn [negb andb fst snd]; [|auto].
  set (k := short key). clearbody k.
  (* with the old record out of the way *)
  assert (R : exists t h, (match lookup (tab s) k with Some trec => (remove (tab s) k, release ((fresh s, v) :: heap s) trec) | None => (tab s, (fresh s, v) :: heap s) end)
      = (t, (fresh s, v) :: h) /\ ok (Store t h (fresh s)) /\ ~ In k (map fst t) /\
      forall k', content (Store t h (fresh s)) k' = if eqb_octets k k' then None else content s k').
  { destruct (lookup (tab s) k) as [i|] eqn:L.
    - exists (remove (tab s) k), (release (heap s) i). destruct (removed_ok s k i K L) as (A & B). split; [|split; [exact A|split; [apply remove_gone; apply (ok_keys s K)|exact B]]].
      f_equal. unfold release. cbn [filter fst]. assert (F : (i < fresh s)%nat) by (apply (tab_fresh s K); apply lookup_in in L; apply in_map_iff; exists (k, i); auto).
      destruct (Nat.eqb_spec (fresh s) i); [lia|reflexivity].
    - exists (tab s), (heap s). split; [reflexivity|]. split; [destruct s; exact K|]. split.
      + intros I. apply in_map_iff in I. destruct I as ((k0, i) & E & I). cbn in E. subst k0. clear -L I.
        induction (tab s) as [|[a w] t IH]; [destruct I|]. cbn [lookup] in L. destruct (octets_spec k a) as [->|X]; [discriminate|].
        destruct I as [I|I]; [congruence|]. apply IH; assumption.
      + intros k'. destruct (octets_spec k k') as [<-|]; [|destruct s; reflexivity]. unfold content. cbn [tab heap]. rewrite L. reflexivity. }
  destruct R as (t & h & -> & A & G & B).
  assert (T : forall i, In i (map snd t) -> (i < fresh s)%nat) by (exact (tab_fresh _ A)).
  assert (NF : forall i, In i (map snd t) -> value_of ((fresh s, v) :: h) i = value_of h i).
  { intros i I. cbn [value_of]. destruct (Nat.eqb_spec i (fresh s)) as [->|]; [apply T in I; lia|reflexivity]. }
  destruct b; cbn [fst snd].
  - split; [|split; [reflexivity|]].
    + constructor; cbn [tab heap fresh].
      * cbn [map fst]. constructor; [exact G|apply (ok_keys _ A)].
      * cbn [map snd]. constructor; [|apply (ok_ids _ A)]. intros I. apply T in I. lia.
      * cbn [map snd]. intros i [<-|I]; [exists v; cbn [value_of]; rewrite Nat.eqb_refl; reflexivity|]. rewrite NF by exact I. exact (ok_live _ A i I).
      * cbn [map fst]. intros i [<-|I]; [lia|]. pose proof (ok_fresh _ A i I) as X. cbn [fresh] in X. lia.
    + intros k'. unfold content at 1. cbn [tab heap lookup]. destruct (octets_spec k' k) as [->|X].
      * rewrite eqb_octets_refl. cbn [value_of]. rewrite Nat.eqb_refl. reflexivity.
      * destruct (octets_spec k k') as [->|Y]; [congruence|]. specialize (B k'). destruct (octets_spec k k') as [->|_]; [congruence|]. rewrite <- B.
        unfold content. cbn [tab heap]. destruct (lookup t k') as [i|] eqn:L; [|reflexivity]. apply NF. apply lookup_in in L. apply in_map_iff. exists (k', i). auto.
  - assert (H : release ((fresh s, v) :: h) (fresh s) = h).
    { unfold release. cbn [filter fst]. rewrite Nat.eqb_refl. cbn [negb].
      assert (X : forall i, In i (map fst h) -> i <> fresh s) by (intros i I; pose proof (ok_fresh _ A i I) as X; cbn [fresh] in X; lia).
      clear -X. induction h as [|[j w] h IH]; [reflexivity|]. cbn [filter fst]. destruct (Nat.eqb_spec j (fresh s)) as [->|]; [exfalso; apply (X (fresh s)); [left; reflexivity|reflexivity]|].
      cbn [negb]. f_equal. apply IH. intros i I. apply X. right. exact I. }
    rewrite H. split; [|split; [reflexivity|]].
    + destruct A as [A1 A2 A3 A4]. constructor; cbn [tab heap fresh] in *; [assumption|assumption|assumption|]. intros i I. specialize (A4 i I). lia.
    + intros k'. specialize (B k'). unfold content in *. cbn [tab heap] in *. rewrite B. destruct (eqb_octets k k'); reflexivity.
Qed.

(** what an operation does to the value of a key *)
Definition after_op (o : op) (c : option Z) : option Z :=
  match o with
  | SetPointer _ v a b => if negb a then c else if b then Some v else None
  | SetNumber _ n j a b => if negb a then c else if b then Some (j * 4294967296 + n) else None
  | Delete _ => None
  end.

Lemma apply_ok : forall s o, ok s -> ok (apply s o) /\ forall k, content (apply s o) k = if eqb_octets (short (key_of o)) k then after_op o (content s k) else content s k.
Proof.
  intros s [k v a b|k n j a b|k] K; cbn [apply key_of after_op].
  - destruct (set_ok s k v a b K) as (A & _ & B). split; [exact A|]. intros k'. unfold set_v. rewrite B. destruct (negb a), (eqb_octets (short k) k'); reflexivity.
  - destruct (set_ok s k (j * 4294967296 + n) a b K) as (A & _ & B). split; [exact A|]. intros k'. unfold set_u32. rewrite B. destruct (negb a), (eqb_octets (short k) k'); reflexivity.
  - destruct (deleted_ok s k K) as (A & B & _). split; [exact A|]. intros k'. rewrite B. reflexivity.
Qed.

Lemma run_ok : forall l s, ok s -> ok (run s l).
Proof. unfold run. induction l as [|o l IH]; intros s K; [exact K|]. cbn [fold_left]. apply IH. apply apply_ok. exact K. Qed.

(** the value of a key after a history, for keys that are not cut *)
Definition final (l : list op) (k : list Z) (c : option Z) : option Z := fold_left (fun c o => if eqb_octets (key_of o) k then after_op o c else c) l c.

Lemma short_same : forall k, (length k <= 64)%nat -> short k = k.
Proof. intros k L. unfold short. apply firstn_all2. exact L. Qed.

Lemma run_final : forall l s k, ok s -> (length k <= 64)%nat -> Forall (fun o => (length (key_of o) <= 64)%nat) l ->
  content (run s l) k = final l k (content s k).
Proof.
  unfold run, final. induction l as [|o l IH]; intros s k K L F; [reflexivity|]. inversion F as [|x y F1 F2]; subst. cbn [fold_left].
  destruct (apply_ok s o K) as (A & B). rewrite IH by assumption. rewrite B, short_same by exact F1. reflexivity.
Qed.

Lemma final_app : forall a b k c, final (a ++ b) k c = final b k (final a k c).
Proof. intros. unfold final. apply fold_left_app. Qed.

Lemma stores_after : forall o k v c, stores o k v -> after_op o c = Some v /\ key_of o = k.
Proof.
  intros [k' v' a b|k' n j a b|k'] k v c H; cbn in *; [|change (2 ^ 32) with 4294967296 in H|destruct H]; destruct H as (-> & -> & -> & ->); auto.
Qed.

Lemma quiet : forall after k, (forall o', In o' after -> key_of o' = k -> ~ is_delete o' /\ forall v', ~ stores o' k v') ->
  (forall o, In o after -> key_of o = k -> ~ full o) -> forall c, final after k c = c.
Proof.
  induction after as [|o after IH]; intros k A F c; [reflexivity|]. unfold final in *. cbn [fold_left].
  assert (E : (if eqb_octets (key_of o) k then after_op o c else c) = c).
  { destruct (octets_spec (key_of o) k) as [K|]; [|reflexivity]. destruct (A o (or_introl eq_refl) K) as (D & S). specialize (F o (or_introl eq_refl) K).
    destruct o as [k' v' a b|k' n j a b|k']; cbn in *; [destruct a, b; try reflexivity|destruct a, b; try reflexivity|destruct (D I)].
    - exfalso. apply (S v'). auto.
    - exfalso. apply F. auto.
    - exfalso. apply (S (j * 2 ^ 32 + n)). auto.
    - exfalso. apply F. auto. }
  rewrite E. apply IH; intros o' I; [apply A; right; exact I|apply F; right; exact I].
Qed.

Lemma final_holds : forall l k v, (forall o, In o l -> key_of o = k -> ~ full o) -> (final l k None = Some v <-> holds l k v).
Proof.
  intros l k v F. split.
  - revert v. induction l as [|o l IH] using rev_ind; intros v E; [discriminate|]. rewrite final_app in E. unfold final in E at 1. cbn [fold_left] in E.
    assert (FL : forall o, In o l -> key_of o = k -> ~ full o) by (intros o' I; apply F; apply in_or_app; left; exact I).
    assert (OLD : final l k None = Some v -> (key_of o = k -> ~ is_delete o /\ forall v', ~ stores o k v') -> holds (l ++ [o]) k v).
    { intros X Q. destruct (IH FL v X) as (b & o0 & a & -> & S & A). exists b, o0, (a ++ [o]). split; [rewrite <- app_assoc; reflexivity|]. split; [exact S|].
      intros o' I. apply in_app_or in I. destruct I as [I|[<-|[]]]; [apply A; exact I|exact Q]. }
    destruct (octets_spec (key_of o) k) as [K|K]; [|apply OLD; [exact E|congruence]].
    assert (NEW : stores o k v -> holds (l ++ [o]) k v) by (intros X; exists l, o, []; split; [reflexivity|split; [exact X|intros o' []]]).
    assert (FO : ~ full o) by (apply F; [apply in_or_app; right; left; reflexivity|exact K]).
    destruct o as [k' v' a b|k' n j a b|k']; cbn [after_op] in E.
    + destruct a; cbn [negb] in E; [|apply OLD; [exact E|intros _; split; [auto|cbn; intros ? (_ & _ & X & _); discriminate]]].
      destruct b; [|exfalso; apply FO; cbn; auto]. apply NEW. cbn in *. injection E as ->. auto.
    + destruct a; cbn [negb] in E; [|apply OLD; [exact E|intros _; split; [auto|cbn; intros ? (_ & _ & X & _); discriminate]]].
      destruct b; [|exfalso; apply FO; cbn; auto]. apply NEW. cbn [stores key_of] in *. change (2 ^ 32) with 4294967296. split; [congruence|]. split; [congruence|auto].
    + discriminate.
  - intros (b & o & a & -> & S & A). rewrite final_app. unfold final at 1. cbn [fold_left]. destruct (stores_after o k v (final b k None) S) as (E & K).
    rewrite K, eqb_octets_refl, E. apply quiet; [exact A|]. intros o' I. apply F. apply in_or_app. right. right. exact I.
Qed.

(** ** without deletions every record is in the table *)
Lemma apply_tight : forall s o, ok s -> ~ is_delete o -> (forall i, In i (map fst (heap s)) -> In i (map snd (tab s))) ->
  forall i, In i (map fst (heap (apply s o))) -> In i (map snd (tab (apply s o))).
Proof.
  assert (SET : forall s key v a b, ok s -> (forall i, In i (map fst (heap s)) -> In i (map snd (tab s))) ->
    forall i, In i (map fst (heap (fst (set_u s key v a b)))) -> In i (map snd (tab (fst (set_u s key v a b))))).
  { intros s key v a b K T i I. unfold set_u in *. destruct a; cbn [negb] in *; [|apply T; exact I].
    destruct (lookup (tab s) (short key)) as [t|] eqn:L.
    - assert (O : forall j, In j (map fst (heap s)) -> j <> t -> In j (map snd (remove (tab s) (short key)))).
      { intros j J X. apply T in J. clear -J X L. induction (tab s) as [|[k w] tb IH]; [destruct J|]. cbn [lookup remove] in *.
        destruct (octets_spec (short key) k) as [E|E].
        - injection L as ->. destruct J as [J|J]; [cbn in J; congruence|exact J].
        - cbn [map snd]. destruct J as [J|J]; [left; exact J|right; apply IH; assumption]. }
      destruct b; cbn [fst tab heap] in *; rewrite ?release_ids in *; cbn [map fst snd] in *.
      + apply filter_In in I. destruct I as ([<-|I] & N); [left; reflexivity|]. right. apply O; [exact I|]. intros ->. rewrite Nat.eqb_refl in N. discriminate.
      + apply filter_In in I. destruct I as (I & N1). apply filter_In in I. destruct I as ([<-|I] & N2); [rewrite Nat.eqb_refl in N1; discriminate|].
        apply O; [exact I|]. intros ->. rewrite Nat.eqb_refl in N2. discriminate.
    - destruct b; cbn [fst tab heap] in *; rewrite ?release_ids in *; cbn [map fst snd] in *.
      + destruct I as [<-|I]; [left; reflexivity|right; apply T; exact I].
      + apply filter_In in I. destruct I as ([<-|I] & N); [rewrite Nat.eqb_refl in N; discriminate|]. apply T. exact I. }
  intros s [k v a b|k n j a b|k] K D T; cbn [apply]; [apply SET; assumption|apply SET; assumption|destruct (D I)].
Qed.

Lemma run_tight : forall l s, ok s -> Forall (fun o => ~ is_delete o) l -> (forall i, In i (map fst (heap s)) -> In i (map snd (tab s))) ->
  forall i, In i (map fst (heap (run s l))) -> In i (map snd (tab (run s l))).
Proof.
  unfold run. induction l as [|o l IH]; intros s K F T; [exact T|]. inversion F as [|x y F1 F2]; subst. cbn [fold_left].
  apply IH; [apply apply_ok; exact K|exact F2|]. apply apply_tight; assumption.
Qed.

Lemma free_all : forall t h i, In i (map fst (fold_left (fun h p => release h (snd p)) t h)) <-> In i (map fst h) /\ ~ In i (map (@snd (list Z) nat) t).
Proof.
  induction t as [|[k j] t IH]; intros h i; cbn [fold_left map snd]; [cbn; tauto|]. rewrite IH, release_ids, filter_In. cbn [In].
  destruct (Nat.eqb_spec i j); cbn [negb]; intuition congruence.
Qed.

(** ** numbers *)
Lemma digits_numeral : forall s acc rest, Forall (fun c => 48 <= c <= 57) s -> match rest with c :: _ => 10 <= digit c | [] => True end ->
  digits 10 acc (s ++ rest) = (fold_left (fun a c => 10 * a + (c - 48)) s acc, rest).
Proof.
  induction s as [|c s IH]; intros acc rest F R; cbn [app digits fold_left].
  - destruct rest as [|c r]; [reflexivity|]. cbn [digits]. destruct (Z.ltb_spec (digit c) 10); [lia|reflexivity].
  - inversion F as [|x y F1 F2]; subst. assert (D : digit c = c - 48) by (unfold digit; destruct ((48 <=? c) && (c <=? 57)) eqn:E; [reflexivity|lia]).
    rewrite D. destruct (Z.ltb_spec (c - 48) 10); [|lia]. apply IH; assumption.
Qed.

Lemma value_nonneg : forall s, Forall (fun c => 48 <= c <= 57) s -> 0 <= value s.
Proof.
  intros s. unfold value. assert (X : forall acc, 0 <= acc -> Forall (fun c => 48 <= c <= 57) s -> 0 <= fold_left (fun a c => 10 * a + (c - 48)) s acc).
  { induction s as [|c s IH]; intros acc A F; [exact A|]. inversion F; subst. cbn [fold_left]. apply IH; [lia|assumption]. }
  apply X. lia.
Qed.

Lemma strtoul10_numeral : forall pre sign s rest, Forall (fun c => 9 <= c <= 13 \/ c = 32) pre -> In sign [[]; [43]; [45]] -> numeral s ->
  match rest with c :: _ => 10 <= digit c | [] => True end ->
  strtoul10 (pre ++ sign ++ s ++ rest) =
    if 18446744073709551615 <? value s then (18446744073709551615, rest, true)
    else (match sign with 45 :: _ => (- value s) mod 18446744073709551616 | _ => value s end, rest, false).
Proof.
  intros pre sign s rest P SG (NE & F) R. unfold strtoul10. rewrite skip_blank by exact P.
  destruct s as [|c s]; [congruence|].
  assert (C : 48 <= c <= 57) by (inversion F; assumption).
  assert (SK : skip_space (sign ++ (c :: s) ++ rest) = sign ++ (c :: s) ++ rest).
  { destruct SG as [<-|[<-|[<-|[]]]]; try reflexivity. cbn [app skip_space]. assert (X : is_space c = false) by (unfold is_space; lia). rewrite X. reflexivity. }
  rewrite SK. clear SK.
  assert (D : (digit c <? 10) = true) by (unfold digit; destruct ((48 <=? c) && (c <=? 57)) eqn:E; lia).
  assert (DG : digits 10 0 ((c :: s) ++ rest) = (value (c :: s), rest)) by (apply digits_numeral; assumption).
  assert (N : exists neg, (match sign ++ (c :: s) ++ rest with 45 :: r => (true, r) | 43 :: r => (false, r) | t => (false, t) end) = (neg, (c :: s) ++ rest) /\
     neg = match sign with 45 :: _ => true | _ => false end).
  { destruct SG as [<-|[<-|[<-|[]]]]; try (eexists; split; reflexivity). exists false. split; [|reflexivity]. cbn [app]. clear -C.
    destruct c as [|p|p]; try lia. do 6 (destruct p; try lia; try reflexivity). }
  destruct N as (neg & -> & ->). change ((c :: s) ++ rest) with (c :: (s ++ rest)) in *. cbv iota. rewrite D, DG.
  destruct (18446744073709551615 <? value (c :: s)); [reflexivity|]. destruct SG as [<-|[<-|[<-|[]]]]; reflexivity.
Qed.

Lemma conf_numeral : forall pre sign s rest, Forall (fun c => 9 <= c <= 13 \/ c = 32) pre -> In sign [[]; [43]; [45]] -> numeral s ->
  match rest with c :: _ => 10 <= digit c | [] => True end ->
  conf_number (pre ++ sign ++ s ++ rest) =
    if 18446744073709551615 <? value s then None else Some (u32 (match sign with 45 :: _ => - value s | _ => value s end)).
Proof.
  intros pre sign s rest P SG N R. unfold conf_number. rewrite strtoul10_numeral by assumption.
  assert (L : Nat.eqb (length rest) (length (pre ++ sign ++ s ++ rest)) = false).
  { apply Nat.eqb_neq. rewrite !app_length. destruct N as (N & _). destruct s; [congruence|]. cbn [length]. lia. }
  destruct (18446744073709551615 <? value s) eqn:E.
  - rewrite orb_true_r. reflexivity.
  - rewrite L. cbn [orb]. f_equal. destruct SG as [<-|[<-|[<-|[]]]]; try reflexivity. unfold u32.
    change 18446744073709551616 with (4294967296 * 4294967296). rewrite Z.rem_mul_r by lia. rewrite Z.mul_comm, Z_mod_plus_full, Z.mod_mod by lia. reflexivity.
Qed.
