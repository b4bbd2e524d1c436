(** Properties of the histogram of delays. *)
From Coq Require Import ZArith List Bool Arith Lia Sorting.Sorted Sorting.Permutation.
From Verif Require Import Base Double Stats_Model Machine_Model Bucket_Model.
Import ListNotations.
Open Scope nat_scope.

(** * Specification *)

(** the delays recorded since the histogram was last emptied: bucket and kind of delay, those whose recording was successful *)
Fixpoint since (ops : list op) (res : list bool) (acc : list (Z * nat)) : list (Z * nat) :=
  match ops, res with
  | Clean :: r, _ :: q => since r q []
  | Inc _ _ b t :: r, ok :: q => since r q (if ok then (b, t) :: acc else acc)
  | _, _ => acc
  end.

(** how many of the delays of kind [t] are in buckets that satisfy [p] *)
Definition number (p : Z -> bool) (t : nat) (l : list (Z * nat)) : Z :=
  Z.of_nat (length (filter (fun x => p (fst x) && (snd x =? t)) l)).

(** there are three kinds of delay (OWP_DELAY_TYPE_NUM, owamp.h 1567-1573) *)
Definition legal (o : op) : Prop := match o with Inc _ _ _ t => t < 3 | Clean => True end.
(** memory is available *)
Definition lucky (o : op) : Prop := match o with Inc mem hash _ _ => mem = true /\ hash = true | Clean => True end.

(** * Memory *)

Lemma addr_eqb_spec : forall a b, addr_eqb a b = true <-> a = b.
Proof. intros [a1 a2] [b1 b2]. unfold addr_eqb. cbn. rewrite andb_true_iff, !Nat.eqb_eq. split; [intros []; congruence|intros H; injection H; auto]. Qed.

Lemma set_same : forall a n m, set_node a n m a = n.
Proof. intros a n m. unfold set_node. rewrite (proj2 (addr_eqb_spec a a) eq_refl). reflexivity. Qed.
Lemma set_other : forall a n m x, a <> x -> set_node a n m x = m x.
Proof. intros a n m x N. unfold set_node. destruct (addr_eqb a x) eqn:E; [|reflexivity]. apply addr_eqb_spec in E. contradiction. Qed.
Lemma map_other : forall a n m l, ~ In a l -> map (set_node a n m) l = map m l.
Proof. intros a n m l N. apply map_ext_in. intros x I. apply set_other. congruence. Qed.

Lemma thread_eq : forall k len free, thread k len free = map (fun i => (k, i)) (rev (seq 1 (len - 1))) ++ free.
Proof.
  intros k len free. unfold thread. generalize (seq 1 (len - 1)) as l. intros l. revert free.
  induction l as [|i r IH]; intros free; cbn [fold_left rev]; [reflexivity|].
  rewrite IH, map_app, <- app_assoc. reflexivity.
Qed.

Definition fits (len blocks : nat) (a : addr) : Prop := fst a < blocks /\ 1 <= snd a < len.

Record inv (len : nat) (s : store) : Prop := {
  i_nodup : NoDup (s_free s ++ s_table s);
  i_range : Forall (fits len (s_blocks s)) (s_free s ++ s_table s);
  i_keys : NoDup (map n_b (map (s_m s) (s_table s)));
  i_three : Forall (fun n => length (n_s n) = 3) (map (s_m s) (s_table s)) }.

Lemma thread_ok : forall k len, NoDup (thread k len []) /\ Forall (fits len (S k)) (thread k len []) /\ (2 <= len -> thread k len [] <> []) /\
  forall a, In a (thread k len []) -> fst a = k.
Proof.
  intros k len. rewrite thread_eq, app_nil_r.
  assert (I : forall a, In a (map (fun i => (k, i)) (rev (seq 1 (len - 1)))) -> fst a = k /\ 1 <= snd a < len).
  { intros a I. apply in_map_iff in I. destruct I as (i & <- & I). apply in_rev in I. apply in_seq in I. cbn. split; [reflexivity|lia]. }
  split; [|split; [|split]].
  - apply FinFun.Injective_map_NoDup; [intros x y H; injection H; auto|]. apply NoDup_rev, seq_NoDup.
  - apply Forall_forall. intros a J. destruct (I a J) as [A B]. unfold fits. lia.
  - intros L E. apply (f_equal (@length _)) in E. rewrite map_length, rev_length, seq_length in E. cbn in E. lia.
  - intros a J. apply (I a J).
Qed.

Lemma new_inv : forall len, inv len (new_store len).
Proof.
  intros len. destruct (thread_ok 0 len) as (A & B & _). constructor; cbn [new_store s_free s_table s_m s_blocks map].
  - rewrite app_nil_r. exact A.
  - rewrite app_nil_r. exact B.
  - constructor.
  - constructor.
Qed.

(** * One delay *)

Lemma find_key : forall (m : addr -> node) b l a, find (fun a => (n_b (m a) =? b)%Z) l = Some a -> In a l /\ n_b (m a) = b.
Proof. intros m b l a F. apply find_some in F. destruct F as [A B]. apply Z.eqb_eq in B. auto. Qed.
Lemma find_nokey : forall (m : addr -> node) b l, find (fun a => (n_b (m a) =? b)%Z) l = None -> ~ In b (map n_b (map m l)).
Proof.
  intros m b l F I. rewrite map_map in I. apply in_map_iff in I. destruct I as (a & E & I).
  pose proof (find_none _ _ F a I) as N. cbv beta in N. apply Z.eqb_neq in N. contradiction.
Qed.

Definition bump_node (b : Z) (t : nat) (n : node) : node := if (n_b n =? b)%Z then mkNode (n_b n) (bump t (n_s n)) else n.

Lemma found_map : forall (m : addr -> node) b t l a, NoDup (map n_b (map m l)) -> In a l -> n_b (m a) = b ->
  map (set_node a (mkNode (n_b (m a)) (bump t (n_s (m a)))) m) l = map (bump_node b t) (map m l).
Proof.
  intros m b t l a N I K. rewrite map_map. apply map_ext_in. intros x J. unfold bump_node.
  destruct (Z.eqb_spec (n_b (m x)) b) as [E|E].
  - assert (x = a) as ->.
    { rewrite <- K in E. rewrite map_map in N. clear K. revert N I J E. induction l as [|y r IH]; intros N I J E; [destruct I|].
      cbn in N. apply NoDup_cons_iff in N. destruct N as [N1 N2].
      destruct I as [->|I], J as [->|J]; [reflexivity| | |apply IH; assumption].
      - exfalso. apply N1. rewrite <- E. apply in_map_iff. exists x. auto.
      - exfalso. apply N1. rewrite E. apply in_map_iff. exists a. auto. }
    rewrite set_same. reflexivity.
  - apply set_other. intros ->. contradiction.
Qed.

Lemma bump_length : forall t l, length l = 3 -> length (bump t l) = 3.
Proof. intros t l L. unfold bump. rewrite map_length, combine_length, seq_length, L. reflexivity. Qed.
Lemma bump_nth : forall t u l, length l = 3 -> u < 3 ->
  nth u (bump t l) 0%Z = if u =? t then ((nth u l 0 + 1) mod 2^32)%Z else nth u l 0%Z.
Proof.
  intros t u l L U. destruct l as [|x [|y [|z [|? ?]]]]; try discriminate L.
  unfold bump. destruct u as [|[|[|u]]]; [| | |lia]; cbn [seq combine map fst snd nth]; reflexivity.
Qed.

Lemma bump_keys : forall b t l, map n_b (map (bump_node b t) l) = map n_b l.
Proof. intros b t l. rewrite map_map. apply map_ext. intros n. unfold bump_node. destruct (_ =? _)%Z; reflexivity. Qed.

(** what one recording does to the entries of the table *)
Lemma increment_ok : forall len mem hash b t s, 2 <= len -> inv len s ->
  match increment len mem hash b t s with
  | Crash => False
  | Failed s2 => inv len s2 /\ map (s_m s2) (s_table s2) = map (s_m s) (s_table s) /\ (mem = false \/ hash = false)
  | Done s2 => inv len s2 /\
      (In b (map n_b (map (s_m s) (s_table s))) /\ map (s_m s2) (s_table s2) = map (bump_node b t) (map (s_m s) (s_table s)) \/
       ~ In b (map n_b (map (s_m s) (s_table s))) /\ map (s_m s2) (s_table s2) = mkNode b (bump t zeros) :: map (s_m s) (s_table s))
  end.
Proof.
  intros len mem hash b t s L [N R K T]. unfold increment.
  destruct (find _ (s_table s)) as [a|] eqn:F.
  - apply find_key in F. destruct F as [F1 F2].
    pose proof (found_map (s_m s) b t (s_table s) a K F1 F2) as Q. cbn [s_m s_table].
    split; [|left; split; [|exact Q]].
    + constructor; cbn [s_m s_table s_free s_blocks]; [exact N|exact R| |]; rewrite Q.
      * rewrite bump_keys. exact K.
      * apply Forall_forall. intros n I. apply in_map_iff in I. destruct I as (n' & <- & I).
        rewrite Forall_forall in T. specialize (T n' I). unfold bump_node. destruct (_ =? _)%Z; [|exact T]. apply bump_length. exact T.
    + rewrite map_map. apply in_map_iff. exists a. auto.
  - pose proof (find_nokey _ _ _ F) as NK. clear F.
    assert (G : forall s1, inv len s1 -> s_m s1 = s_m s -> s_table s1 = s_table s -> s_free s1 <> [] ->
      match (match s_free s1 with
       | [] => Crash
       | a :: r => let m := set_node a (mkNode b zeros) (s_m s1) in
         if hash then Done (mkStore (set_node a (mkNode b (bump t zeros)) m) r (a :: s_table s1) (s_blocks s1))
         else Failed (mkStore m r (s_table s1) (s_blocks s1)) end) with
      | Crash => False
      | Failed s2 => inv len s2 /\ map (s_m s2) (s_table s2) = map (s_m s) (s_table s) /\ (mem = false \/ hash = false)
      | Done s2 => inv len s2 /\
      (In b (map n_b (map (s_m s) (s_table s))) /\ map (s_m s2) (s_table s2) = map (bump_node b t) (map (s_m s) (s_table s)) \/
       ~ In b (map n_b (map (s_m s) (s_table s))) /\ map (s_m s2) (s_table s2) = mkNode b (bump t zeros) :: map (s_m s) (s_table s))
      end).
    { intros s1 [N1 R1 K1 T1] EM ET NE. destruct (s_free s1) as [|a r] eqn:EF; [contradiction|]. cbv zeta.
      cbn [app] in N1, R1. apply NoDup_cons_iff in N1. destruct N1 as [NA N1]. apply Forall_cons_iff in R1. destruct R1 as [RA R1].
      assert (NT : ~ In a (s_table s1)) by (intros I; apply NA; apply in_or_app; right; exact I).
      destruct hash; cbn [s_m s_table].
      - assert (Q : map (set_node a (mkNode b (bump t zeros)) (set_node a (mkNode b zeros) (s_m s1))) (a :: s_table s1) =
                    mkNode b (bump t zeros) :: map (s_m s) (s_table s)).
        { cbn [map]. rewrite set_same, !map_other by exact NT. rewrite EM, ET. reflexivity. }
        split; [|right; split; [exact NK|exact Q]].
        constructor; cbn [s_m s_table s_free s_blocks].
        + apply (Permutation_NoDup (l := a :: r ++ s_table s1)); [apply Permutation_middle|]. constructor; assumption.
        + apply Forall_forall. intros x I. apply in_app_or in I. destruct I as [I|[<-|I]]; [| exact RA |];
            rewrite Forall_forall in R1; apply R1; apply in_or_app; auto.
        + rewrite Q. cbn [map n_b]. constructor; [exact NK|exact K].
        + rewrite Q. constructor; [reflexivity|exact T].
      - assert (Q : map (set_node a (mkNode b zeros) (s_m s1)) (s_table s1) = map (s_m s) (s_table s)).
        { rewrite map_other by exact NT. rewrite EM, ET. reflexivity. }
        split; [|split; [exact Q|right; reflexivity]].
        constructor; cbn [s_m s_table s_free s_blocks]; [exact N1|exact R1| |]; rewrite Q; assumption. }
    destruct (s_free s) as [|a r] eqn:EF.
    + destruct mem.
      * refine (G (mkStore (s_m s) (thread (s_blocks s) len []) (s_table s) (S (s_blocks s))) _ eq_refl eq_refl _).
        2: { cbn [s_free]. apply thread_ok. exact L. }
        destruct (thread_ok (s_blocks s) len) as (A & B & _ & D). cbn [app] in N, R.
        constructor; cbn [s_m s_table s_free s_blocks]; [| |exact K|exact T].
        -- clear -A N D R. revert A D. generalize (thread (s_blocks s) len []) as l. induction l as [|x l IH]; intros A D; [exact N|].
           cbn [app]. apply NoDup_cons_iff in A. destruct A as [A1 A2]. constructor.
           ++ intros I. apply in_app_or in I. destruct I as [I|I]; [contradiction|]. rewrite Forall_forall in R. destruct (R x I) as [X _].
              rewrite (D x (or_introl eq_refl)) in X. lia.
           ++ apply IH; [exact A2|]. intros y I. apply D. right. exact I.
        -- apply Forall_app. split; [exact B|]. eapply Forall_impl; [|exact R]. intros x [X Y]. unfold fits. lia.
      * split; [|split; [reflexivity|left; reflexivity]]. constructor; rewrite ?EF; assumption.
    + apply (G s); [constructor; rewrite ?EF; assumption|reflexivity|reflexivity|rewrite EF; discriminate].
Qed.

Lemma clean_ok : forall len s, inv len s -> inv len (clean s) /\ s_table (clean s) = [].
Proof.
  intros len s V. unfold clean. remember (s_table s) as l eqn:E. symmetry in E. revert s V E.
  induction l as [|a r IH]; intros s V E; cbn [fold_left]; [auto|].
  assert (D : s_table (clean1 s a) = r) by (cbn [clean1 s_table]; rewrite E; cbn [delete]; rewrite Z.eqb_refl; reflexivity).
  apply IH; [|exact D]. destruct V as [N R K T].
  rewrite E in N, R, K, T. cbn [map] in K, T. apply NoDup_cons_iff in K. apply Forall_cons_iff in T.
  pose proof (NoDup_remove_2 _ _ _ N) as NA.
  assert (NR : ~ In a r) by (intros I; apply NA; apply in_or_app; right; exact I).
  constructor; rewrite D; cbn [clean1 s_m s_free s_blocks].
  - apply (Permutation_NoDup (l := s_free s ++ a :: r)); [|exact N]. symmetry. apply Permutation_middle.
  - apply Forall_forall. intros x I. rewrite Forall_forall in R. apply R. cbn [app] in I. destruct I as [<-|I]; apply in_or_app; [right; left; reflexivity|].
    apply in_app_or in I. destruct I as [I|I]; [left; exact I|right; right; exact I].
  - rewrite map_other by exact NR. apply K.
  - rewrite map_other by exact NR. apply T.
Qed.

(** * All delays *)

(** the entries say what was recorded *)
Definition faithful (ns : list node) (l : list (Z * nat)) : Prop :=
  (forall b, In b (map n_b ns) <-> exists t, In (b, t) l) /\
  forall n t, In n ns -> t < 3 -> nth t (n_s n) 0%Z = (number (Z.eqb (n_b n)) t l mod 2^32)%Z.

Lemma number_cons : forall p t x l, number p t (x :: l) = (number p t l + (if p (fst x) && (snd x =? t)%nat then 1 else 0))%Z.
Proof. intros p t x l. unfold number. cbn [filter]. destruct (p (fst x) && (snd x =? t)); cbn [length]; lia. Qed.
Lemma number_none : forall b t l, (forall u, ~ In (b, u) l) -> number (Z.eqb b) t l = 0%Z.
Proof.
  intros b t l N. induction l as [|[c u] r IH]; [reflexivity|]. rewrite number_cons, IH by (intros v I; apply (N v); right; exact I).
  cbn [fst snd]. destruct (Z.eqb_spec b c) as [->|_]; [|reflexivity]. exfalso. apply (N u). left. reflexivity.
Qed.
Lemma bumped : forall x c : Z, ((x mod 2^32 + 1) mod 2^32 = (x + 1) mod 2^32)%Z.
Proof. intros x _. rewrite Zplus_mod_idemp_l. reflexivity. Qed.

Lemma faithful_found : forall ns l b t, faithful ns l -> Forall (fun n => length (n_s n) = 3) ns -> t < 3 -> In b (map n_b ns) ->
  faithful (map (bump_node b t) ns) ((b, t) :: l).
Proof.
  intros ns l b t [A B] T3 TL I. split.
  - intros c. rewrite bump_keys, A. split; [intros (u & J); exists u; right; exact J|].
    intros (u & [J|J]); [injection J as <- <-; apply A; exact I|exists u; exact J].
  - intros n u J U. apply in_map_iff in J. destruct J as (n' & <- & J). rewrite number_cons. cbn [fst snd].
    rewrite Forall_forall in T3. unfold bump_node. destruct (Z.eqb_spec (n_b n') b) as [E|E]; cbn [n_b n_s].
    + rewrite bump_nth by (auto using T3). rewrite (B n' u J U), E, Z.eqb_refl. cbn [andb].
      rewrite (Nat.eqb_sym t u). destruct (u =? t); [apply (bumped _ 0%Z)|rewrite Z.add_0_r; reflexivity].
    + rewrite (B n' u J U). destruct (Z.eqb_spec (n_b n') b); [contradiction|]. cbn [andb]. rewrite Z.add_0_r. reflexivity.
Qed.

Lemma faithful_new : forall ns l b t, faithful ns l -> t < 3 -> ~ In b (map n_b ns) -> faithful (mkNode b (bump t zeros) :: ns) ((b, t) :: l).
Proof.
  intros ns l b t [A B] TL NI. split.
  - intros c. cbn [map n_b In]. rewrite A. split.
    + intros [<-|(u & J)]; [exists t; left; reflexivity|exists u; right; exact J].
    + intros (u & [J|J]); [injection J as <- <-; left; reflexivity|right; exists u; exact J].
  - intros n u [<-|J] U; rewrite number_cons; cbn [fst snd n_b n_s].
    + rewrite bump_nth by (auto; reflexivity). rewrite Z.eqb_refl. cbn [andb].
      rewrite (number_none b u l) by (intros v I; apply NI; apply A; exists v; exact I).
      assert (Z0 : nth u zeros 0%Z = 0%Z) by (destruct u as [|[|[|u]]]; [reflexivity..|lia]). rewrite Z0, (Nat.eqb_sym t u).
      destruct (u =? t); reflexivity.
    + rewrite (B n u J U). assert (n_b n <> b) by (intros E; apply NI; rewrite <- E; apply in_map; exact J).
      destruct (Z.eqb_spec (n_b n) b); [contradiction|]. cbn [andb]. rewrite Z.add_0_r. reflexivity.
Qed.

Lemma run_ok : forall len ops s acc, 2 <= len -> Forall legal ops -> inv len s -> faithful (map (s_m s) (s_table s)) acc ->
  exists s2 res, run len ops s = Some (s2, res) /\ length res = length ops /\ inv len s2 /\
    faithful (map (s_m s2) (s_table s2)) (since ops res acc) /\ (Forall lucky ops -> Forall (fun r => r = true) res).
Proof.
  intros len ops. induction ops as [|o r IH]; intros s acc L G V F.
  - exists s, []. split; [reflexivity|]. split; [reflexivity|]. split; [exact V|]. split; [exact F|]. intros _. constructor.
  - apply Forall_cons_iff in G. destruct G as [G1 G2]. destruct o as [mem hash b t|].
    + cbn [run]. pose proof (increment_ok len mem hash b t s L V) as I. destruct (increment len mem hash b t s) as [s1|s1|]; [| |contradiction].
      * destruct I as [V1 I].
        assert (F1 : faithful (map (s_m s1) (s_table s1)) ((b, t) :: acc)).
        { destruct I as [[I ->]|[I ->]]; [apply faithful_found|apply faithful_new]; auto. apply V. }
        destruct (IH s1 _ L G2 V1 F1) as (s2 & res & E & A & B & C & D). rewrite E. exists s2, (true :: res).
        split; [reflexivity|]. split; [cbn; lia|]. split; [exact B|]. split; [exact C|].
        intros X. apply Forall_cons_iff in X. constructor; [reflexivity|apply D, X].
      * destruct I as (V1 & Q & U). rewrite <- Q in F.
        destruct (IH s1 _ L G2 V1 F) as (s2 & res & E & A & B & C & D). rewrite E. exists s2, (false :: res).
        split; [reflexivity|]. split; [cbn; lia|]. split; [exact B|]. split; [exact C|].
        intros X. apply Forall_cons_iff in X. destruct X as [[X Y] _]. destruct U; congruence.
    + cbn [run]. destruct (clean_ok len s V) as [V1 T1].
      assert (F1 : faithful (map (s_m (clean s)) (s_table (clean s))) []).
      { rewrite T1. split; [intros b; split; [intros []|intros (u & [])]|intros n u []]. }
      destruct (IH _ _ L G2 V1 F1) as (s2 & res & E & A & B & C & D). rewrite E. exists s2, (true :: res).
      split; [reflexivity|]. split; [cbn; lia|]. split; [exact B|]. split; [exact C|].
      intros X. apply Forall_cons_iff in X. constructor; [reflexivity|apply D, X].
Qed.

(** Whatever delays are recorded and however often the histogram is emptied and memory runs out in between: no null pointer is used; each bucket with a
    delay since the last time it was emptied has one record and there are no others; a record counts the delays of each kind (modulo 2^32); no record is
    in use twice or both in use and free, and all lie inside the blocks allocated, behind the first one of a block.  Without shortage of memory nothing fails. *)
Theorem C170_histogram : forall len ops, 2 <= len -> Forall legal ops ->
  exists s res, run len ops (new_store len) = Some (s, res) /\ length res = length ops /\
    (forall b, In b (map (fun a => n_b (s_m s a)) (s_table s)) <-> exists t, In (b, t) (since ops res [])) /\
    NoDup (map (fun a => n_b (s_m s a)) (s_table s)) /\
    (forall a t, In a (s_table s) -> t < 3 -> nth t (n_s (s_m s a)) 0%Z = (number (Z.eqb (n_b (s_m s a))) t (since ops res []) mod 2^32)%Z) /\
    NoDup (s_free s ++ s_table s) /\ (forall a, In a (s_free s ++ s_table s) -> fst a < s_blocks s /\ 1 <= snd a < len) /\
    (Forall lucky ops -> ~ In false res).
Proof.
  intros len ops L G.
  assert (F0 : faithful (map (s_m (new_store len)) (s_table (new_store len))) []).
  { cbn. split; [intros b; split; [intros []|intros (u & [])]|intros n u []]. }
  destruct (run_ok len ops _ [] L G (new_inv len) F0) as (s & res & E & A & [N R K T] & [F1 F2] & D).
  exists s, res. rewrite map_map in F1, K. split; [exact E|]. split; [exact A|]. split; [exact F1|]. split; [exact K|]. split.
  { intros a t I U. apply F2; [apply in_map; exact I|exact U]. }
  split; [exact N|]. split; [apply Forall_forall; exact R|].
  intros X I. specialize (D X). rewrite Forall_forall in D. specialize (D false I). discriminate.
Qed.

(** every record of the blocks is free or in use, and there are only as many blocks as [M] buckets need *)
Definition economical (len M : nat) (s : store) : Prop :=
  length (s_free s) + length (s_table s) = s_blocks s * (len - 1) /\ (s_blocks s = 1 \/ (s_blocks s - 1) * (len - 1) < M) /\ 1 <= s_blocks s.

Lemma thread_length : forall k len, length (thread k len []) = len - 1.
Proof. intros k len. rewrite thread_eq, app_nil_r, map_length, rev_length, seq_length. reflexivity. Qed.

Lemma increment_economical : forall len M b t s s2, economical len M s -> increment len true true b t s = Done s2 -> length (s_table s2) <= M -> economical len M s2.
Proof.
  intros len M b t s s2 (C & B & P) E T. unfold increment in E.
  destruct (find _ (s_table s)); [injection E as <-; split; [exact C|split; [exact B|exact P]]|].
  destruct (s_free s) as [|a r] eqn:F; cbn [length] in C.
  - destruct (s_free (mkStore _ _ _ _)) as [|a r] eqn:F2 in E; [discriminate|]. injection E as <-. cbn [s_free s_blocks s_table] in *.
    assert (L : length (thread (s_blocks s) len []) = len - 1) by apply thread_length. rewrite F2 in L. cbn [length] in L, T.
    unfold economical. cbn [s_free s_blocks s_table length]. split; [|split; [right|lia]].
    + rewrite Nat.mul_succ_l. lia.
    + replace (S (s_blocks s) - 1) with (s_blocks s) by lia. lia.
  - rewrite F in E. injection E as <-. unfold economical. cbn [s_free s_blocks s_table length]. split; [lia|split; [exact B|exact P]].
Qed.

Lemma clean_economical : forall len M s, economical len M s -> economical len M (clean s).
Proof.
  intros len M s. unfold clean.
  assert (G : forall l s, s_table s = l -> economical len M s -> economical len M (fold_left clean1 l s)).
  { induction l as [|a r IH]; intros x E (C & B & P); cbn [fold_left]; [split; auto|]. apply IH.
    - cbn [clean1 s_table]. rewrite E. cbn [delete]. rewrite Z.eqb_refl. reflexivity.
    - unfold economical. cbn [clean1 s_table s_free s_blocks]. rewrite E in C |- *. cbn [delete]. rewrite Z.eqb_refl. cbn [length] in *. split; [lia|auto]. }
  apply G. reflexivity.
Qed.

Lemma run_economical : forall len M ops s s2 res, Forall lucky ops -> economical len M s -> run len ops s = Some (s2, res) ->
  (forall n x y, run len (firstn n ops) s = Some (x, y) -> length (s_table x) <= M) -> economical len M s2.
Proof.
  intros len M ops. induction ops as [|o r IH]; intros s s2 res L C E T.
  - injection E as <- <-. exact C.
  - apply Forall_cons_iff in L. destruct L as [L1 L2]. destruct o as [mem hash b t|]; cbn [run] in E.
    + destruct L1 as [-> ->]. destruct (increment len true true b t s) as [s1|s1|] eqn:I; [| |discriminate].
      * destruct (run len r s1) as [[s3 l]|] eqn:R; [|discriminate]. injection E as <- <-. apply (IH s1 s3 l L2); [|exact R|].
        -- apply (increment_economical len M b t s s1 C I). apply (T 1 s1 [true]). cbn [firstn run]. rewrite I. reflexivity.
        -- intros n x y X. apply (T (S n) x (true :: y)). cbn [firstn run]. rewrite I, X. reflexivity.
      * exfalso. unfold increment in I. destruct (find _ (s_table s)); [discriminate|].
        destruct (s_free s) as [|a q] eqn:F; [destruct (s_free (mkStore _ _ _ _)); discriminate|rewrite F in I; discriminate].
    + destruct (run len r (clean s)) as [[s3 l]|] eqn:R; [|discriminate]. injection E as <- <-. apply (IH (clean s) s3 l L2); [|exact R|].
      * apply clean_economical. exact C.
      * intros n x y X. apply (T (S n) x (true :: y)). cbn [firstn run]. rewrite X. reflexivity.
Qed.

(** Memory is used again after the histogram was emptied: if it never has more than [M] buckets, no more than the blocks for [M] buckets are allocated
    in any number of summaries. *)
Theorem C170_memory : forall len ops s res M, 2 <= len -> Forall lucky ops -> run len ops (new_store len) = Some (s, res) ->
  (forall n x y, run len (firstn n ops) (new_store len) = Some (x, y) -> length (s_table x) <= M) ->
  s_blocks s = 1 \/ (s_blocks s - 1) * (len - 1) < M.
Proof.
  intros len ops s res M L U E T. refine (proj1 (proj2 (run_economical len M ops _ _ _ U _ E T))).
  unfold economical. cbn [new_store s_free s_table s_blocks length]. rewrite thread_length. split; [lia|split; [left; reflexivity|lia]].
Qed.

Example C170_memory_case : exists s res, run 3 [Inc true true 5 0; Inc true true 7 1; Clean; Inc true true 8 0; Inc true true (-3) 2; Clean; Inc true true 1 1; Inc true true 2 1; Inc true true 3 1]
  (new_store 3) = Some (s, res) /\ s_blocks s = 2.
Proof. eexists. eexists. split; [vm_compute; reflexivity|]. reflexivity. Qed.

(** the block length that is used is at least 10 *)
Theorem C170_length : forall d, (10 <= blistlen d <= 2048)%Z.
Proof. intros d. unfold blistlen. destruct (_ <? _)%Z; lia. Qed.

Example C170_case : exists s,
  let ops := [Inc true true 5 0; Inc true true 7 1; Clean; Inc true true 7 0; Inc true true (-3) 2; Inc true true 7 0; Inc false true 9 0; Inc true false 9 0] in
  run 3 ops (new_store 3) = Some (s, [true; true; true; true; true; true; false; false]) /\ Forall legal ops /\
  map (fun a => (n_b (s_m s a), n_s (s_m s a))) (s_table s) = [(-3, [0; 0; 1]); (7, [2; 0; 0])]%Z.
Proof. eexists. split; [vm_compute; reflexivity|]. split; [repeat constructor|reflexivity]. Qed.

(** * The order of the buckets *)

(** Buckets less than 2^31 apart: the differences that the sorting looks at are defined, and the array is in ascending order of the buckets.
    Missing: buckets further apart. *)
Theorem C171_order_partial : forall s arr, NoDup (map (fun a => n_b (s_m s a)) (s_table s)) -> NoDup arr ->
  (forall a b, In a (s_table s) -> In b (s_table s) -> (Z.abs (n_b (s_m s a) - n_b (s_m s b)) < 2^31)%Z) ->
  (forall a b, In a (s_table s) -> In b (s_table s) -> sort_cmp (n_b (s_m s a)) (n_b (s_m s b)) <> None) /\
  (sorted_array s arr -> StronglySorted (fun x y => (n_b (s_m s x) < n_b (s_m s y))%Z) arr).
Proof.
  intros s arr K N W. split.
  - intros a b A B. specialize (W a b A B). unfold sort_cmp. cbv zeta.
    assert (E : ((- 2 ^ 31 <=? n_b (s_m s a) - n_b (s_m s b)) && (n_b (s_m s a) - n_b (s_m s b) <? 2 ^ 31))%Z = true) by lia. rewrite E. discriminate.
  - intros (I & _ & O).
    assert (INJ : forall a b, In a (s_table s) -> In b (s_table s) -> n_b (s_m s a) = n_b (s_m s b) -> a = b).
    { clear -K. induction (s_table s) as [|x r IH]; intros a b A B E; [destruct A|]. cbn in K. apply NoDup_cons_iff in K. destruct K as [K1 K2].
      destruct A as [->|A], B as [->|B]; [reflexivity| | |apply IH; assumption]; exfalso; apply K1; apply in_map_iff; [exists b|exists a]; auto. }
    assert (I' : forall a, In a arr -> In a (s_table s)) by (intros a A; apply I; exact A). clear I W.
    revert N I' O. induction arr as [|x r IH]; intros N I' O; constructor.
    + apply IH; [apply NoDup_cons_iff in N; apply N|intros a A; apply I'; right; exact A|].
      intros i j IJ. apply (O (S i) (S j)). cbn. lia.
    + apply Forall_forall. intros y Y. destruct (In_nth r y ((0, 0) : addr) Y) as (j & J1 & J2).
      assert (JJ : 0 < S j < length (x :: r)) by (cbn [length]; unfold addr in *; lia). destruct (O 0 (S j) JJ) as (d & D1 & D2). cbn [nth] in D1. rewrite J2 in D1. unfold sort_cmp in D1.
      destruct (_ && _); [|discriminate]. injection D1 as <-.
      assert (X : n_b (s_m s x) <> n_b (s_m s y)).
      { intros E. apply INJ in E; [|apply I'; left; reflexivity|apply I'; right; exact Y].
        apply NoDup_cons_iff in N. apply N. rewrite E. exact Y. }
      clear -D2 X. lia.
Qed.

(** With the usual width of 0.1 ms, a delay of -30 hours and one of 30 hours (a clock that was set during the session): each has a bucket, the difference
    of the two is no int. *)
Theorem C171_range_refuted : exists w x y a b, w = b64 1 10000 /\ x = (- (30 * 3600 * 2^32))%Z /\ y = (30 * 3600 * 2^32)%Z /\
  bucket_of w x = Some a /\ bucket_of w y = Some b /\ sort_cmp b a = None.
Proof.
  exists (b64 1 10000), (- (30 * 3600 * 2^32))%Z, (30 * 3600 * 2^32)%Z. eexists. eexists.
  split; [reflexivity|]. split; [reflexivity|]. split; [reflexivity|]. split; [vm_compute; reflexivity|]. split; [vm_compute; reflexivity|]. vm_compute. reflexivity.
Qed.

Example C171_case : exists s res, run 10 [Inc true true 5 0; Inc true true (-7) 0; Inc true true 3 1] (new_store 10) = Some (s, res) /\
  sorted_array s [(0, 8); (0, 7); (0, 9)].
Proof.
  eexists. eexists. split; [vm_compute; reflexivity|]. split; [|split; [reflexivity|]].
  - intros a. cbn. tauto.
  - intros i j H. cbn [length] in H. destruct i as [|[|i]], j as [|[|[|j]]]; try lia; eexists; (split; [vm_compute; reflexivity|lia]).
Qed.

(** * Percentiles *)

Open Scope Z_scope.
(** the sum of the samples in the entries that satisfy [p] *)
Definition total (p : Z -> bool) (s : list (Z * Z)) : Z := fold_right Z.add 0 (map snd (filter (fun x => p (fst x)) s)).

Lemma total_cons : forall p x s, total p (x :: s) = (if p (fst x) then snd x else 0) + total p s.
Proof. intros p x s. unfold total. cbn [filter]. destruct (p (fst x)); cbn [map fold_right]; lia. Qed.
Lemma total_nonneg : forall p s, Forall (fun x => 0 <= snd x) s -> 0 <= total p s.
Proof.
  intros p s F. induction s as [|x r IH]; [cbn; lia|]. apply Forall_cons_iff in F. destruct F as [F1 F2]. specialize (IH F2).
  rewrite total_cons. destruct (p (fst x)); lia.
Qed.
Lemma total_zero : forall p s, (forall x, In x s -> p (fst x) = false) -> total p s = 0.
Proof.
  intros p s. induction s as [|x r IH]; intros F; [reflexivity|]. rewrite total_cons, (F x (or_introl eq_refl)), IH; [reflexivity|].
  intros y I. apply F. right. exact I.
Qed.

Lemma percentile_total : forall thr den s sum, 0 < den -> StronglySorted (fun x y => fst x < fst y) s -> Forall (fun x => 0 <= snd x) s -> sum * den < thr ->
  match percentile thr den sum s with
  | Some b => (exists n, In (b, n) s /\ 0 < n) /\ (sum + total (fun c => c <? b) s) * den < thr <= (sum + total (fun c => c <=? b) s) * den
  | None => (sum + total (fun _ => true) s) * den < thr
  end.
Proof.
  intros thr den s. induction s as [|[b n] r IH]; intros sum D ST F H; cbn [percentile].
  - cbn. lia.
  - apply StronglySorted_inv in ST. destruct ST as [ST1 ST2]. apply Forall_cons_iff in F. destruct F as [F1 F2]. cbn [snd] in F1.
    destruct (Z.ltb_spec ((n + sum) * den) thr) as [C|C].
    + assert (H' : (sum + n) * den < thr) by lia. specialize (IH (sum + n) D ST1 F2 H').
      destruct (percentile thr den (sum + n) r) as [c|].
      * destruct IH as ((k & K1 & K2) & K3). split; [exists k; split; [right; exact K1|exact K2]|].
        rewrite Forall_forall in ST2. specialize (ST2 _ K1). cbn [fst] in ST2. rewrite !total_cons. cbn [fst snd].
        assert (A : (b <? c) = true) by (apply Z.ltb_lt; lia). assert (B : (b <=? c) = true) by (apply Z.leb_le; lia). rewrite A, B.
        replace (sum + (n + total (fun x => x <? c) r)) with (sum + n + total (fun x => x <? c) r) by lia.
        replace (sum + (n + total (fun x => x <=? c) r)) with (sum + n + total (fun x => x <=? c) r) by lia. exact K3.
      * rewrite total_cons. cbn [fst snd]. replace (sum + (n + total (fun _ => true) r)) with (sum + n + total (fun _ => true) r) by lia. exact IH.
    + rewrite Forall_forall in ST2. rewrite !total_cons. cbn [fst snd]. rewrite Z.ltb_irrefl, Z.leb_refl.
      rewrite (total_zero (fun c => c <? b)) by (intros x I; specialize (ST2 x I); cbn [fst] in ST2; apply Z.ltb_ge; lia).
      rewrite (total_zero (fun c => c <=? b)) by (intros x I; specialize (ST2 x I); cbn [fst] in ST2; apply Z.leb_gt; lia).
      split; [exists n; split; [left; reflexivity|]|].
      * destruct (Z.eq_dec n 0) as [->|]; [exfalso|]; lia.
      * split; [replace (sum + (0 + 0)) with sum by lia; exact H|]. replace ((sum + (n + 0)) * den) with ((n + sum) * den) by lia. exact C.
Qed.

(** the samples of the entries are the delays *)
Lemma total_number : forall p t (l : list (Z * nat)) (keys : list Z), NoDup keys -> (forall b, (exists u, In (b, u) l) -> In b keys) ->
  total p (map (fun b => (b, number (Z.eqb b) t l)) keys) = number p t l.
Proof.
  intros p t l keys N. induction l as [|[c u] r IH]; intros A.
  - unfold number. cbn [filter length]. clear A. induction keys as [|k q IHq]; [reflexivity|]. cbn [map]. rewrite total_cons. cbn [fst snd].
    apply NoDup_cons_iff in N. destruct N as [_ N]. specialize (IHq N). unfold number in IHq. cbn [filter length] in IHq. rewrite IHq. destruct (p k); reflexivity.
  - rewrite number_cons. rewrite <- IH by (intros b (v & I); apply A; exists v; right; exact I). cbn [fst snd].
    assert (IC : In c keys) by (apply A; exists u; left; reflexivity). clear IH A.
    induction keys as [|k q IHq]; [destruct IC|]. cbn [map]. rewrite !total_cons. cbn [fst snd]. rewrite number_cons. cbn [fst snd].
    apply NoDup_cons_iff in N. destruct N as [N1 N2].
    destruct (Z.eqb_spec k c) as [->|NE].
    + assert (R : total p (map (fun b => (b, number (Z.eqb b) t ((c, u) :: r))) q) = total p (map (fun b => (b, number (Z.eqb b) t r)) q)).
      { f_equal. apply map_ext_in. intros b I. rewrite number_cons. cbn [fst snd]. destruct (Z.eqb_spec b c) as [->|_]; [contradiction|]. cbn [andb]. rewrite Z.add_0_r. reflexivity. }
      rewrite R. destruct (p c), (u =? t)%nat; cbn [andb]; lia.
    + destruct IC as [IC|IC]; [congruence|]. rewrite (IHq N2 IC). cbn [andb]. destruct (p k), (p c && (u =? t)%nat); lia.
Qed.

(** A percentile of one kind of delay, for a number of delays [thr]/[den] above 0, is taken from the delays of that kind although all kinds share the buckets: one
    of them is in that bucket, fewer than [thr]/[den] are in lower buckets and at least as many in this one and the lower ones; nothing is reported only if there are fewer
    delays than that.
    Missing: the percentile 0, and buckets 2^31 or more apart (C171). *)
Theorem C172_kind_partial : forall len ops s res arr t thr den, (2 <= len)%nat -> Forall legal ops -> run len ops (new_store len) = Some (s, res) ->
  let L := since ops res [] in
  Z.of_nat (length L) < 2^32 -> (forall b c u v, In (b, u) L -> In (c, v) L -> Z.abs (b - c) < 2^31) ->
  NoDup arr -> sorted_array s arr -> (t < 3)%nat -> 0 < den -> 0 < thr ->
  match percentile thr den 0 (column s t arr) with
  | Some b => In (b, t) L /\ number (fun c => c <? b) t L * den < thr <= number (fun c => c <=? b) t L * den
  | None => number (fun _ => true) t L * den < thr
  end.
Proof.
  intros len ops s res arr t thr den LN G E L SM W N SA TL DP TP.
  destruct (C170_histogram len ops LN G) as (s' & res' & E' & _ & K1 & K2 & K3 & _). rewrite E in E'. injection E' as <- <-. fold L in K1, K3.
  assert (KEY : forall a, In a (s_table s) -> exists u, In (n_b (s_m s a), u) L).
  { intros a I. apply K1. apply in_map_iff. exists a. auto. }
  assert (ST : StronglySorted (fun x y => n_b (s_m s x) < n_b (s_m s y)) arr).
  { apply (C171_order_partial s arr K2 N); [|exact SA]. intros a b A B. destruct (KEY a A) as (u & U). destruct (KEY b B) as (v & V). exact (W _ _ _ _ U V). }
  destruct SA as (SA & _ & _).
  assert (LE : forall p, number p t L < 2^32).
  { intros p. unfold number. eapply Z.le_lt_trans; [|exact SM]. apply inj_le. clear. induction L as [|x r IH]; [reflexivity|]. cbn [filter]. destruct (_ && _); cbn [length]; lia. }
  set (keys := map (fun a => n_b (s_m s a)) arr).
  assert (COL : column s t arr = map (fun b => (b, number (Z.eqb b) t L)) keys).
  { unfold column, keys. rewrite map_map. apply map_ext_in. intros a I. rewrite K3; [|apply SA; exact I|exact TL]. f_equal. apply Z.mod_small. split; [unfold number; lia|apply LE]. }
  assert (NK : NoDup keys).
  { unfold keys. clear -ST. induction ST as [|a l ST IH F]; constructor; [|exact IH]. intros I. apply in_map_iff in I. destruct I as (b & E & I).
    rewrite Forall_forall in F. specialize (F b I). cbv beta in F. lia. }
  assert (COV : forall b, (exists u, In (b, u) L) -> In b keys).
  { intros b X. apply K1 in X. apply in_map_iff in X. destruct X as (a & <- & I). unfold keys. apply in_map_iff. exists a. split; [reflexivity|]. apply SA. exact I. }
  rewrite COL.
  assert (SK : StronglySorted (fun x y : Z * Z => fst x < fst y) (map (fun b => (b, number (Z.eqb b) t L)) keys)).
  { unfold keys. rewrite map_map. clear -ST. induction ST as [|a l ST IH F]; constructor; [exact IH|].
    apply Forall_forall. intros x I. apply in_map_iff in I. destruct I as (b & <- & I). rewrite Forall_forall in F. exact (F b I). }
  assert (NN : Forall (fun x : Z * Z => 0 <= snd x) (map (fun b => (b, number (Z.eqb b) t L)) keys)).
  { apply Forall_forall. intros x I. apply in_map_iff in I. destruct I as (b & <- & I). cbn [snd]. unfold number. lia. }
  pose proof (percentile_total thr den _ 0 DP SK NN) as P. assert (H0 : 0 * den < thr) by lia. specialize (P H0).
  destruct (percentile thr den 0 _) as [b|].
  - destruct P as ((n & I & NP) & P). rewrite !total_number in P by assumption. split; [|exact P].
    apply in_map_iff in I. destruct I as (b' & Q & I). injection Q as <- <-. unfold number in NP.
    destruct (filter _ L) as [|[c u] q] eqn:FL; [cbn in NP; lia|].
    assert (J : In (c, u) (filter (fun x => (b' =? fst x) && (snd x =? t)%nat) L)) by (rewrite FL; left; reflexivity).
    apply filter_In in J. destruct J as [J1 J2]. cbn [fst snd] in J2. apply andb_true_iff in J2. destruct J2 as [J2 J3].
    apply Z.eqb_eq in J2. apply Nat.eqb_eq in J3. subst. exact J1.
  - rewrite total_number in P by assumption. exact P.
Qed.

(** The percentile 0 is the lowest bucket of any kind of delay: here a delay of kind 1 is reported as one of kind 0. *)
Theorem C172_zero_refuted : exists ops s res arr b, run 10 ops (new_store 10) = Some (s, res) /\ sorted_array s arr /\ Forall legal ops /\
  percentile 0 1 0 (column s 0 arr) = Some b /\ ~ In (b, 0%nat) (since ops res []) /\ In (8, 0%nat) (since ops res []).
Proof.
  exists [Inc true true 8 0; Inc true true 3 1; Inc true true 5 2]. eexists. eexists. exists [(0, 8); (0, 7); (0, 9)]%nat. eexists.
  split; [vm_compute; reflexivity|]. split.
  { split; [|split; [reflexivity|]].
    - intros a. cbn. tauto.
    - intros i j H. cbn [length] in H. destruct i as [|[|i]], j as [|[|[|j]]]; try lia; eexists; (split; [vm_compute; reflexivity|lia]). }
  split; [repeat constructor|]. split; [vm_compute; reflexivity|]. split; [|cbn; tauto]. cbn. intros [I|[I|[I|[]]]]; discriminate.
Qed.

Example C172_case : exists s res, run 10 [Inc true true 8 0; Inc true true 3 1; Inc true true 5 2; Inc true true 9 0] (new_store 10) = Some (s, res) /\
  percentile 1 2 0 (column s 0 [(0, 8); (0, 7); (0, 9); (0, 6)]%nat) = Some 8.
Proof. eexists. eexists. split; [vm_compute; reflexivity|]. vm_compute. reflexivity. Qed.

Print Assumptions C170_histogram.
Print Assumptions C170_length.
Print Assumptions C170_memory.
Print Assumptions C171_order_partial.
Print Assumptions C171_range_refuted.
Print Assumptions C172_kind_partial.
Print Assumptions C172_zero_refuted.
