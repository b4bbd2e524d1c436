(** The limit of -vN, the memory of statistics, the files of do_stats (C167-C169). *)
From Coq Require Import ZArith List Bool Arith Lia Permutation.
From Coq Require Import ZifyBool.
From Verif Require Import Base Time_Model Wire_Model File_Model Stats_Model Stats_Proofs Stats_Parse Misc_Model Dostats_Model Props_Receiver Props_Stats.
Import ListNotations.
Open Scope nat_scope.

(** * The limit of -vN *)

Section Limit.
Variable start timeout npackets rec_size : Z.
Variable skips : list skiprec.
Variable delta : nat -> Z.
Variable rlistlen : nat.
Variable bucket : timestamp -> timestamp -> Z.
Notation summarized := (summarized start timeout npackets rec_size skips delta rlistlen bucket).

(** the number of records in the file *)
Definition records_of (odata oskip : Z) (f : list Z) : Z :=
  ((Z.quot ((if odata <? oskip then oskip else Z.of_nat (length f)) - odata) rec_size) mod 2^32)%Z.

(** C167 (partial: the option -vN, said to limit the number of records printed, does not change the summary as long as N is not less than
    the number of records of the file; see C167_changed_refuted) *)
Theorem C167_same_partial : forall version odata oskip f l, (0 <= odata)%Z ->
  (rec_limit l <= 0 \/ records_of odata oskip f <= rec_limit l)%Z ->
  summarized version odata oskip f l = summarized version odata oskip f [].
Proof.
  intros version odata oskip f l O A. unfold Dostats_Model.summarized. cbn [rec_limit fold_left]. change (0 <? 0)%Z with false.
  destruct (Z.ltb_spec 0 (rec_limit l)) as [P|P]; [|reflexivity].
  assert (B : (records_of odata oskip f <= rec_limit l)%Z) by lia. unfold records_of in B.
  unfold parse. rewrite (Z.eqb_refl 4294967295). cbv zeta.
  destruct ((npackets <? 0) || (npackets <? npackets))%Z; [reflexivity|].
  cbv iota. match goal with |- context [prepare ?a ?b ?c ?d ?e ?g ?h ?j ?k] => destruct (prepare a b c d e g h j k) as [x|] eqn:E end; [|reflexivity].
  assert (GB : g_begin x = Z.max 0 odata).
  { unfold prepare in E. destruct (0 =? 4294967295)%Z; [discriminate|]. destruct (draw _ _ _ _) as [gen en].
    destruct (first_node _ _ _ _); [|discriminate]. destruct (first_node _ _ _ _); [|discriminate]. injection E as <-. reflexivity. }
  rewrite GB, (Z.max_r 0 odata O). change u32 with (fun x : Z => x mod 2^32)%Z. cbv beta.
  set (n := (Z.quot ((if odata <? oskip then oskip else Z.of_nat (length f)) - odata) rec_size mod 2^32)%Z) in *.
  change (0 <? 0)%Z with false. cbn [andb].
  rewrite (proj2 (Z.ltb_ge (rec_limit l) n) B), andb_false_r. reflexivity.
Qed.
End Limit.

(** -M makes -v to be ignored, as owping says; the limit is not: of four packets one is reported *)
Theorem C167_changed_refuted : exists l g1 g2,
  option_map shown (read_flags (map flag_of l)) = Some [Machine_summary] /\
  summarized (secs 1000) (10 * 2^32) 4 25 [] x_delta 10 x_bucket 3 200 0 (x_file x_recs) l = POk g1 /\
  summarized (secs 1000) (10 * 2^32) 4 25 [] x_delta 10 x_bucket 3 200 0 (x_file x_recs) [Flag FM] = POk g2 /\
  g_sent g1 = 1%Z /\ g_sent g2 = 4%Z /\ p_lost (g_pk g1) = 0%Z /\ p_lost (g_pk g2) = 1%Z.
Proof.
  exists [VN 1; Flag FM]. eexists. eexists. split; [reflexivity|]. split; [vm_compute; reflexivity|]. split; [vm_compute; reflexivity|].
  vm_compute. repeat split.
Qed.

Example C167_case : (records_of 25 200 0 (x_file x_recs) = 5 /\ rec_limit [VN 7; Flag Fv] = 7)%Z.
Proof. vm_compute. split; reflexivity. Qed.

(** * The memory of the statistics object *)

Lemma split_filters : forall (A : Type) (l : list A) (ps : list (A -> bool)),
  (forall x, In x l -> length (filter (fun p => p x) ps) = 1) -> Permutation (flat_map (fun p => filter p l) ps) l.
Proof.
  intros A l. induction l as [|a l IH]; intros ps H.
  - assert (E : flat_map (fun p : A -> bool => filter p []) ps = []) by (clear; induction ps as [|p ps IH]; [reflexivity|exact IH]).
    rewrite E. constructor.
  - assert (K : Permutation (flat_map (fun p => filter p (a :: l)) ps) (flat_map (fun p : A -> bool => if p a then [a] else []) ps ++ flat_map (fun p => filter p l) ps)).
    { clear. induction ps as [|p ps IH]; [constructor|]. cbn [flat_map filter].
      destruct (p a); cbn [app].
      - constructor. rewrite IH. rewrite !app_assoc. apply Permutation_app_tail. apply Permutation_app_comm.
      - rewrite IH. rewrite !app_assoc. apply Permutation_app_tail. apply Permutation_app_comm. }
    rewrite K. rewrite (IH ps) by (intros x I; apply H; right; exact I).
    replace (flat_map (fun p : A -> bool => if p a then [a] else []) ps) with [a]; [reflexivity|].
    specialize (H a (or_introl eq_refl)). clear - H. revert H.
    induction ps as [|p ps IH]; cbn [filter flat_map length]; [discriminate|]. destruct (p a); cbn [length app]; intros H.
    + f_equal. assert (Z0 : length (filter (fun p => p a) ps) = 0) by lia. clear - Z0.
      induction ps as [|p ps IH]; [reflexivity|]. cbn [filter flat_map] in *. destruct (p a); [discriminate|]. cbn [app]. apply IH, Z0.
    + apply IH, H.
Qed.

(** the pieces an object can have *)
Definition possible (p : piece) : Prop := match p with Packets t _ | Ptable t => t < 2 | _ => True end.

Lemma piece_eq_iff : forall a b, piece_eq a b = true <-> a = b.
Proof.
  intros [| | | |t n|t|n| | | |] [| | | |u m|u|m| | | |]; cbn; split; intros H; try discriminate; try reflexivity;
    try (apply andb_true_iff in H; destruct H as (H1 & H2); apply Nat.eqb_eq in H1, H2; congruence);
    try (apply Nat.eqb_eq in H; congruence); try (injection H as -> ->; rewrite !Nat.eqb_refl; reflexivity);
    injection H as ->; apply Nat.eqb_refl.
Qed.

(** the state of an object: the pieces, each once, the object itself among them, the blocks numbered *)
Definition whole (held : list piece) : Prop :=
  Forall possible held /\ In Obj held /\ NoDup held /\
  (forall t n, In (Packets t n) held -> n < length (filter (is_packets t) held)) /\
  (forall n, In (Buckets n) held -> n < length (filter is_buckets held)).

Lemma free_perm : forall held, Forall possible held -> In Obj held -> NoDup held -> Permutation (stats_free held) held.
Proof.
  intros held P O N.
  set (ps := [piece_eq Rn; piece_eq Rseqno; piece_eq Bsort; piece_eq Btable; is_buckets; piece_eq (Ptable 0); is_packets 0;
              piece_eq (Ptable 1); is_packets 1; piece_eq Sctx; piece_eq Skips; piece_eq Dostats_Model.Slots; piece_eq Obj]).
  assert (E : Permutation (flat_map (fun p => filter p held) ps) held).
  { apply split_filters. intros x I. rewrite Forall_forall in P. specialize (P x I).
    destruct x as [| | | |[|[|t]] n|[|[|t]]|n| | | |]; cbn in *; try reflexivity; lia. }
  assert (F : filter (piece_eq Obj) held = [Obj]).
  { clear - O N. induction held as [|a l IH]; [contradiction|]. inversion N as [|? ? N1 N2]; subst. cbn [filter].
    destruct (piece_eq Obj a) eqn:Q.
    - apply piece_eq_iff in Q. subst a. f_equal. clear - N1.
      induction l as [|b l IH]; [reflexivity|]. cbn [filter]. destruct (piece_eq Obj b) eqn:Q; [apply piece_eq_iff in Q; subst b; exfalso; apply N1; left; reflexivity|].
      apply IH. intros X. apply N1. right. exact X.
    - destruct O as [-> |O]; [cbn in Q; discriminate|]. apply IH; assumption. }
  unfold stats_free. destruct held as [|h t]; [contradiction|]. revert E F. generalize (h :: t). intros held E F.
  unfold ps in E. cbn [flat_map] in E. rewrite app_nil_r in E. rewrite F in E. exact E.
Qed.

Lemma acquire_held : forall steps fails n held w ok, acquire steps fails n held = (w, ok) ->
  exists k, w = rev (flat_map (fun s => match s with Some p => [p] | None => [] end) (firstn k steps)) ++ held /\ (ok = true -> firstn k steps = steps) /\
    (0 < length steps -> fails n = false -> 0 < k).
Proof.
  induction steps as [|s r IH]; intros fails n held w ok E; cbn [acquire] in E.
  - injection E as <- <-. exists 0. split; [reflexivity|]. split; [reflexivity|cbn; lia].
  - destruct (fails n) eqn:F.
    + injection E as <- <-. exists 0. split; [reflexivity|]. split; discriminate.
    + destruct (IH _ _ _ _ _ E) as (k & K1 & K2 & _). exists (S k). cbn [firstn flat_map]. split; [|split; [intros X; rewrite (K2 X); reflexivity|lia]].
      rewrite K1. destruct s as [p|]; cbn [app rev]; [|reflexivity]. rewrite <- app_assoc. reflexivity.
Qed.

Definition piece_dec (a b : piece) : {a = b} + {a <> b}. Proof. decide equality; apply Nat.eq_dec. Defined.

Lemma create_whole : forall a b c fails w ok, acquire (create_steps a b c) fails 0 [] = (w, ok) -> w = [] \/ whole w.
Proof.
  intros a b c fails w ok E. destruct (acquire_held _ _ _ _ _ _ E) as (k & -> & _ & _). clear E. rewrite app_nil_r.
  destruct k as [|k]; [left; reflexivity|]. right.
  assert (D : forall l : list piece, (if (forallb (fun p => match p with Packets t n => (t <? 2) && (n =? 0) | Ptable t => t <? 2 | Buckets n => n =? 0 | _ => true end) l
      && existsb (piece_eq Obj) l && (length (nodup piece_dec l) =? length l)) then true else false) = true -> whole l).
  { clear. intros l H. destruct (_ && _) eqn:X in H; [|discriminate]. clear H. apply andb_true_iff in X. destruct X as (X & ND). apply andb_true_iff in X. destruct X as (X & EX).
    rewrite forallb_forall in X. apply existsb_exists in EX. destruct EX as (o & OI & OE). apply piece_eq_iff in OE. subst o.
    split; [|split; [exact OI|split; [|split]]].
    - apply Forall_forall. intros p I. specialize (X p I). destruct p; cbn; try exact I; lia.
    - apply Nat.eqb_eq in ND. eapply NoDup_incl_NoDup; [apply (NoDup_nodup piece_dec l)|rewrite ND; reflexivity|]. intros x I. apply nodup_In in I. exact I.
    - intros t n I. specialize (X _ I). cbn in X. assert (n = 0) by lia. subst n.
      assert (Z1 : In (Packets t 0) (filter (is_packets t) l)) by (apply filter_In; split; [exact I|cbn; apply Nat.eqb_refl]).
      destruct (filter (is_packets t) l); [contradiction|cbn; lia].
    - intros n I. specialize (X _ I). cbn in X. assert (n = 0) by lia. subst n.
      assert (Z1 : In (Buckets 0) (filter is_buckets l)) by (apply filter_In; split; [exact I|reflexivity]).
      destruct (filter is_buckets l); [contradiction|cbn; lia]. }
  destruct a, b, c; unfold create_steps; cbn [app];
    do 16 (try (destruct k as [|k]; [cbn [firstn flat_map app rev]; apply D; vm_compute; reflexivity|]));
    cbn [firstn flat_map app rev]; apply D; vm_compute; reflexivity.
Qed.

Lemma grow_whole : forall held g, whole held -> match g with MorePackets t => t < 2 | _ => True end -> whole (grow held g).
Proof.
  intros held g (P & O & N & B1 & B2) G. destruct g as [t| |]; cbn [grow].
  - split; [constructor; [exact G|exact P]|]. split; [right; exact O|]. split; [|split].
    + constructor; [|exact N]. intros I. apply B1 in I. lia.
    + intros u n [E|I]; cbn [filter is_packets]; [injection E as <- <-; rewrite Nat.eqb_refl; cbn [length]; lia|].
      apply B1 in I. destruct (u =? t); cbn [length]; lia.
    + intros n [E|I]; [discriminate|]. cbn [filter is_buckets]. apply B2, I.
  - split; [constructor; [exact I|exact P]|]. split; [right; exact O|]. split; [|split].
    + constructor; [|exact N]. intros I. apply B2 in I. lia.
    + intros u n [E|I]; [discriminate|]. cbn [filter is_packets]. apply B1, I.
    + intros n [E|I]; cbn [filter is_buckets length]; [injection E as <-; lia|]. apply B2 in I. lia.
  - destruct (existsb is_bsort held) eqn:X; [repeat split; assumption|].
    split; [constructor; [exact I|exact P]|]. split; [right; exact O|]. split; [|split].
    + constructor; [|exact N]. intros I. enough (existsb is_bsort held = true) by congruence. apply existsb_exists. exists Bsort. split; [exact I|reflexivity].
    + intros u n [E|I]; [discriminate|]. cbn [filter is_packets]. apply B1, I.
    + intros n [E|I]; [discriminate|]. cbn [filter is_buckets]. apply B2, I.
Qed.

(** C168: whatever fails while an object of statistics is set up, and whatever it grows by, freeing it gives back each piece once, the object itself last *)
Theorem C168_memory : forall nslots nskips twoway fails held ok gs,
  acquire (create_steps nslots nskips twoway) fails 0 [] = (held, ok) ->
  Forall (fun g => match g with MorePackets t => t < 2 | _ => True end) gs -> (ok = false -> gs = []) ->
  let held := fold_left grow gs held in
  NoDup held /\ Permutation (stats_free held) held /\ (held = [] \/ exists r, stats_free held = r ++ [Obj]).
Proof.
  intros nslots nskips twoway fails held ok gs E G OK. cbv zeta.
  assert (W : (held = [] /\ gs = []) \/ whole held).
  { destruct ok.
    - destruct (create_whole _ _ _ _ _ _ E) as [X|X]; [|right; exact X]. exfalso. subst held.
      destruct (acquire_held _ _ _ _ _ _ E) as (k & K1 & K2 & _). rewrite (K2 eq_refl), app_nil_r in K1.
      destruct nslots, nskips, twoway; discriminate K1.
    - destruct (create_whole _ _ _ _ _ _ E) as [X|X]; [left; split; [exact X|apply OK; reflexivity]|right; exact X]. }
  destruct W as [(-> & ->)|W]; [cbn; split; [constructor|split; [constructor|left; reflexivity]]|].
  assert (W2 : whole (fold_left grow gs held)).
  { clear - W G. revert held W. induction G as [|g gs G1 G2 IH]; intros held W; [exact W|]. cbn [fold_left]. apply IH. apply grow_whole; assumption. }
  generalize dependent (fold_left grow gs held). clear. intros held (P & O & N & _). split; [exact N|]. split; [apply free_perm; assumption|]. right.
  unfold stats_free. destruct held as [|h t]; [contradiction|]. generalize (h :: t). intros l.
  exists (Dostats_Model.give Rn l ++ Dostats_Model.give Rseqno l ++ Dostats_Model.give Bsort l ++ Dostats_Model.give Btable l ++ filter is_buckets l
    ++ Dostats_Model.give (Ptable 0) l ++ filter (is_packets 0) l ++ Dostats_Model.give (Ptable 1) l ++ filter (is_packets 1) l
    ++ Dostats_Model.give Sctx l ++ Dostats_Model.give Skips l ++ Dostats_Model.give Dostats_Model.Slots l).
  rewrite <- !app_assoc. reflexivity.
Qed.

Example C168_case : exists held, acquire (create_steps true false false) (fun n => n =? 9) 0 [] = (held, false) /\ length (stats_free held) = 7 /\
  exists held2, acquire (create_steps true true false) (fun _ => false) 0 [] = (held2, true) /\
    length (stats_free (fold_left grow [MorePackets 0; Sorting; MoreBuckets; Sorting; MorePackets 0] held2)) = 16.
Proof. eexists. split; [reflexivity|]. split; [reflexivity|]. eexists. split; [reflexivity|]. vm_compute. reflexivity. Qed.

(** * Files of do_stats *)

(** an observer: which things exist; a thing is not acquired twice and not given back without having been acquired; a result is only
    made from a closed temporary file; only what was made is named *)
Record seen := Seen { s_stats : bool; s_handle : bool; s_temp : bool; s_linked : list nat; s_named : list nat }.
Definition observe (s : option seen) (e : event) : option seen :=
  match s with
  | None => None
  | Some (Seen a b c l n) =>
    match e with
    | Get Stats => if a then None else Some (Seen true b c l n)
    | Get Handle => if b then None else Some (Seen a true c l n)
    | Get Temp => if c then None else Some (Seen a b true l n)
    | Give Stats => if a then Some (Seen false b c l n) else None
    | Give Handle => if b then Some (Seen a false c l n) else None
    | Give Temp => if c then Some (Seen a b false l n) else None
    | Linked i => if c && negb b then Some (Seen a b c (l ++ [i]) n) else None
    | Named i => if existsb (Nat.eqb i) l then Some (Seen a b c l (n ++ [i])) else None
    end
  end.
Definition replay (es : list event) : option seen := fold_left observe es (Some (Seen false false false [] [])).

Definition results (printfiles : bool) (n : nat) : list nat := if printfiles then seq 0 n else [].

Lemma summaries_seen : forall single pf l i es ok, summaries single pf i l = (es, ok) ->
  (forall k, In k l -> l_open k = true) -> (single = false -> pf = true -> forall k, In k l -> l_parse k = true) ->
  (single = true -> length l = 1) ->
  exists m, m <= length l /\ (ok = true -> m = length l) /\
    fold_left observe es (Some (Seen true false false (results pf i) (results pf i))) =
    Some (Seen ok false false (results pf (i + m)) (results pf (i + m))).
Proof.
  intros single pf l. induction l as [|k l IH]; intros i es ok E A B C; cbn [summaries] in E.
  - injection E as <- <-. exists 0. rewrite Nat.add_0_r. split; [lia|]. split; reflexivity.
  - assert (S1 : results true i ++ [i] = results true (i + 1)) by (unfold results; rewrite seq_app; reflexivity).
    assert (S2 : existsb (Nat.eqb i) (results true (i + 1)) = true) by (apply existsb_exists; exists i; split; [unfold results; apply in_seq; lia|apply Nat.eqb_refl]).
    unfold one_summary in E. rewrite (A k (or_introl eq_refl)) in E. rewrite andb_false_r in E.
    destruct (l_parse k) eqn:LP; cbn [negb] in E.
    + destruct pf; cbn [negb] in E.
      * destruct (l_link k); cbn [negb] in E.
        -- destruct (summaries single true (S i) l) as [es2 b] eqn:E2. injection E as <- <-.
           destruct l as [|k2 l].
           ++ cbn in E2. injection E2 as <- <-. exists 1. split; [cbn; lia|]. split; [reflexivity|].
              cbn [app fold_left observe andb negb]. rewrite S1, S2. reflexivity.
           ++ assert (SF : single = false) by (destruct single; [specialize (C eq_refl); cbn in C; lia|reflexivity]).
              destruct (IH (S i) es2 b E2) as (m & M1 & M2 & M3).
              { intros k' I. apply A. right. exact I. } { intros X Y k' I. apply B; try assumption. right. exact I. } { intros X. congruence. }
              exists (S m). split; [cbn [length] in *; lia|]. split; [intros X; rewrite (M2 X); reflexivity|].
              cbn [app fold_left observe andb negb]. rewrite S1, S2.
              replace (i + 1) with (S i) by lia. rewrite M3. replace (S i + m) with (i + S m) by lia. reflexivity.
        -- injection E as <- <-. exists 0. split; [lia|]. split; [discriminate|]. rewrite Nat.add_0_r. reflexivity.
      * destruct (summaries single false (S i) l) as [es2 b] eqn:E2. injection E as <- <-. cbn [app].
        destruct l as [|k2 l].
        -- cbn in E2. injection E2 as <- <-. exists 1. split; [cbn; lia|]. split; reflexivity.
        -- assert (SF : single = false) by (destruct single; [specialize (C eq_refl); cbn in C; lia|reflexivity]).
           destruct (IH (S i) es2 b E2) as (m & M1 & M2 & M3).
           { intros k' I. apply A. right. exact I. } { intros X Y k' I. apply B; try assumption. right. exact I. } { intros X. congruence. }
           exists (S m). split; [cbn [length] in *; lia|]. split; [intros X; rewrite (M2 X); reflexivity|]. exact M3.
    + injection E as <- <-. exists 0. split; [lia|]. split; [discriminate|]. rewrite Nat.add_0_r.
      destruct pf; [|rewrite andb_false_r; reflexivity]. destruct single; [reflexivity|].
      rewrite (B eq_refl eq_refl k (or_introl eq_refl)) in LP. discriminate.
Qed.

(** C169 (partial: if the temporary files can be opened and, with several samples, all samples can be summarized, nothing is left behind; the
    results named are those made, and after success there is one for each sample; see the refutations) *)
Theorem C169_clean_partial : forall created pf num lucks es ok, do_stats created pf num lucks = (es, ok) ->
  (forall i, l_open (lucks i) = true) -> (num <> 0 -> pf = true -> forall i, l_parse (lucks i) = true) ->
  exists m, replay es = Some (Seen false false false (results pf m) (results pf m)) /\
    m <= Nat.max 1 num /\ (ok = true -> m = Nat.max 1 num).
Proof.
  intros created pf num lucks es ok E A B. unfold do_stats in E. destruct created; cbn [negb] in E.
  2: { injection E as <- <-. exists 0. unfold replay, results. cbn. destruct pf; (split; [reflexivity|split; [lia|discriminate]]). }
  destruct (summaries (num =? 0) pf 0 (map lucks (seq 0 (if num =? 0 then 1 else num)))) as [es1 b] eqn:E1.
  injection E as <- <-.
  destruct (summaries_seen _ _ _ _ _ _ E1) as (m & M1 & M2 & M3).
  { intros k I. apply in_map_iff in I. destruct I as (j & <- & _). apply A. }
  { intros X Y k I. apply in_map_iff in I. destruct I as (j & <- & _). apply B; [|exact Y]. apply Nat.eqb_neq. exact X. }
  { intros X. rewrite X. reflexivity. }
  rewrite map_length, seq_length in M1, M2.
  assert (R0 : results pf 0 = []) by (destruct pf; reflexivity). rewrite R0 in M3. cbn [Nat.add] in M3.
  exists m. split; [|split].
  - unfold replay. cbn [fold_left observe]. rewrite fold_left_app, M3. destruct b; reflexivity.
  - destruct (Nat.eqb_spec num 0); lia.
  - intros X. rewrite (M2 X). destruct (Nat.eqb_spec num 0); lia.
Qed.

(** a temporary file that cannot be opened: the object of statistics is lost *)
Theorem C169_open_refuted : exists num lucks es s, do_stats true true num lucks = (es, false) /\ replay es = Some s /\ s_stats s = true.
Proof. exists 0, (fun _ => Luck false true true). eexists. eexists. split; [reflexivity|]. split; reflexivity. Qed.

(** a sample after the first that cannot be summarized: the file stays open and its temporary name stays in the directory *)
Theorem C169_sample_refuted : exists num lucks es s, do_stats true true num lucks = (es, false) /\ replay es = Some s /\
  s_handle s = true /\ s_temp s = true /\ s_named s = [0].
Proof. exists 3, (fun i => Luck true (i =? 0) true). eexists. eexists. split; [reflexivity|]. repeat split. Qed.

Example C169_case : exists es, do_stats true true 3 (fun i => Luck true true (i <? 2)) = (es, false) /\
  replay es = Some (Seen false false false [0; 1] [0; 1]) /\ snd (do_stats true true 3 (fun _ => Luck true true true)) = true.
Proof. eexists. split; [reflexivity|]. split; reflexivity. Qed.

Print Assumptions C167_same_partial.
Print Assumptions C167_changed_refuted.
Print Assumptions C168_memory.
Print Assumptions C169_clean_partial.
Print Assumptions C169_open_refuted.
Print Assumptions C169_sample_refuted.
