(** Proofs about in-place updates, parsing of records, and completion of session files. *)
From Coq Require Import ZArith List Bool Lia ZifyBool ZifyNat.
From Verif Require Import Base BaseLemmas Time_Model Sched_Model Wire_Model Wire_Spec Wire_Proofs Control_Proofs Control_Integrity File_Model File_Spec File_Proofs.
Import ListNotations.
Open Scope Z_scope.
Ltac Zify.zify_post_hook ::= Z.div_mod_to_equations.

Lemma fwrite_in : forall p b f, (p + length b <= length f)%nat -> fwrite p b f = put p b f.
Proof. intros p b f L. unfold fwrite. replace (p - length f)%nat with 0%nat by lia. cbn [zeros repeat]. now rewrite app_nil_r. Qed.

Lemma fwrite_end : forall b f, fwrite (length f) b f = f ++ b.
Proof.
  intros b f. unfold fwrite. rewrite Nat.sub_diag. cbn [zeros repeat]. rewrite app_nil_r. unfold put.
  rewrite firstn_all, skipn_all2 by lia. now rewrite app_nil_r.
Qed.

Lemma put_changes : forall p b f, (p + length b <= length f)%nat ->
  only_changes f (put p b f) (fun i => (p <= i < p + length b)%nat).
Proof.
  intros p b f L. split; [symmetry; apply put_length; lia|]. intros i N. rewrite nth_error_put by lia.
  destruct (Nat.leb_spec p i); destruct (Nat.ltb_spec i (p + length b)); cbn [andb]; try reflexivity. exfalso. apply N. lia.
Qed.

Lemma changes_trans : forall f g h (P Q : nat -> Prop), only_changes f g P -> only_changes g h Q -> only_changes f h (fun i => P i \/ Q i).
Proof.
  intros f g h P Q (L1 & A) (L2 & B). split; [congruence|]. intros i N. rewrite A by tauto. apply B. tauto.
Qed.
Lemma changes_weaken : forall f g (P Q : nat -> Prop), (forall i, P i -> Q i) -> only_changes f g P -> only_changes f g Q.
Proof. intros f g P Q I (L & A). split; [exact L|]. intros i N. apply A. intros X. apply N. auto. Qed.
Lemma changes_refl : forall f P, only_changes f f P.
Proof. intros. split; auto. Qed.

(** version 3 files *)
Definition v3 (f : list Z) (h : inithdr) : Prop := read_initial f = Some h /\ 3 <= ih_version h.

Lemma v3_inv : forall f h, v3 f h ->
  (40 <= length f)%nat /\ sub 0 4 f = magic /\ (be_dec (sub 4 4 f) = 3 \/ be_dec (sub 4 4 f) = 131) /\
  h = mkIH (be_dec (sub 4 4 f)) (if be_dec (sub 4 4 f) =? 3 then 25 else 50) (off_t (be_dec (sub 32 8 f))) (finished_type (be_dec (sub 8 4 f)))
     (be_dec (sub 12 4 f)) (be_dec (sub 16 4 f)) (be_dec (sub 20 4 f)) (off_t (be_dec (sub 24 8 f))) (off_t (be_dec (sub 32 8 f)))
     (Z.of_nat (length f)) true.
Proof.
  intros f h (R & V).
  assert (X: (40 <= length f)%nat /\ sub 0 4 f = magic /\ (be_dec (sub 4 4 f) = 3 \/ be_dec (sub 4 4 f) = 131)).
  { unfold read_initial in R.
    destruct (Z.ltb_spec (Z.of_nat (length f)) 16); [discriminate|].
    destruct (eqb_octets (sub 0 4 f) magic) eqn:M; [|discriminate]. apply eqb_octets_spec in M. cbn [negb] in R.
    destruct (Z.eqb_spec (be_dec (sub 4 4 f)) 0) as [Z0|Z0]; cbn [orb] in R.
    { rewrite Z0 in R. injection R as <-. cbn [ih_version] in V. lia. }
    destruct (Z.eqb_spec (be_dec (sub 4 4 f)) 2) as [Z2|Z2].
    { destruct (fread 16 4 f); [|discriminate]. injection R as <-. cbn [ih_version] in V. lia. }
    destruct (Z.eqb_spec (be_dec (sub 4 4 f)) 3) as [Z3|Z3]; cbn [orb] in R.
    - unfold fread in R. destruct (Nat.ltb_spec (length f) (0 + 40)); [discriminate|]. repeat split; auto.
    - destruct (Z.eqb_spec (be_dec (sub 4 4 f)) 131) as [Z4|Z4]; [|discriminate].
      unfold fread in R. destruct (Nat.ltb_spec (length f) (0 + 40)); [discriminate|]. repeat split; auto. }
  destruct X as (L & M & VV). split; [exact L|]. split; [exact M|]. split; [exact VV|].
  rewrite (initial_v3 f _ L M eq_refl VV) in R. congruence.
Qed.

Lemma fields_v3 : forall f h, (40 <= length f)%nat -> sub 0 4 f = magic -> (be_dec (sub 4 4 f) = 3 \/ be_dec (sub 4 4 f) = 131) ->
  h = mkIH (be_dec (sub 4 4 f)) (if be_dec (sub 4 4 f) =? 3 then 25 else 50) (off_t (be_dec (sub 32 8 f))) (finished_type (be_dec (sub 8 4 f)))
     (be_dec (sub 12 4 f)) (be_dec (sub 16 4 f)) (be_dec (sub 20 4 f)) (off_t (be_dec (sub 24 8 f))) (off_t (be_dec (sub 32 8 f)))
     (Z.of_nat (length f)) true -> v3 f h.
Proof.
  intros f h L M V ->. split; [apply initial_v3; auto|]. cbn [ih_version]. lia.
Qed.

Ltac plen := rewrite ?be_enc_length; first [lia | rewrite put_length by (rewrite be_enc_length; lia); lia].
Ltac psubs := repeat first
  [ rewrite sub_put_same by plen
  | rewrite sub_put_disjoint by plen ].

Lemma update_one : forall u f h g, v3 f h -> update_ok u -> 0 <= ih_odata h < 2^62 -> update_file u f = Some g ->
  v3 g (update_header u h) /\ only_changes f g (update_octets u).
Proof.
  intros u f h g V OK OB U.
  destruct (v3_inv f h V) as (L & M & VV & HE).
  assert (P32: 2^32 = 4294967296) by reflexivity. assert (P62: 2^62 = 4611686018427387904) by reflexivity. assert (P63: 2^63 = 9223372036854775808) by reflexivity.
  destruct u as [fin next|n|n]; cbn [update_file update_ok update_header update_octets] in *.
  - unfold write_finished in U. destruct (Z.ltb_spec 2 fin); [lia|]. assert (UE := f_equal (fun o => match o with Some x => x | None => [] end) U); cbv beta iota in UE; subst g; clear U.
    rewrite (fwrite_in 8) by (rewrite be_enc_length; lia).
    rewrite fwrite_in by (rewrite put_length by (rewrite be_enc_length; lia); rewrite be_enc_length; lia).
    split.
    + apply fields_v3.
      * rewrite ?put_length by plen. lia.
      * psubs. exact M.
      * psubs. exact VV.
      * psubs. rewrite ?put_length by plen. rewrite !enc_dec32 by (try rewrite P32; lia).
        assert (FT: finished_type fin = fin) by (assert (X: fin = 0 \/ fin = 1 \/ fin = 2) by lia; destruct X as [X|[X|X]]; rewrite X; reflexivity).
        rewrite FT, HE. reflexivity.
    + eapply changes_weaken; [|eapply changes_trans; [apply put_changes|apply put_changes]].
      * cbn beta. rewrite !be_enc_length. intros i X. cbn [update_octets]. lia.
      * rewrite be_enc_length. lia.
      * rewrite put_length; rewrite ?be_enc_length; lia.
  - unfold write_nskips in U. destruct V as (V1 & V2). rewrite V1 in U. destruct (Z.ltb_spec (ih_version h) 3); [lia|].
    destruct (negb (ih_nskip h =? 0) || negb (ih_oskip h =? 0)); [discriminate|]. assert (UE := f_equal (fun o => match o with Some x => x | None => [] end) U); cbv beta iota in UE; subst g; clear U.
    rewrite (fwrite_in 16) by (rewrite be_enc_length; lia).
    rewrite fwrite_in by (rewrite put_length by (rewrite be_enc_length; lia); rewrite be_enc_length; lia).
    split.
    + apply fields_v3.
      * rewrite ?put_length by plen. lia.
      * psubs. exact M.
      * psubs. exact VV.
      * psubs. rewrite ?put_length by plen. rewrite !enc_dec32 by (try rewrite P32; lia).
        rewrite P32. pose proof (Z.mod_pos_bound (ih_recsize h * ih_ndata h) 4294967296 ltac:(lia)) as MB.
        rewrite P62 in OB. generalize dependent ((ih_recsize h * ih_ndata h) mod 4294967296). intros m MB.
        rewrite enc_dec64 by (apply Z.mod_pos_bound; reflexivity). unfold u64. rewrite Z.mod_small by lia. rewrite (off_t_small (ih_odata h + m)) by (rewrite P63; lia).
        rewrite HE. reflexivity.
    + eapply changes_weaken; [|eapply changes_trans; [apply put_changes|apply put_changes]].
      * cbn beta. rewrite !be_enc_length. intros i X. cbn [update_octets]. lia.
      * rewrite be_enc_length. lia.
      * rewrite put_length; rewrite ?be_enc_length; lia.
  - unfold write_ndata in U. destruct V as (V1 & V2). rewrite V1 in U. destruct (Z.ltb_spec (ih_version h) 3); [lia|].
    destruct (ih_odata h <? ih_oskip h); [discriminate|]. assert (UE := f_equal (fun o => match o with Some x => x | None => [] end) U); cbv beta iota in UE; subst g; clear U.
    rewrite fwrite_in by (rewrite be_enc_length; lia).
    split.
    + apply fields_v3.
      * rewrite ?put_length by plen. lia.
      * psubs. exact M.
      * psubs. exact VV.
      * psubs. rewrite ?put_length by plen. rewrite !enc_dec32 by (try rewrite P32; lia).
        rewrite HE. reflexivity.
    + eapply changes_weaken; [|apply put_changes]; [cbn beta; rewrite be_enc_length; intros i X; cbn [update_octets]; lia|rewrite be_enc_length; lia].
Qed.

Lemma update_many : forall us f h g, v3 f h -> Forall update_ok us -> 0 <= ih_odata h < 2^62 -> updates us f = Some g ->
  v3 g (fold_left (fun h u => update_header u h) us h) /\ only_changes f g (fun i => Exists (fun u => update_octets u i) us).
Proof.
  induction us as [|u us IH]; intros f h g V OK OB U; cbn [updates fold_left] in *.
  - injection U as <-. split; [exact V|apply changes_refl].
  - inversion OK; subst. destruct (update_file u f) as [f1|] eqn:U1; [|discriminate].
    destruct (update_one u f h f1 V H1 OB U1) as (V1 & C1).
    destruct (IH f1 (update_header u h) g V1 H2) as (V2 & C2); [destruct u; exact OB|exact U|].
    split; [exact V2|]. eapply changes_weaken; [|eapply changes_trans; [exact C1|exact C2]]. cbn beta. intros i [X|X]; [now constructor 1|now constructor 2].
Qed.

(** ** Parsing *)
Lemma readable_exists : forall R (dec : list Z -> option R) f len n pos, exists l, readable dec f pos len n l.
Proof.
  intros R dec f len. induction n as [|n IH]; intros pos.
  - exists []. repeat split; cbn; intros; try lia. destruct i; discriminate. destruct i; discriminate.
  - destruct (Nat.ltb_spec (length f) (pos + len)) as [SH|SH].
    { exists []. split; [cbn; lia|]. split; [intros i r E; destruct i; discriminate|]. intros _. left. cbn. lia. }
    destruct (dec (octs_at f pos len)) as [r|] eqn:D.
    + destruct (IH (pos + len)%nat) as (l & L1 & L2 & L3). exists (r :: l). split; [cbn; lia|]. split.
      * intros [|i] r' E; cbn in E.
        -- injection E as <-. split; [lia|]. unfold nth_record. replace (pos + len * 0)%nat with pos by lia. exact D.
        -- destruct (L2 i r' E) as (X & Y). split; [lia|]. unfold nth_record in *. replace (pos + len * S i)%nat with (pos + len + len * i)%nat by lia. exact Y.
      * cbn [length]. intros X. destruct (L3 ltac:(lia)) as [Y|Y]; [left; lia|right].
        unfold nth_record in *. replace (pos + len * S (length l))%nat with (pos + len + len * length l)%nat by lia. exact Y.
    + exists []. split; [cbn; lia|]. split; [intros i r E; destruct i; discriminate|]. intros _. right. cbn. unfold nth_record.
      replace (pos + len * 0)%nat with pos by lia. exact D.
Qed.

Lemma readable_tail : forall R (dec : list Z -> option R) f len n pos r l, readable dec f pos len (S n) (r :: l) ->
  (pos + len <= length f)%nat /\ dec (octs_at f pos len) = Some r /\ readable dec f (pos + len) len n l.
Proof.
  intros R dec f len n pos r l (L1 & L2 & L3). cbn [length] in *.
  destruct (L2 0%nat r eq_refl) as (A & B). unfold nth_record in B. replace (pos + len * 0)%nat with pos in B by lia.
  split; [lia|]. split; [exact B|]. split; [lia|]. split.
  - intros i r' E. destruct (L2 (S i) r' E) as (X & Y). split; [lia|]. unfold nth_record in *. replace (pos + len + len * i)%nat with (pos + len * S i)%nat by lia. exact Y.
  - intros X. destruct (L3 ltac:(lia)) as [Y|Y]; [left; lia|right]. unfold nth_record in *. replace (pos + len + len * length l)%nat with (pos + len * S (length l))%nat by lia. exact Y.
Qed.

Lemma parse_visit : forall R St (proc : R -> St -> Z * St) dec f len n pos l s, readable dec f pos len n l ->
  let '(v, rc, s') := visit proc l s in
  parse_loop R St proc dec len pos n f s = ((if rc =? 0 then (length l =? n)%nat else 0 <=? rc), s').
Proof.
  intros R St proc dec f len. induction n as [|n IH]; intros pos l s RD.
  - destruct RD as (L & _). destruct l; [|cbn in L; lia]. reflexivity.
  - destruct l as [|r l].
    + destruct RD as (_ & _ & L). destruct (L ltac:(cbn; lia)) as [X|X]; cbn [visit parse_loop].
      * unfold fread. destruct (Nat.ltb_spec (length f) (pos + len)); [reflexivity|cbn in X; lia].
      * unfold fread. destruct (Nat.ltb_spec (length f) (pos + len)); [reflexivity|]. unfold nth_record in X. cbn [length] in X.
        replace (pos + len * 0)%nat with pos in X by lia. change (octs_at f pos len) with (sub pos len f) in X. rewrite X. reflexivity.
    + destruct (readable_tail R dec f len n pos r l RD) as (A & B & C). cbn [visit parse_loop]. unfold fread.
      destruct (Nat.ltb_spec (length f) (pos + len)); [lia|]. change (sub pos len f) with (octs_at f pos len). rewrite B.
      destruct (proc r s) as [rc s1]. destruct (Z.eqb_spec rc 0) as [Z0|Z0].
      * specialize (IH (pos + len)%nat l s1 C). destruct (visit proc l s1) as [[v rc'] s2]. rewrite IH. reflexivity.
      * destruct (Z.eqb_spec rc 0); [contradiction|]. reflexivity.
Qed.

Lemma visit_prefix : forall R St (proc : R -> St -> Z * St) l s v rc s', visit proc l s = (v, rc, s') ->
  exists rest, l = v ++ rest /\ (rc = 0 -> rest = []).
Proof.
  induction l as [|r l IH]; intros s v rc s' E; cbn [visit] in E.
  - injection E as <- <- <-. exists []. auto.
  - destruct (proc r s) as [c s1]. destruct (Z.eqb_spec c 0) as [Z0|Z0].
    + destruct (visit proc l s1) as [[v1 rc1] s2] eqn:V. injection E as <- <- <-. destruct (IH _ _ _ _ V) as (rest & -> & RR). exists rest. auto.
    + injection E as <- <- <-. exists l. split; [reflexivity|]. intros; congruence.
Qed.

(** ** Completion *)
Definition skip_ok (s : skiprec) : Prop := 0 <= sk_begin s < 2^32 /\ 0 <= sk_end s < 2^32.
Definition skips_octets (l : list skiprec) : list Z := concat (map encode_skip l).

Lemma skips_len : forall l, length (skips_octets l) = (8 * length l)%nat.
Proof. induction l as [|s l IH]; cbn [skips_octets map concat length]; [reflexivity|]. unfold skips_octets in IH. rewrite app_length, IH. unfold encode_skip. rewrite app_length, !be_enc_length. lia. Qed.

Lemma skip_writes_end : forall l f, do_writes (skip_writes (length f) l) f = f ++ skips_octets l.
Proof.
  induction l as [|s l IH]; intros f; cbn [skip_writes do_writes fold_left]; [unfold skips_octets; cbn; now rewrite app_nil_r|].
  cbn [fst snd]. rewrite fwrite_end. unfold do_writes in IH. assert (L8: length (encode_skip s) = 8%nat) by (unfold encode_skip; rewrite app_length, !be_enc_length; reflexivity).
  replace (length f + 8)%nat with (length (f ++ encode_skip s)) by (rewrite app_length; lia). rewrite IH. unfold skips_octets. cbn [map concat]. now rewrite <- app_assoc.
Qed.

Lemma decode_skips_octets : forall l pre post, Forall skip_ok l -> decode_skips (length pre) (length l) (pre ++ skips_octets l ++ post) = Some l.
Proof.
  induction l as [|s l IH]; intros pre post F; cbn [decode_skips length]; [reflexivity|].
  inversion F; subst. destruct H1 as (A & B). destruct (skip_roundtrip s A B) as ((L & _) & D).
  unfold fread. change (skips_octets (s :: l)) with (encode_skip s ++ skips_octets l). rewrite <- app_assoc.
  destruct (Nat.ltb_spec (length (pre ++ encode_skip s ++ skips_octets l ++ post)) (length pre + 8)) as [X|X]; [rewrite !app_length in X; lia|].
  rewrite sub_app_r by lia. rewrite Nat.sub_diag, sub_whole by exact L. rewrite D.
  specialize (IH (pre ++ encode_skip s) post H2). rewrite app_length, L, <- app_assoc in IH. rewrite IH. reflexivity.
Qed.

(** what OWPReadDataHeader makes of a one-way version 3 file *)
Lemma read_header_v3 : forall g p od fin, (152 <= length g)%nat -> sub 0 4 g = magic -> be_dec (sub 4 4 g) = 3 ->
  be_dec (sub 32 8 g) = od -> 0 <= od < 2^62 -> od <= Z.of_nat (length g) ->
  decode_preamble false (sub 40 112 g) 112 false 28 = PreOK p ->
  be_dec (sub 8 4 g) = fin -> (fin = 0 \/ fin = 1 \/ fin = 2) ->
  let fits := (Z.of_nat (length g) - od) / 25 in
  be_dec (sub 20 4 g) <= fits < 2^32 ->
  exists h', read_header g = Some (h', od) /\ hd_odata h' = od /\ hd_finished h' = fin /\ hd_next h' = be_dec (sub 12 4 g) /\
    hd_nskip h' = be_dec (sub 16 4 g) /\ hd_oskip h' = off_t (be_dec (sub 24 8 g)) /\
    hd_ndata h' = if fin =? 1 then be_dec (sub 20 4 g) else fits.
Proof.
  intros g p od fin L M V O OB OL P F FB fits FT.
  pose proof (initial_v3 g 3 ltac:(lia) M V (or_introl eq_refl)) as RI. rewrite O, F in RI.
  rewrite (off_t_small od) in RI by (change (2^62) with 4611686018427387904 in OB; change (2^63) with 9223372036854775808; lia).
  assert (FIN: finished_type fin = fin) by (destruct FB as [X|[X|X]]; rewrite X; reflexivity). rewrite FIN in RI.
  change (if 3 =? 3 then 25 else 50) with 25 in RI.
  unfold read_header. rewrite RI. cbn [ih_version ih_recsize ih_hdrlen ih_finished ih_next ih_nskip ih_ndata ih_oskip ih_odata ih_size ih_header].
  change (2 <=? 3) with true. change (3 =? 2) with false. cbv iota.
  assert (FR: fread 40 112 g = Some (sub 40 112 g)) by (unfold fread; destruct (Nat.ltb_spec (length g) (40 + 112)); [lia|reflexivity]).
  rewrite FR, decode_preamble_socklen, P.
  destruct (Z.ltb_spec od 0); [lia|]. rewrite Z.quot_div_nonneg by lia. fold fits.
  destruct (Z.ltb_spec fits (be_dec (sub 20 4 g))); [lia|].
  change (negb (Z.land 3 128 =? 0)) with false. rewrite orb_false_r. unfold FIN_NORMAL.
  assert (U: u32 fits = fits) by (apply Z.mod_small; change (2^32) with 4294967296 in FT; split; [apply Z.div_pos; lia|lia]). rewrite U.
  eexists. split; [reflexivity|]. cbn [hd_odata hd_finished hd_next hd_nskip hd_oskip hd_ndata].
  repeat match goal with |- _ /\ _ => split end; try reflexivity. destruct (fin =? 1); reflexivity.
Qed.

Section Complete.
Variable f : list Z.
Variable odata ndata next : Z.
Variable skips : list skiprec.
Hypothesis CL : cleaned f odata ndata.
Hypothesis ND : 25 * ndata < 2^32.
Hypothesis NX : 0 <= next < 2^32.
Hypothesis SO : Forall skip_ok skips.
Hypothesis SN : Z.of_nat (length skips) < 2^28.

Let h := mkIH 3 25 odata 2 (be_dec (sub 12 4 f)) 0 ndata 0 odata (Z.of_nat (length f)) true.
Let ws := completion_writes h next skips.

Lemma cleaned_v3 : v3 f h.
Proof.
  destruct CL as (M & V & F & K & N & O & OD & OB & L & NB & p & P). rewrite field_be in *.
  pose proof (initial_v3 f 3 ltac:(lia) M V (or_introl eq_refl)) as RI. rewrite OD, O, K, N, F in RI.
  rewrite (off_t_small odata) in RI by (change (2^62) with 4611686018427387904 in OB; change (2^63) with 9223372036854775808; lia).
  split; [exact RI|unfold h; cbn [ih_version]; lia].
Qed.

Lemma off_is : odata + (ndata * 25) mod M32 = Z.of_nat (length f).
Proof.
  destruct CL as (M & V & F & K & N & O & OD & OB & L & NB & p & P). change (2^32) with 4294967296 in *. rewrite Z.mod_small by lia. lia.
Qed.

Lemma do_app : forall a b g, do_writes (a ++ b) g = do_writes b (do_writes a g).
Proof. intros. apply fold_left_app. Qed.

Lemma skip_writes_firstn : forall k l pos, firstn k (skip_writes pos l) = skip_writes pos (firstn k l).
Proof. induction k; intros [|s l] pos; cbn [firstn skip_writes]; try reflexivity. now rewrite IHk. Qed.
Lemma skip_writes_len : forall l pos, length (skip_writes pos l) = length l.
Proof. induction l; intros; cbn [skip_writes length]; auto. Qed.

(** header fields after the first [j] of the four header writes *)
Definition hdr_writes : list (nat * list Z) :=
  [(16%nat, be_enc 4 (Z.of_nat (length skips))); (24%nat, be_enc 8 (u64 (Z.of_nat (length f)))); (8%nat, be_enc 4 FIN_NORMAL); (12%nat, be_enc 4 next)].

Lemma ws_shape : ws = skip_writes (length f) skips ++ hdr_writes.
Proof.
  unfold ws, completion_writes. cbn [ih_odata ih_ndata ih_recsize h]. rewrite off_is, Nat2Z.id. reflexivity.
Qed.

Lemma prefix_shape : forall k, do_writes (firstn k ws) f = do_writes (firstn (k - length skips) hdr_writes) (f ++ skips_octets (firstn k skips)).
Proof.
  intros k. rewrite ws_shape, firstn_app, do_app, skip_writes_len, skip_writes_firstn, skip_writes_end. reflexivity.
Qed.

Lemma hdr_prefix : forall j g, (40 <= length g)%nat -> let g' := do_writes (firstn j hdr_writes) g in
  length g' = length g /\ (forall o l, (o + l <= 8 \/ 32 <= o)%nat -> sub o l g' = sub o l g) /\ sub 20 4 g' = sub 20 4 g /\
  sub 8 4 g' = (if (j <=? 2)%nat then sub 8 4 g else be_enc 4 FIN_NORMAL) /\
  ((4 <= j)%nat -> sub 12 4 g' = be_enc 4 next /\ sub 16 4 g' = be_enc 4 (Z.of_nat (length skips)) /\ sub 24 8 g' = be_enc 8 (u64 (Z.of_nat (length f)))).
Proof.
  intros j g L g'. unfold g', hdr_writes.
  generalize (be_enc_length 4 (Z.of_nat (length skips))). generalize (be_enc 4 (Z.of_nat (length skips))). intros A LA.
  generalize (be_enc_length 8 (u64 (Z.of_nat (length f)))). generalize (be_enc 8 (u64 (Z.of_nat (length f)))). intros B LB.
  generalize (be_enc_length 4 FIN_NORMAL). generalize (be_enc 4 FIN_NORMAL). intros C LC.
  generalize (be_enc_length 4 next). generalize (be_enc 4 next). intros X LX.
  assert (P1: fwrite 16 A g = put 16 A g) by (apply fwrite_in; lia). set (g1 := put 16 A g) in *. assert (L1: length g1 = length g) by (apply put_length; lia).
  assert (P2: fwrite 24 B g1 = put 24 B g1) by (apply fwrite_in; lia). set (g2 := put 24 B g1) in *. assert (L2: length g2 = length g) by (unfold g2; rewrite put_length; lia).
  assert (P3: fwrite 8 C g2 = put 8 C g2) by (apply fwrite_in; lia). set (g3 := put 8 C g2) in *. assert (L3: length g3 = length g) by (unfold g3; rewrite put_length; lia).
  assert (P4: fwrite 12 X g3 = put 12 X g3) by (apply fwrite_in; lia). set (g4 := put 12 X g3) in *. assert (L4: length g4 = length g) by (unfold g4; rewrite put_length; lia).
  assert (S1: forall o l, (o + l <= 16 \/ 20 <= o)%nat -> sub o l g1 = sub o l g) by (intros; apply sub_put_disjoint; lia).
  assert (S2: forall o l, (o + l <= 24 \/ 32 <= o)%nat -> sub o l g2 = sub o l g1) by (intros; apply sub_put_disjoint; lia).
  assert (S3: forall o l, (o + l <= 8 \/ 12 <= o)%nat -> sub o l g3 = sub o l g2) by (intros; apply sub_put_disjoint; lia).
  assert (S4: forall o l, (o + l <= 12 \/ 16 <= o)%nat -> sub o l g4 = sub o l g3) by (intros; apply sub_put_disjoint; lia).
  assert (T1: sub 16 4 g1 = A) by (apply sub_put_same; lia). assert (T2: sub 24 8 g2 = B) by (apply sub_put_same; lia).
  assert (T3: sub 8 4 g3 = C) by (apply sub_put_same; lia). assert (T4: sub 12 4 g4 = X) by (apply sub_put_same; lia).
  do 4 (destruct j as [|j]; [unfold do_writes; cbn [firstn fold_left fst snd]; rewrite ?P1, ?P2, ?P3, ?P4;
    split; [lia|]; split; [intros; rewrite ?S4, ?S3, ?S2, ?S1 by lia; reflexivity|]; split; [rewrite ?S4, ?S3, ?S2, ?S1 by lia; reflexivity|];
    split; [cbn [Nat.leb]; rewrite ?T3, ?S4, ?S3, ?S2, ?S1 by lia; reflexivity|intros; lia]|]).
  unfold do_writes. destruct j; cbn [firstn fold_left fst snd]; rewrite P1, P2, P3, P4;
    (split; [lia|]; split; [intros; rewrite S4, S3, S2, S1 by lia; reflexivity|]; split; [rewrite S4, S3, S2, S1 by lia; reflexivity|];
    split; [cbn [Nat.leb]; rewrite S4 by lia; exact T3|intros; split; [exact T4|split; [rewrite S4, S3, S2 by lia; exact T1|rewrite S4, S3 by lia; exact T2]]]).
Qed.

Lemma crash_header : forall k, let g := do_writes (firstn k ws) f in
  exists h', read_header g = Some (h', odata) /\
    hd_ndata h' = (if (length skips + 3 <=? k)%nat then ndata else ndata + 8 * Z.of_nat (Nat.min k (length skips)) / 25) /\
    (forall o l, (32 <= o)%nat -> (o + l <= length f)%nat -> sub o l g = sub o l f).
Proof.
  intros k g. unfold g. rewrite prefix_shape. set (e := f ++ skips_octets (firstn k skips)).
  pose proof CL as (M & V & F & K & N & O & OD & OB & L & NB & p & P). rewrite field_be in *.
  assert (LE: length e = (length f + 8 * Nat.min k (length skips))%nat) by (unfold e; rewrite app_length, skips_len, firstn_length; reflexivity).
  assert (EF: forall o l, (o + l <= length f)%nat -> sub o l e = sub o l f) by (intros; unfold e; apply sub_app_l; lia).
  destruct (hdr_prefix (k - length skips) e ltac:(lia)) as (H1 & H2 & H3 & H4 & H5). set (g' := do_writes (firstn (k - length skips) hdr_writes) e) in *.
  change (2^62) with 4611686018427387904 in OB. change (2^32) with 4294967296 in *. change (2^28) with 268435456 in SN.
  set (fin := if (k - length skips <=? 2)%nat then 2 else 1).
  destruct (read_header_v3 g' p odata fin) as (h' & R1 & R2 & R3 & R4 & R5 & R6 & R7).
  - lia.
  - rewrite H2 by lia. rewrite EF by lia. exact M.
  - rewrite H2 by lia. rewrite EF by lia. exact V.
  - rewrite H2 by lia. rewrite EF by lia. exact OD.
  - change (2^62) with 4611686018427387904. lia.
  - lia.
  - rewrite H2 by lia. rewrite EF by lia. exact P.
  - rewrite H4. unfold fin. destruct (Nat.leb_spec (k - length skips) 2); [rewrite EF by lia; exact F|reflexivity].
  - unfold fin. destruct (Nat.leb_spec (k - length skips) 2); lia.
  - rewrite H3, EF by lia. rewrite N, H1, LE. change (2^32) with 4294967296. lia.
  - exists h'. split; [exact R1|]. split; [|intros; rewrite H2 by lia; apply EF; lia].
    rewrite R7, H3, EF by lia. rewrite N, H1, LE. unfold fin.
    destruct (Nat.leb_spec (k - length skips) 2) as [X|X]; destruct (Nat.leb_spec (length skips + 3) k); try lia; cbn [Z.eqb Pos.eqb].
    + clear - L NB. lia.
    + reflexivity.
Qed.

Lemma complete_is_writes : complete_session next skips f = Some (do_writes ws f).
Proof.
  unfold complete_session. destruct cleaned_v3 as (RI & _). rewrite RI. cbn [ih_odata ih_ndata ih_recsize h]. rewrite off_is.
  destruct (Z.ltb_spec (Z.of_nat (length f)) 0); [lia|]. rewrite andb_false_r. rewrite Nat2Z.id, skip_writes_end, ws_shape, do_app, skip_writes_end.
  pose proof CL as (M & V & F & K & N & O & OD & OB & L & NB & p & P). rewrite field_be in *.
  set (e := f ++ skips_octets skips). assert (LE: (length f <= length e)%nat) by (unfold e; rewrite app_length; lia).
  assert (EF: forall o l, (o + l <= length f)%nat -> sub o l e = sub o l f) by (intros; unfold e; apply sub_app_l; lia).
  assert (RE: read_initial e = Some (mkIH 3 25 odata 2 (be_dec (sub 12 4 f)) 0 ndata 0 odata (Z.of_nat (length e)) true)).
  { rewrite (initial_v3 e 3) by (try rewrite !EF by lia; auto; lia). rewrite !EF by lia. rewrite OD, O, K, N, F.
    rewrite (off_t_small odata) by (change (2^62) with 4611686018427387904 in OB; change (2^63) with 9223372036854775808; lia). reflexivity. }
  unfold write_nskips. rewrite RE. cbn [ih_version ih_nskip ih_oskip ih_odata ih_recsize ih_ndata Z.ltb Z.compare Pos.compare Pos.compare_cont Z.eqb negb orb].
  replace (25 * ndata) with (ndata * 25) by lia. rewrite off_is. unfold write_finished. change (2 <? FIN_NORMAL) with false. cbv iota. reflexivity.
Qed.

Lemma completed : exists g, complete_session next skips f = Some g /\
  (exists h', read_header g = Some (h', odata) /\ hd_ndata h' = ndata /\ hd_finished h' = 1 /\ hd_next h' = next /\ hd_nskip h' = Z.of_nat (length skips)) /\
  read_data_skips (Z.of_nat (length skips)) g = Some skips /\
  (forall o l, (32 <= o)%nat -> (o + l <= length f)%nat -> sub o l g = sub o l f).
Proof.
  exists (do_writes ws f). split; [apply complete_is_writes|].
  assert (FA: firstn (length skips + 4) ws = ws) by (apply firstn_all2; rewrite ws_shape, app_length, skip_writes_len; cbn; lia).
  pose proof (prefix_shape (length skips + 4)) as PS. rewrite FA in PS. rewrite PS.
  rewrite (firstn_all2 skips) by lia. set (e := f ++ skips_octets skips).
  pose proof CL as (M & V & F & K & N & O & OD & OB & L & NB & p & P). rewrite field_be in *.
  assert (LE: length e = (length f + 8 * length skips)%nat) by (unfold e; rewrite app_length, skips_len; reflexivity).
  assert (EF: forall o l, (o + l <= length f)%nat -> sub o l e = sub o l f) by (intros; unfold e; apply sub_app_l; lia).
  replace (length skips + 4 - length skips)%nat with 4%nat by lia.
  destruct (hdr_prefix 4 e ltac:(lia)) as (H1 & H2 & H3 & H4 & H5). set (g' := do_writes (firstn 4 hdr_writes) e) in *.
  destruct (H5 ltac:(lia)) as (H6 & H7 & H8). cbn [Nat.leb] in H4.
  change (2^62) with 4611686018427387904 in OB. change (2^32) with 4294967296 in *. change (2^28) with 268435456 in SN.
  assert (M': sub 0 4 g' = magic) by (rewrite H2 by lia; rewrite EF by lia; exact M).
  assert (V': be_dec (sub 4 4 g') = 3) by (rewrite H2 by lia; rewrite EF by lia; exact V).
  assert (OD': be_dec (sub 32 8 g') = odata) by (rewrite H2 by lia; rewrite EF by lia; exact OD).
  assert (UL: be_dec (be_enc 8 (u64 (Z.of_nat (length f)))) = Z.of_nat (length f)) by (rewrite enc_dec64 by (apply Z.mod_pos_bound; reflexivity); apply Z.mod_small; lia).
  split; [|split].
  - destruct (read_header_v3 g' p odata 1) as (h' & R1 & R2 & R3 & R4 & R5 & R6 & R7); try assumption.
    + lia.
    + change (2^62) with 4611686018427387904; lia.
    + lia.
    + rewrite H2 by lia. rewrite EF by lia. exact P.
    + rewrite H4. reflexivity.
    + lia.
    + rewrite H3, EF by lia. rewrite N, H1, LE. change (2^32) with 4294967296. lia.
    + exists h'. split; [exact R1|]. rewrite R7, R4, R5, H3, H6, H7. rewrite EF by lia. rewrite !enc_dec32 by (change (2^32) with 4294967296; lia). cbn [Z.eqb Pos.eqb]. rewrite N. auto.
  - unfold read_data_skips. rewrite (initial_v3 g' 3 ltac:(lia) M' V' (or_introl eq_refl)). cbn [ih_version ih_nskip ih_oskip Z.ltb Z.compare Pos.compare Pos.compare_cont].
    rewrite H7, H8, enc_dec32, UL by (change (2^32) with 4294967296; lia). rewrite Z.eqb_refl. cbn [negb].
    rewrite off_t_small by (change (2^63) with 9223372036854775808; lia). destruct (Z.ltb_spec (Z.of_nat (length f)) 0); [lia|]. rewrite !Nat2Z.id.
    assert (G: g' = firstn (length f) g' ++ skips_octets skips ++ []).
    { rewrite app_nil_r. rewrite <- (firstn_skipn (length f) g') at 1. f_equal.
      assert (X: sub (length f) (8 * length skips) g' = skips_octets skips).
      { rewrite H2 by lia. unfold e. rewrite sub_app_r by lia. rewrite Nat.sub_diag. apply sub_all, skips_len. }
      rewrite <- X. unfold sub. rewrite firstn_all2; [reflexivity|]. rewrite skipn_length. lia. }
    rewrite G. assert (LF: length (firstn (length f) g') = length f) by (rewrite firstn_length; lia).
    rewrite <- LF at 1. apply decode_skips_octets. exact SO.
  - intros o l A B. rewrite H2 by lia. apply EF. lia.
Qed.
End Complete.

(** ** Disk space *)
Lemma diskspace_enough : forall junk h slots f, octet_string 112 junk -> header_ok h slots -> hd_twoway h = false ->
  Z.of_nat (length slots) + 1 < 2^28 -> 25 * ts_npackets (hd_spec h) < 2^32 -> write_header junk h = Some f ->
  Z.of_nat (length f) + 25 * ts_npackets (hd_spec h) <= test_diskspace (hd_spec h).
Proof.
  intros junk h slots f J HO TW NS NP W.
  destruct (write_header_shape junk h slots f J HO W) as (pre & sl & (PL & PO) & SLL & SLO & SLD & PD & FE). cbv zeta in FE.
  destruct HO as (S1 & R1 & F & F' & SID & T & NP1 & SL & SLK & NS0 & NSE & C & N1 & N2 & N3).
  assert (FL: length f = (152 + 16 * (length slots + 1))%nat).
  { rewrite FE, !app_length, !be_enc_length, PL, SLL, zeros_length. cbn [length magic]. lia. }
  unfold test_diskspace. rewrite NSE. unfold u64. change (2^28) with 268435456 in NS. change (2^32) with 4294967296 in NP.
  rewrite (Z.mod_small (Z.of_nat (length slots) + 1)) by lia. rewrite (Z.mod_small (16 * _)) by lia. rewrite (Z.mod_small (_ * 25)) by lia.
  rewrite Z.mod_small by lia. lia.
Qed.

(** ** A schedule of 2^28-1 slots *)
Lemma huge_schedule : forall junk h slots f, octet_string 112 junk -> header_ok h slots -> hd_twoway h = false -> hd_nskip h = 0 -> hd_ndata h = 0 ->
  hd_finished h = 2 -> Z.of_nat (length slots) = 2^28 - 1 -> write_header junk h = Some f ->
  exists h', read_header f = Some (h', 152) /\ hd_odata h' = 152 /\ hd_ndata h' = 171798691.
Proof.
  intros junk h slots f J HO TW NK ND FI NS W.
  destruct (write_header_shape junk h slots f J HO W) as (pre & sl & (PL & PO) & SLL & SLO & SLD & PD & FE). cbv zeta in FE.
  destruct HO as (S1 & R1 & F & F' & SID & T & NP1 & SL & SLK & NS0 & NSE & C & N1 & N2 & N3).
  rewrite TW, NK, ND, FI, NS in FE. change (152 + (16 * ((2 ^ 28 - 1 + 1) mod M32)) mod M32) with 152 in FE.
  cbn [Z.eqb negb orb] in FE. change (Z.eqb 2 1) with false in FE. cbv iota in FE. change (2^28 - 1) with 268435455 in NS.
  assert (FL: Z.of_nat (length f) = 152 + 16 * (268435455 + 1)).
  { rewrite FE, !app_length, !be_enc_length, PL, SLL, zeros_length. cbn [length magic]. lia. }
  assert (NX: 0 <= hd_next h < 4294967296) by exact N1. clear - FE FL PL PD NX. unfold magic in FE.
  destruct (read_header_v3 f (mkPre (match sa_family (hd_sender h) with AF_INET6 => 6 | _ => 4 end) (hd_sender h) (hd_receiver h)
        (if hd_twoway h then true else hd_csender h) (hd_creceiver h) (hd_sid h)
        (ts_nslots (hd_spec h)) (ts_npackets (hd_spec h)) (ts_padding (hd_spec h)) (ts_start (hd_spec h)) (ts_timeout (hd_spec h)) (ts_typeP (hd_spec h))) 152 2) as (h' & R1 & R2 & R3 & R4 & R5 & R6 & R7).
  - lia.
  - rewrite FE. reflexivity.
  - rewrite FE. fieldat. reflexivity.
  - rewrite FE. fieldat. reflexivity.
  - lia.
  - lia.
  - rewrite <- PD. f_equal. rewrite FE. seek. rewrite sub_app_l by lia. apply sub_all. exact PL.
  - rewrite FE. fieldat. reflexivity.
  - lia.
  - assert (Z0: be_dec (sub 20 4 f) = 0) by (rewrite FE; fieldat; reflexivity). rewrite Z0, FL. change (2^32) with 4294967296. lia.
  - exists h'. split; [exact R1|]. split; [exact R2|]. rewrite R7, FL. reflexivity.
Qed.

(** a proper header can be written *)
Lemma write_header_some : forall junk h slots, header_ok h slots -> exists f, write_header junk h = Some f.
Proof.
  intros junk h slots (S1 & R1 & F & F' & SID & T & NP1 & SL & SLK & NS0 & NSE & C & N1 & N2 & N3).
  unfold write_header.
  destruct (proj2 (encode_preamble_accepts junk 112 (hd_sender h) (hd_receiver h) (if hd_twoway h then true else hd_csender h) (hd_creceiver h) false false
    (Some (hd_sid h)) (hd_spec h))) as (m & M).
  { split; [lia|]. split; [exact F|]. split; [exact F'|]. intros _. split; [destruct (hd_twoway h); auto|]. split; [exact NP1|]. split; [exact NS0|]. rewrite SL. discriminate. }
  rewrite M, SL, NSE, Nat2Z.id, firstn_all. destruct (encode_slots_ok slots SLK) as (b & B & _). rewrite B. eexists. reflexivity.
Qed.
