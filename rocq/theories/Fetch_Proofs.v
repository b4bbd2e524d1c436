(** Proofs about fetching sessions: what the server makes of a session file. *)
From Coq Require Import ZArith List Bool Lia ZifyBool ZifyNat Arith.
From Verif Require Import Base BaseLemmas Time_Model Time_Proofs Sched_Model Wire_Model Wire_Spec Wire_Proofs Control_Model File_Model File_Spec File_Proofs File_Updates
  Server_Model Fetch_Model Fetch_Spec.
Import ListNotations.
Open Scope Z_scope.
Ltac Zify.zify_post_hook ::= Z.div_mod_to_equations.

Lemma be_field : forall o n l, be_dec (sub o n l) = field l o n.
Proof. intros. unfold field, octs_at, sub. symmetry. apply number_be. Qed.

(** ** getting hold of a settled file *)
Definition adjusted (h : inithdr) : inithdr :=
  mkIH (ih_version h) (ih_recsize h) (ih_hdrlen h) (ih_finished h) (ih_next h) (ih_nskip h)
    (if ih_ndata h =? 0 then u32 (Z.quot (ih_size h - ih_odata h) (ih_recsize h)) else ih_ndata h)
    (ih_oskip h) (ih_odata h) (ih_size h) (ih_header h).

Lemma settle_ok : forall fuel i lt ft tries b e g h, settle fuel i lt ft tries b e = Settled g h ->
  exists k, (i <= k)%nat /\
   ((fst (tries k) = g /\ read_initial g = Some h /\ ih_version h = 3 /\ ih_finished h = FIN_NORMAL) \/
    (snd (tries k) = Locked g /\ exists h0, read_initial g = Some h0 /\ h = adjusted h0 /\
       (b = 0 -> e = 4294967295 -> ih_finished h0 = FIN_NORMAL))).
Proof.
  induction fuel as [|fuel IH]; intros i lt ft tries b e g h X; cbn [settle] in X; [discriminate|].
  destruct (tries i) as [f lk] eqn:T. destruct (read_initial f) as [h1|] eqn:R; [|discriminate].
  destruct (Z.eqb_spec (ih_version h1) 3) as [V|V]; cbn [negb] in X; [|discriminate].
  destruct (ih_finished h1 =? FIN_ERROR); [discriminate|].
  destruct (Z.eqb_spec (ih_finished h1) FIN_NORMAL) as [N|N].
  - inversion X; subst. exists i. split; [lia|]. left. rewrite T. auto.
  - destruct lk as [g1| |]; [| |discriminate].
    + destruct (read_initial g1) as [h2|] eqn:R2; [|discriminate].
      destruct ((b =? 0) && (e =? 4294967295) && negb (ih_finished h2 =? FIN_NORMAL)) eqn:C.
      * destruct (4 <? ft)%nat; [discriminate|]. destruct (IH _ _ _ _ _ _ _ _ X) as (k & K1 & K2). exists k. split; [lia|exact K2].
      * inversion X; subst g h. exists i. split; [lia|]. right. rewrite T. split; [reflexivity|]. exists h2. split; [exact R2|]. split; [reflexivity|].
        intros -> ->. destruct (Z.eqb_spec (ih_finished h2) FIN_NORMAL); [assumption|]. discriminate C.
    + destruct (4 <? lt)%nat; [discriminate|]. destruct (IH _ _ _ _ _ _ _ _ X) as (k & K1 & K2). exists k. split; [lia|exact K2].
Qed.

Lemma settle_ends_gen : forall fuel i lt ft tries b e, (lt <= 5)%nat -> (ft <= 5)%nat -> (11 <= fuel + lt + ft)%nat -> settle fuel i lt ft tries b e <> Endless.
Proof.
  induction fuel as [|fuel IH]; intros i lt ft tries b e A B C; [lia|]. cbn [settle].
  destruct (tries i) as [f lk]. destruct (read_initial f) as [h1|]; [|discriminate].
  destruct (negb (ih_version h1 =? 3)); [discriminate|]. destruct (ih_finished h1 =? FIN_ERROR); [discriminate|]. destruct (ih_finished h1 =? FIN_NORMAL); [discriminate|].
  destruct lk as [g1| |]; [| |discriminate].
  - destruct (read_initial g1) as [h2|]; [|discriminate]. destruct (_ && _ && _); [|discriminate].
    destruct (Nat.ltb_spec 4 ft); [discriminate|]. apply IH; lia.
  - destruct (Nat.ltb_spec 4 lt); [discriminate|]. apply IH; lia.
Qed.
Lemma settle_ends : forall tries b e, settle 11 0 0 0 tries b e <> Endless.
Proof. intros. apply settle_ends_gen; lia. Qed.

(** a complete session is asked for that is never seen to have finished *)
Lemma settle_unfinished : forall fuel i lt ft tries b e, b = 0 -> e = 4294967295 ->
  (forall k f h, f = fst (tries k) \/ Locked f = snd (tries k) -> read_initial f = Some h -> ih_finished h <> FIN_NORMAL) ->
  forall g h, settle fuel i lt ft tries b e <> Settled g h.
Proof.
  intros fuel i lt ft tries b e B E N g h X. destruct (settle_ok _ _ _ _ _ _ _ _ _ X) as (k & _ & [(T & R & _ & F)|(T & h0 & R & _ & F)]).
  - apply (N k g h); auto.
  - apply (N k g h0); auto.
Qed.

(** ** counting *)
Definition in_range (b e : Z) (r : datarec) : bool := (b <=? r_seq r) && (r_seq r <=? e).
Lemma range_neg : forall b e r, (r_seq r <? b) || (e <? r_seq r) = negb (in_range b e r).
Proof. intros. unfold in_range. lia. Qed.

Lemma last_nonneg : forall l, 0 <= last_received l.
Proof. induction l as [|r l IH]; cbn [last_received]; [lia|]. destruct (received r); lia. Qed.

Lemma visit_count : forall b e recs s, 0 <= do_count s -> do_count s + Z.of_nat (length recs) < 2^64 -> 0 <= do_max s ->
  visit (do_record false b e) recs s =
  (recs, 0, mkDo (Z.max (do_max s) (last_received recs)) (do_count s + Z.of_nat (length (filter (in_range b e) recs))) (do_in s) (do_buf s) (do_outs s)).
Proof.
  intros b e. induction recs as [|r recs IH]; intros [m n k bf os] N0 N M; cbn [visit do_count do_max do_in do_buf do_outs] in *.
  - cbn [last_received filter length]. rewrite Z.max_l, Z.add_0_r by lia. reflexivity.
  - cbn [length] in N. unfold do_record at 1. cbn [do_count do_max do_in do_buf do_outs negb]. rewrite range_neg.
    set (m1 := if (m <? r_seq r) && negb (is_lost r) then r_seq r else m).
    assert (M1: m1 = if received r then Z.max m (r_seq r) else m).
    { unfold m1, received, is_lost. destruct (owptime (r_recv r) =? 0); cbn [negb]; [now rewrite andb_false_r|]. rewrite andb_true_r. destruct (Z.ltb_spec m (r_seq r)); lia. }
    assert (0 <= m1) by (rewrite M1; destruct (received r); lia).
    cbn [filter]. destruct (in_range b e r); cbn [negb].
    + unfold u64. rewrite Z.mod_small by (change M64 with (2^64); lia). change (0 =? 0) with true. cbv iota.
      rewrite IH; cbn [do_count do_max do_in do_buf do_outs]; try lia. cbn [length last_received]. f_equal. f_equal; [|lia]. rewrite M1. destruct (received r); lia.
    + change (0 =? 0) with true. cbv iota. rewrite IH; cbn [do_count do_max do_in do_buf do_outs]; try lia. cbn [last_received]. f_equal. f_equal. rewrite M1. destruct (received r); lia.
Qed.

Lemma filter_le : forall A (p : A -> bool) l, (length (filter p l) <= length l)%nat.
Proof. induction l as [|x l IH]; cbn; [lia|]. destruct (p x); cbn; lia. Qed.

Lemma Forall2_len : forall A B (P : A -> B -> Prop) l l', Forall2 P l l' -> length l = length l'.
Proof. induction 1; cbn; congruence. Qed.

(** ** sending *)
Definition full (k : nat) (rc : list (list Z)) : list (list Z) := map (fun i => concat (firstn 16 (skipn (16 * i) rc))) (seq 0 k).
Definition packed (b e : Z) (done : list datarec) (rc : list (list Z)) (m : Z) (s : dostate) : Prop :=
  Forall2 (fun r o => encode_datarec r = Some o) (filter (in_range b e) done) rc /\
  let k := (length rc / 16)%nat in
  do_count s = Z.of_nat (length rc) /\ do_in s = Z.of_nat (length rc) - 16 * Z.of_nat k /\
  do_buf s = concat (skipn (16 * k) rc) /\ do_outs s = map Chunk (full k rc).

Lemma full_snoc : forall k rc x, (16 * k <= length rc)%nat -> full k (rc ++ [x]) = full k rc.
Proof.
  intros k rc x L. unfold full. apply map_ext_in. intros i I. apply in_seq in I. f_equal. rewrite skipn_app. rewrite firstn_app.
  rewrite skipn_length. replace (16 - (length rc - 16 * i))%nat with 0%nat by lia. cbn [firstn]. now rewrite app_nil_r.
Qed.
Lemma full_S : forall k rc, full (S k) rc = full k rc ++ [concat (firstn 16 (skipn (16 * k) rc))].
Proof. intros. unfold full. rewrite seq_S, map_app. reflexivity. Qed.

Lemma visit_send : forall b e todo done rc m s, packed b e done rc m s ->
  (forall r, In r todo -> exists o, encode_datarec r = Some o) -> Z.of_nat (length done + length todo) < 2^32 ->
  exists rc' m' s', visit (do_record true b e) todo s = (todo, 0, s') /\ packed b e (done ++ todo) rc' m' s'.
Proof.
  intros b e. induction todo as [|r todo IH]; intros done rc m s P EN L.
  - cbn [visit]. rewrite app_nil_r. eauto.
  - cbn [length] in L. cbn [visit]. unfold do_record at 1.
    set (m1 := if (do_max s <? r_seq r) && negb (is_lost r) then r_seq r else do_max s). rewrite range_neg.
    assert (EN': forall r, In r todo -> exists o, encode_datarec r = Some o) by (intros; apply EN; now right).
    assert (A: done ++ r :: todo = (done ++ [r]) ++ todo) by (rewrite <- app_assoc; reflexivity). rewrite A.
    destruct P as (P1 & P2 & P3 & P4 & P5). set (k := (length rc / 16)%nat) in *.
    pose proof (Forall2_len _ _ _ _ _ P1) as PL. pose proof (filter_le _ (in_range b e) done) as FL.
    destruct (in_range b e r) eqn:IR; cbn [negb].
    2:{ change (0 =? 0) with true. cbv iota.
      destruct (IH (done ++ [r]) rc m (mkDo m1 (do_count s) (do_in s) (do_buf s) (do_outs s))) as (rc' & m' & s' & V & P'); auto.
      - unfold packed. rewrite filter_app. cbn [filter]. rewrite IR, app_nil_r. cbn [do_count do_in do_buf do_outs]. auto.
      - rewrite app_length. cbn [length]. lia.
      - exists rc', m', s'. rewrite V. auto. }
    destruct (EN r) as (oct & EO); [now left|]. rewrite EO.
    unfold u64. rewrite (Z.mod_small (do_count s + 1)) by (change M64 with (2^64); lia).
    assert (FR: Forall2 (fun r o => encode_datarec r = Some o) (filter (in_range b e) (done ++ [r])) (rc ++ [oct])).
    { rewrite filter_app. cbn [filter]. rewrite IR. apply Forall2_app; [exact P1|]. constructor; [exact EO|constructor]. }
    assert (LR: length (rc ++ [oct]) = S (length rc)) by (rewrite app_length; cbn; lia).
    assert (K: k = (length rc / 16)%nat) by reflexivity.
    destruct (Z.eqb_spec (do_in s + 1) 16) as [Q|Q].
    + change (0 =? 0) with true. cbv iota.
      destruct (IH (done ++ [r]) (rc ++ [oct]) m (mkDo m1 (do_count s + 1) 0 [] (do_outs s ++ [Chunk (do_buf s ++ oct)]))) as (rc' & m' & s' & V & P'); auto.
      * unfold packed. cbn [do_count do_in do_buf do_outs]. split; [exact FR|]. rewrite LR.
        assert (K1: (S (length rc) / 16)%nat = S k) by lia. rewrite K1.
        split; [lia|]. split; [lia|]. split.
        { rewrite skipn_all2 by (rewrite LR; lia). reflexivity. }
        rewrite full_S, map_app. cbn [map]. rewrite P5. f_equal; [f_equal; symmetry; apply full_snoc; lia|].
        do 2 f_equal. rewrite P4. rewrite skipn_app. replace (16 * k - length rc)%nat with 0%nat by lia. cbn [skipn].
        rewrite firstn_all2 by (rewrite app_length, skipn_length; cbn [length]; lia). rewrite concat_app. cbn [concat]. now rewrite app_nil_r.
      * rewrite app_length. cbn [length]. lia.
      * exists rc', m', s'. rewrite V. auto.
    + destruct (Z.ltb_spec 16 (do_in s + 1)) as [Q2|Q2]; [lia|]. change (0 =? 0) with true. cbv iota.
      destruct (IH (done ++ [r]) (rc ++ [oct]) m (mkDo m1 (do_count s + 1) (do_in s + 1) (do_buf s ++ oct) (do_outs s))) as (rc' & m' & s' & V & P'); auto.
      * unfold packed. cbn [do_count do_in do_buf do_outs]. split; [exact FR|]. rewrite LR.
        assert (K1: (S (length rc) / 16)%nat = k) by lia. rewrite K1.
        split; [lia|]. split; [lia|]. split.
        { rewrite P4, skipn_app. replace (16 * k - length rc)%nat with 0%nat by lia. cbn [skipn]. rewrite concat_app. cbn [concat]. now rewrite app_nil_r. }
        rewrite P5. f_equal. symmetry. apply full_snoc. lia.
      * rewrite app_length. cbn [length]. lia.
      * exists rc', m', s'. rewrite V. auto.
Qed.

(** ** decoded records can be encoded, and mean the same *)
Lemma octets_sub : forall f o n, Forall (fun b => 0 <= b < 256) f -> Forall (fun b => 0 <= b < 256) (octs_at f o n).
Proof.
  intros f o n F. apply Forall_forall. intros x X. rewrite Forall_forall in F. apply F. unfold octs_at in X. apply In_nth_error in X. destruct X as (i & X).
  apply nth_error_In with (n := (o + i)%nat).
  assert (Y: nth_error (firstn n (skipn o f)) i <> None) by congruence. apply nth_error_Some in Y. rewrite firstn_length in Y.
  rewrite nth_error_firstn_lt in X by lia. rewrite nth_error_skipn_add in X. exact X.
Qed.
Lemma octs_len : forall f o n, (o + n <= length f)%nat -> length (octs_at f o n) = n.
Proof. intros. unfold octs_at. rewrite firstn_length, skipn_length. lia. Qed.

Lemma field_bound : forall f o n, Forall (fun b => 0 <= b < 256) f -> 0 <= field f o n < 256 ^ Z.of_nat n.
Proof.
  intros f o n F. unfold field. assert (G: forall l, Forall (fun b => 0 <= b < 256) l -> 0 <= number l < 256 ^ Z.of_nat (length l)).
  { induction 1 as [|x l X G IH]; cbn [number length]; [lia|]. rewrite Nat2Z.inj_succ, Z.pow_succ_r by lia. nia. }
  specialize (G (octs_at f o n) (octets_sub f o n F)). split; [lia|]. eapply Z.lt_le_trans; [apply G|]. apply Z.pow_le_mono_r; [lia|]. unfold octs_at. rewrite firstn_length. lia.
Qed.

Lemma decoded_ok : forall b r, octet_string 25 b -> decode_datarec 3 b = Some r -> rec_ok r.
Proof.
  intros b r O X. apply decode_v3_iff in X; [|exact O]. destruct X as (A & B & ->). destruct O as [L O].
  assert (TS: forall ot oe, field b (oe + 1) 1 <> 0 -> ts_ok (spec_ts b ot oe)).
  { intros ot oe N. unfold ts_ok, spec_ts. cbn [owptime sync multiplier scale].
    pose proof (field_bound b ot 8 O) as F1. pose proof (field_bound b oe 1 O) as F2. pose proof (field_bound b (oe + 1) 1 O) as F3.
    change (256 ^ Z.of_nat 8) with (2^64) in F1. change (256 ^ Z.of_nat 1) with 256 in *. repeat split; try lia. }
  unfold rec_ok. cbn [r_seq r_send r_recv r_ttl]. pose proof (field_bound b 0 4 O) as F1. pose proof (field_bound b 24 1 O) as F2.
  change (256 ^ Z.of_nat 4) with (2^32) in F1. change (256 ^ Z.of_nat 1) with (2^8) in F2. split; [lia|]. split; [apply (TS 8%nat 4%nat); exact A|]. split; [apply (TS 16%nat 6%nat); exact B|lia].
Qed.

Lemma decoded_encodes : forall b r, octet_string 25 b -> decode_datarec 3 b = Some r -> exists o, encode_datarec r = Some o /\ octet_string 25 o /\ decode_datarec 3 o = Some r.
Proof. intros b r O X. apply datarec_roundtrip. eapply decoded_ok; eauto. Qed.

(** ** the file *)
Section File.
Context {f : list Z} {fin next : Z} {p : preamble} {slots : list slot} {skips : list skiprec} {recs : list datarec}
  (SF : session_file f fin next p slots skips recs).

Definition odata : Z := 152 + 16 * (Z.of_nat (length slots) + 1).

Lemma sf_odata : field f 32 8 = odata /\ (field f 24 8 = 0 \/ odata <= field f 24 8 < 2^62) /\ odata < 2^33 /\ odata + 25 * Z.of_nat (length recs) <= Z.of_nat (length f).
Proof.
  destruct SF as (O & _ & _ & _ & _ & _ & _ & _ & _ & NS & NB & _ & OD & _ & _ & OS & _ & _ & _ & _ & LR & _).
  unfold odata. rewrite <- NS. rewrite OD in *. split; [reflexivity|]. split; [exact OS|]. split; [lia|exact LR].
Qed.

Lemma sf_initial : read_initial f = Some (mkIH 3 25 odata fin next (Z.of_nat (length skips)) (field f 20 4) (field f 24 8) odata (Z.of_nat (length f)) true).
Proof.
  destruct sf_odata as (A & B & C & D). unfold odata in D, C.
  destruct SF as (O & M & V & FI & FI2 & NX & _ & _ & _ & _ & _ & _ & _ & SK & _).
  rewrite (initial_v3 f 3); [|lia|exact M|rewrite be_field; exact V|now left].
  change (3 =? 3) with true. cbv iota. rewrite !be_field, A, FI, NX, SK.
  rewrite (off_t_small odata) by (unfold odata; lia). rewrite (off_t_small (field f 24 8)) by (unfold odata in B; lia).
  replace (finished_type fin) with fin; [reflexivity|]. unfold finished_type. destruct FI2 as [-> | ->]; reflexivity.
Qed.

Lemma sf_readable : readable (decode_datarec 3) f (Z.to_nat odata) 25 (length recs) recs.
Proof.
  destruct sf_odata as (A & B & C & D). destruct SF as (O & _ & _ & _ & _ & _ & _ & _ & _ & _ & _ & _ & _ & _ & _ & _ & _ & _ & _ & _ & _ & _ & RD).
  rewrite A in RD. split; [lia|]. split; [|lia]. intros i r E. split; [|now apply RD].
  assert (I: (i < length recs)%nat) by (apply nth_error_Some; congruence). unfold odata in *. lia.
Qed.

Lemma sf_parse : forall St (proc : datarec -> St -> Z * St) s s', visit proc recs s = (recs, 0, s') ->
  parse_records proc 3 (Z.to_nat odata) (length recs) f s = Some (true, s').
Proof.
  intros St proc s s' V. unfold parse_records. cbn [Z.eqb Pos.eqb orb].
  pose proof (parse_visit datarec St proc (decode_datarec 3) f 25 (length recs) (Z.to_nat odata) recs s sf_readable) as P. rewrite V in P.
  rewrite P. change (0 =? 0) with true. cbv iota. now rewrite Nat.eqb_refl.
Qed.

Lemma sf_record : forall r, In r recs -> exists o, encode_datarec r = Some o /\ octet_string 25 o /\ decode_datarec 3 o = Some r.
Proof.
  intros r X. apply In_nth_error in X. destruct X as (i & X). destruct sf_readable as (_ & R & _). destruct (R i r X) as (L & DD).
  apply decoded_encodes with (b := nth_record f (Z.to_nat odata) 25 i); [|exact DD]. split; [apply octs_len; lia|]. apply octets_sub. apply SF.
Qed.

(** the header the server works with *)
Definition served : inithdr := mkIH 3 25 odata fin next (Z.of_nat (length skips)) (Z.of_nat (length recs)) (field f 24 8) odata (Z.of_nat (length f)) true.

Lemma last_member : forall l r, In r l -> received r = true -> r_seq r <= last_received l.
Proof. induction l as [|x l IH]; intros r I R; [destruct I|]. destruct I as [-> |I]; cbn [last_received]; [rewrite R; lia|]. specialize (IH r I R). destruct (received x); lia. Qed.

Lemma wanted_normal : forall b e, fin = 1 -> wanted fin b e recs = filter (in_range b e) recs.
Proof. intros b e ->. unfold wanted. apply filter_ext. intros r. unfold in_range. cbn [Z.eqb Pos.eqb orb]. now rewrite andb_true_r. Qed.
Lemma wanted_below : forall b e, fin = 2 -> last_received recs < e -> wanted fin b e recs = filter (in_range b (last_received recs)) recs.
Proof. intros b e -> L. unfold wanted. apply filter_ext. intros r. unfold in_range. cbn [Z.eqb Pos.eqb orb]. lia. Qed.
Lemma wanted_above : forall b e, fin = 2 -> e <= last_received recs -> wanted fin b e recs = filter (in_range b e) recs.
Proof. intros b e -> L. unfold wanted. apply filter_ext. intros r. unfold in_range. cbn [Z.eqb Pos.eqb orb]. lia. Qed.

Lemma all_in_range : filter (in_range 0 4294967295) recs = recs.
Proof.
  assert (A: forall r, In r recs -> in_range 0 4294967295 r = true).
  { intros r I. destruct (sf_record r I) as (o & EO & O & DO). apply decoded_ok in DO; [|exact O]. destruct DO as (X & _). unfold in_range. change (2^32) with 4294967296 in X. lia. }
  revert A. clear. induction recs as [|x l IH]; intros A; [reflexivity|]. cbn [filter]. rewrite A by now left. f_equal. apply IH. intros. apply A. now right.
Qed.

Lemma sf_count : forall b e, count_records f served b e =
  Some (Z.of_nat (length (wanted fin b e recs)),
        if (fin =? 2) && (last_received recs <? e) then last_received recs else e,
        mkDo (if (fin =? 1) && (b =? 0) && (e =? 4294967295) then 0 else last_received recs) 0 0 [] []).
Proof.
  intros b e. unfold count_records, served. cbn [ih_finished ih_odata ih_version ih_ndata]. unfold FIN_NORMAL.
  assert (F: fin = 1 \/ fin = 2) by apply SF. assert (LB: Z.of_nat (length recs) < 2^32) by apply SF.
  pose proof (last_nonneg recs) as LN.
  destruct ((fin =? 1) && (b =? 0) && (e =? 4294967295)) eqn:SC.
  { assert (fin = 1) by lia. assert (b = 0) by lia. assert (e = 4294967295) by lia. subst b e. rewrite wanted_normal by auto. rewrite all_in_range.
    replace (fin =? 2) with false by lia. reflexivity. }
  destruct (Z.ltb_spec odata 0) as [X|X]; [unfold odata in X; lia|]. rewrite Nat2Z.id.
  assert (LF: forall e, Z.of_nat (length (filter (in_range b e) recs)) < 2^32) by (intros e'; pose proof (filter_le _ (in_range b e') recs); lia).
  rewrite (sf_parse _ (do_record false b e) (mkDo 0 0 0 [] []) _ (visit_count b e recs (mkDo 0 0 0 [] []) ltac:(cbn; lia) ltac:(cbn [do_count]; lia) ltac:(cbn; lia))).
  cbn [do_count do_max do_in do_buf do_outs]. rewrite Z.max_r, Z.add_0_l by lia.
  destruct F as [F|F].
  - rewrite wanted_normal by auto. rewrite F. cbn [Z.eqb Pos.eqb negb andb]. unfold u32. rewrite Z.mod_small by (split; [lia|apply LF]). reflexivity.
  - rewrite F. cbn [Z.eqb Pos.eqb negb andb]. destruct (Z.ltb_spec (last_received recs) e) as [Q|Q].
    + rewrite (sf_parse _ (do_record false b (last_received recs)) (mkDo (last_received recs) 0 0 [] []) _ (visit_count b (last_received recs) recs (mkDo (last_received recs) 0 0 [] []) ltac:(cbn; lia) ltac:(cbn [do_count]; lia) ltac:(cbn; lia))).
      cbn [do_count do_max do_in do_buf do_outs]. rewrite Z.max_id, Z.add_0_l. unfold u32. rewrite Z.mod_small by (split; [lia|apply LF]).
      rewrite <- F, wanted_below by auto. reflexivity.
    + unfold u32. rewrite Z.mod_small by (split; [lia|apply LF]). rewrite <- F, wanted_above by auto. reflexivity.
Qed.

(** the end of the range actually used *)
Definition used_end (e : Z) : Z := if (fin =? 2) && (last_received recs <? e) then last_received recs else e.
Lemma wanted_used : forall b e, wanted fin b e recs = filter (in_range b (used_end e)) recs.
Proof.
  intros b e. assert (F: fin = 1 \/ fin = 2) by apply SF. unfold used_end. destruct F as [F|F].
  - replace (fin =? 2) with false by lia. cbn [andb]. now apply wanted_normal.
  - replace (fin =? 2) with true by lia. cbn [andb]. destruct (Z.ltb_spec (last_received recs) e); [now apply wanted_below|now apply wanted_above].
Qed.

(** the chunks of the records *)
Definition left_over (rc : list (list Z)) : list (list Z) :=
  let k := (length rc / 16)%nat in
  if (length rc mod 16 =? 0)%nat then [] else
  [concat (skipn (16 * k) rc) ++ zeros (16 * (25 * (length rc mod 16) / 16 + 1) - 25 * (length rc mod 16))].

Lemma concat_len : forall n (l : list (list Z)), Forall (fun o => length o = n) l -> length (concat l) = (n * length l)%nat.
Proof. induction 1 as [|x l X F IH]; cbn [concat length]; [lia|]. rewrite app_length, IH. lia. Qed.
Lemma Forall_skipn : forall A (P : A -> Prop) n l, Forall P l -> Forall P (skipn n l).
Proof. induction n; intros l F; [exact F|]. destruct F; cbn [skipn]; auto. Qed.
Lemma Forall_firstn : forall A (P : A -> Prop) n l, Forall P l -> Forall P (firstn n l).
Proof. induction n; intros l F; [constructor|]. destruct F; cbn [firstn]; auto. Qed.

Lemma sf_data : forall b e s, do_count s = 0 -> do_in s = 0 -> do_buf s = [] -> do_outs s = [] ->
  exists rc, Forall2 (fun r o => encode_datarec r = Some o /\ octet_string 25 o /\ decode_datarec 3 o = Some r) (wanted fin b e recs) rc /\
    data_outs f served b (used_end e) (Z.of_nat (length (wanted fin b e recs))) s = map Chunk (full (length rc / 16) rc ++ left_over rc).
Proof.
  intros b e s S1 S2 S3 S4. assert (LB: Z.of_nat (length recs) < 2^32) by apply SF.
  rewrite wanted_used. unfold data_outs, served. cbn [ih_odata ih_version ih_ndata ih_recsize].
  destruct (visit_send b (used_end e) recs [] [] 0 s) as (rc & m & s' & V & P1 & P2 & P3 & P4 & P5).
  { unfold packed. cbn [filter length]. split; [constructor|]. rewrite S1, S2, S3, S4. repeat split. }
  { intros r I. destruct (sf_record r I) as (o & X & _). eauto. }
  { cbn [length]. lia. }
  cbn [app] in P1. exists rc.
  assert (FF: Forall2 (fun r o => encode_datarec r = Some o /\ octet_string 25 o /\ decode_datarec 3 o = Some r) (filter (in_range b (used_end e)) recs) rc).
  { assert (SUB: forall r, In r (filter (in_range b (used_end e)) recs) -> In r recs) by (intros r I; apply filter_In in I; tauto).
    revert SUB. clear - P1 SF. induction P1 as [|r o l l' X P IH]; intros SUB; constructor.
    - destruct (sf_record r (SUB r (or_introl eq_refl))) as (o' & Y & Z1 & Z2). assert (o' = o) by congruence. subst o'. auto.
    - apply IH. intros. apply SUB. now right. }
  split; [exact FF|]. pose proof (Forall2_len _ _ _ _ _ P1) as PL.
  assert (L25: Forall (fun o => length o = 25%nat) rc).
  { clear - FF. induction FF as [|r o l l' (A & (B & _) & C) F IH]; constructor; auto. }
  destruct (Z.eqb_spec (Z.of_nat (length (filter (in_range b (used_end e)) recs))) 0) as [N0|N0].
  { assert (RC: rc = []) by (apply length_zero_iff_nil; lia). subst rc. reflexivity. }
  destruct (Z.ltb_spec odata 0) as [X|X]; [unfold odata in X; lia|]. rewrite Nat2Z.id.
  rewrite (sf_parse _ _ _ _ V). rewrite P2, PL, Z.eqb_refl. cbn [negb orb]. rewrite P5, map_app. f_equal. unfold left_over.
  set (k := (length rc / 16)%nat) in *. assert (KK: k = (length rc / 16)%nat) by reflexivity.
  destruct (Z.eqb_spec (do_in s') 0) as [I0|I0]; destruct (Nat.eqb_spec (length rc mod 16) 0) as [M0|M0]; try lia; [reflexivity|].
  cbn [map]. f_equal. f_equal. rewrite P4. f_equal. f_equal.
  rewrite (concat_len 25) by now apply Forall_skipn. rewrite skipn_length. lia.
Qed.

(** whole blocks *)
Definition blocks_at (pos n : nat) : list (list Z) := map (fun i => octs_at f (pos + 16 * i) 16) (seq 0 n).
Lemma copy_ok : forall n pos, (pos + 16 * n <= length f)%nat -> copy_blocks n pos f = map Chunk (blocks_at pos n).
Proof.
  induction n as [|n IH]; intros pos L; [reflexivity|]. cbn [copy_blocks]. unfold fread. destruct (Nat.ltb_spec (length f) (pos + 16)); [lia|].
  rewrite IH by lia. unfold blocks_at. rewrite <- cons_seq. cbn [map]. f_equal.
  - f_equal. unfold octs_at, sub. now rewrite Nat.add_0_r.
  - rewrite <- seq_shift, !map_map. apply map_ext. intros i. do 2 f_equal. lia.
Qed.

Lemma sf_slots_blocks : Forall2 slot_octets slots (blocks_at 152 (length slots)).
Proof.
  destruct sf_odata as (_ & _ & _ & LF). unfold odata in LF.
  assert (SL: forall i s, nth_error slots i = Some s -> decode_slot (octs_at f (152 + 16 * i) 16) = Some s) by apply SF.
  unfold blocks_at. assert (G: forall n (l : list slot), (forall i s, nth_error l i = Some s -> decode_slot (octs_at f (152 + 16 * (n + i)) 16) = Some s /\ (152 + 16 * (n + i) + 16 <= length f)%nat) ->
     Forall2 slot_octets l (map (fun i => octs_at f (152 + 16 * i) 16) (seq n (length l)))).
  { intros n l. revert n. induction l as [|x l IH]; intros n X; cbn [length seq map]; constructor.
    - destruct (X 0%nat x eq_refl) as (A & B). rewrite Nat.add_0_r in *. split; [apply octs_len; lia|exact A].
    - apply IH. intros i s I. destruct (X (S i) s I) as (A & B). replace (n + S i)%nat with (S n + i)%nat in A, B by lia. exact (conj A B). }
  apply (G 0%nat slots). intros i s I. split; [now apply SL|]. assert (J: (i < length slots)%nat) by (apply nth_error_Some; congruence). lia.
Qed.

(** the skip records in blocks: two each, the last one possibly half empty *)
Definition skip_blocks : list (list Z) :=
  match skips with
  | [] => []
  | _ => let pos := Z.to_nat (field f 24 8) in
         let n := ((length skips - 1) / 2)%nat in
         blocks_at pos n ++ [octs_at f (pos + 16 * n) (8 * (length skips - 2 * n)) ++ zeros (16 - 8 * (length skips - 2 * n))]
  end.

Lemma sf_skips : skip_outs f served = map Chunk skip_blocks.
Proof.
  assert (F: fin = 1 \/ fin = 2) by apply SF.
  destruct SF as (_ & _ & _ & _ & _ & _ & _ & _ & _ & _ & _ & _ & _ & _ & NB & OS & NZ & LF & _).
  unfold skip_outs, served, skip_blocks. cbn [ih_finished ih_nskip ih_oskip]. replace (fin =? 0) with false by lia. cbn [negb andb].
  destruct (Nat.eq_dec (length skips) 0) as [N0|N0]; [apply length_zero_iff_nil in N0; rewrite N0; reflexivity|].
  assert (L1: (1 <= length skips)%nat) by lia.
  assert (MM: forall (A : Type) (a b : A), match skips with [] => a | _ :: _ => b end = b) by (intros A a0 b0; destruct skips; [cbn in N0; lia|reflexivity]).
  rewrite MM. clear MM.
  replace (Z.of_nat (length skips) =? 0) with false by lia. cbn [negb]. pose proof (proj1 (proj2 sf_odata)) as OS2. unfold odata in OS2.
  destruct (Z.ltb_spec (field f 24 8) 0) as [Q|Q]; [lia|].
  unfold u32, whole_blocks. rewrite (Z.mod_small (Z.of_nat (length skips) * 8)) by (change M32 with (2^32); lia).
  set (pos := Z.to_nat (field f 24 8)). set (n := ((length skips - 1) / 2)%nat).
  assert (NN: (if 16 <? Z.of_nat (length skips) * 8 then (Z.of_nat (length skips) * 8 - 1) / 16 else 0) = Z.of_nat n) by (unfold n; destruct (Z.ltb_spec 16 (Z.of_nat (length skips) * 8)); lia).
  rewrite NN, Nat2Z.id.
  assert (LP: (pos + 8 * length skips <= length f)%nat) by (unfold pos; lia).
  assert (N2: (2 * n < length skips <= 2 * n + 2)%nat) by (unfold n; lia).
  rewrite copy_ok by lia. rewrite map_app. f_equal.
  destruct (Z.ltb_spec 0 (Z.of_nat (length skips) * 8 - 16 * Z.of_nat n)) as [Q1|Q1]; [|lia].
  replace (Z.to_nat (Z.of_nat (length skips) * 8 - 16 * Z.of_nat n)) with (8 * (length skips - 2 * n))%nat by lia.
  unfold fread. destruct (Nat.ltb_spec (length f) (pos + 16 * n + 8 * (length skips - 2 * n))); [lia|]. reflexivity.
Qed.

(** the whole transfer *)
Lemma sf_transfer : forall b e, exists rc,
  Forall2 (fun r o => encode_datarec r = Some o /\ octet_string 25 o /\ decode_datarec 3 o = Some r) (wanted fin b e recs) rc /\
  transfer f served b e = FSend fin next (Z.of_nat (length skips)) (Z.of_nat (length (wanted fin b e recs))) (Some (octs_at f 40 112))
    (map Chunk (blocks_at 152 (length slots)) ++ [Seal] ++ map Chunk skip_blocks ++ [Seal] ++
     map Chunk (full (length rc / 16) rc ++ left_over rc) ++ [Seal]).
Proof.
  intros b e. destruct sf_odata as (OD & OS & B & LF).
  assert (F: fin = 1 \/ fin = 2) by apply SF.
  unfold transfer. rewrite sf_count. change (if (fin =? 2) && (last_received recs <? e) then last_received recs else e) with (used_end e).
  set (s := mkDo _ 0 0 [] []). destruct (sf_data b e s eq_refl eq_refl eq_refl eq_refl) as (rc & RC & DO). exists rc. split; [exact RC|].
  rewrite DO, sf_skips. unfold served. cbn [ih_finished ih_next ih_nskip ih_oskip ih_odata]. replace (fin =? 0) with false by lia.
  unfold odata in *.
  assert (SZ: (if 152 + 16 * (Z.of_nat (length slots) + 1) =? 0 then if field f 24 8 =? 0 then 152 + 16 * (Z.of_nat (length slots) + 1) else field f 24 8
     else Z.min (if field f 24 8 =? 0 then 152 + 16 * (Z.of_nat (length slots) + 1) else field f 24 8) (152 + 16 * (Z.of_nat (length slots) + 1))) = 152 + 16 * (Z.of_nat (length slots) + 1)).
  { destruct (Z.eqb_spec (152 + 16 * (Z.of_nat (length slots) + 1)) 0); [lia|]. destruct (Z.eqb_spec (field f 24 8) 0); lia. }
  rewrite SZ.
  assert (W: whole_blocks (152 + 16 * (Z.of_nat (length slots) + 1) - 40 - 112) = Z.of_nat (length slots)).
  { unfold whole_blocks. destruct (Z.ltb_spec 16 (152 + 16 * (Z.of_nat (length slots) + 1) - 40 - 112)); lia. }
  rewrite W, Nat2Z.id, copy_ok by lia. f_equal.
  unfold fread. destruct (Nat.ltb_spec (length f) (40 + 112)); [lia|]. reflexivity.
Qed.

End File.
