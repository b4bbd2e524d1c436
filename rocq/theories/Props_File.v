(** Property theorems C24-C29: session files.  A file is the list of its octets. *)
From Coq Require Import ZArith List Bool Lia.
From Verif Require Import Base BaseLemmas Time_Model Sched_Model Wire_Model Wire_Spec Wire_Proofs File_Model File_Spec File_Proofs File_Updates.
Import ListNotations.
Open Scope Z_scope.

(** ** C24 *)

(** Partial: schedules of fewer than 2^28 - 1 slots (see [C24_refuted]).  The file that is read is the
    header with anything behind it ([tail]): first the skip records, if there are any, then the data. *)
Theorem C24_header_roundtrip_partial : forall junk h slots f tail, octet_string 112 junk -> header_ok h slots ->
  Z.of_nat (length slots) + 1 < 2^28 -> hd_nskip h < 2^29 ->
  write_header junk h = Some f ->
  length f = (152 + 16 * (length slots + 1))%nat /\
  let rl := rec_len (hd_twoway h) in
  let data := Z.of_nat (length tail) - 8 * hd_nskip h in
  0 <= data -> hd_ndata h <= data / rl -> data / rl < 2^32 ->
  exists h', read_header (f ++ tail) = Some (h', hd_odata h') /\
    hd_odata h' = Z.of_nat (length f) + 8 * hd_nskip h /\
    (hd_nskip h <> 0 -> hd_oskip h' = Z.of_nat (length f)) /\
    (hd_nskip h = 0 -> hd_ndata h <> 0 -> 0 <= hd_recsize h -> hd_ndata h * hd_recsize h < 2^32 -> hd_oskip h' = Z.of_nat (length f) + hd_ndata h * hd_recsize h) /\
    (hd_nskip h = 0 -> hd_ndata h = 0 -> hd_oskip h' = 0) /\
    hd_twoway h' = hd_twoway h /\ hd_recsize h' = rl /\ hd_version h' = (if hd_twoway h then 131 else 3) /\
    hd_finished h' = (if (hd_finished h =? 0) || (hd_finished h =? 1) then hd_finished h else 2) /\
    hd_next h' = hd_next h /\ hd_nskip h' = hd_nskip h /\
    hd_ndata h' = (if (hd_finished h =? 1) && negb (hd_twoway h) then hd_ndata h else data / rl) /\
    hd_sender h' = hd_sender h /\ hd_receiver h' = hd_receiver h /\
    hd_csender h' = (if hd_twoway h then true else hd_csender h) /\ hd_creceiver h' = hd_creceiver h /\ hd_sid h' = hd_sid h /\
    hd_spec h' = mkTSpec (ts_start (hd_spec h)) (ts_timeout (hd_spec h)) (ts_typeP (hd_spec h)) (ts_padding (hd_spec h))
                   (ts_npackets (hd_spec h)) (ts_nslots (hd_spec h)) None /\
    read_header_slots (ts_nslots (hd_spec h)) (f ++ tail) = Some slots.
Proof. exact header_roundtrip. Qed.
Print Assumptions C24_header_roundtrip_partial.

Theorem C24_header_written : forall junk h slots, header_ok h slots -> exists f, write_header junk h = Some f.
Proof. exact write_header_some. Qed.
Print Assumptions C24_header_written.

(** a sample session: two slots *)
Definition sample_slots : list slot := [SlotExp (2^32); SlotLit 7].
Definition sample_spec : testspec := mkTSpec (3 * 2^60 + 5) (2^33) 184 100 1000 2 (Some sample_slots).
Definition sample_sid : list Z := [1;2;3;4;5;6;7;8;9;10;11;12;13;14;15;16].
Definition sample_header : header :=
  mkHdr 3 25 false 2 0 0 0 0 0 (mkSA AF_INET 8760 [192;0;2;1]) (mkSA AF_INET 8761 [192;0;2;2]) false true sample_sid sample_spec.
Lemma sample_ok : header_ok sample_header sample_slots.
Proof.
  unfold header_ok, sample_header, sample_spec, sample_sid, sa_ok, octet_string, tspec_ok.
  cbn [hd_sender hd_receiver hd_sid hd_spec hd_twoway hd_csender hd_creceiver hd_next hd_nskip hd_ndata sa_family sa_addr sa_port
       ts_start ts_timeout ts_typeP ts_padding ts_npackets ts_nslots ts_slots].
  split; [split; [lia|split; [repeat (apply Forall_cons; [lia|]); apply Forall_nil|reflexivity]]|].
  split; [split; [lia|split; [repeat (apply Forall_cons; [lia|]); apply Forall_nil|reflexivity]]|].
  split; [reflexivity|]. split; [discriminate|].
  split; [split; [reflexivity|repeat (apply Forall_cons; [lia|]); apply Forall_nil]|].
  split; [lia|]. split; [lia|]. split; [reflexivity|].
  split; [repeat (apply Forall_cons; [unfold slot_ok; lia|]); apply Forall_nil|].
  split; [lia|]. split; [reflexivity|]. split; [intros _; right; reflexivity|]. lia.
Qed.
Definition sample_file : list Z := match write_header (repeat 170 112) sample_header with Some f => f | None => [] end.
Example C24_example :
  octet_string 112 (repeat 170 112) /\ header_ok sample_header sample_slots /\
  write_header (repeat 170 112) sample_header = Some sample_file /\ length sample_file = 200%nat /\
  exists h', read_header (sample_file ++ repeat 0 60) = Some (h', 200) /\ hd_ndata h' = 2 /\ ts_npackets (hd_spec h') = 1000 /\
     read_header_slots 2 (sample_file ++ repeat 0 60) = Some sample_slots.
Proof.
  split. { split; [reflexivity|]. apply Forall_forall. intros x X. apply repeat_spec in X. subst x. split; [discriminate|reflexivity]. }
  split; [apply sample_ok|]. split; [vm_compute; reflexivity|]. split; [vm_compute; reflexivity|].
  assert (A: match read_header (sample_file ++ repeat 0 60) with Some (h', o) => o = 200 /\ hd_ndata h' = 2 /\ ts_npackets (hd_spec h') = 1000 | None => False end)
    by (vm_compute; auto).
  destruct (read_header (sample_file ++ repeat 0 60)) as [[h' o]|]; [|contradiction]. destruct A as (-> & A & B). exists h'.
  split; [reflexivity|]. split; [exact A|]. split; [exact B|]. vm_compute; reflexivity.
Qed.

(** With 2^28 - 1 slots the offset of the data wraps around: the header that has just been written,
    without any data record behind it, is read as 171798691 data records that start inside the
    header. *)
Theorem C24_refuted : exists junk h slots f h', octet_string 112 junk /\ header_ok h slots /\ hd_nskip h = 0 /\ hd_ndata h = 0 /\
  write_header junk h = Some f /\ read_header f = Some (h', 152) /\ hd_odata h' = 152 /\ (152 < length f)%nat /\ hd_ndata h' = 171798691.
Proof.
  assert (EN: exists n, Z.of_nat n = 268435455) by (exists (Z.to_nat 268435455); lia). destruct EN as (n & EN).
  set (h := mkHdr 3 25 false 2 0 0 0 0 0 (mkSA AF_INET 8760 [192;0;2;1]) (mkSA AF_INET 8761 [192;0;2;2]) false true sample_sid
    (mkTSpec (3 * 2^60 + 5) (2^33) 184 100 1000 268435455 (Some (repeat (SlotLit 7) n)))).
  destruct sample_ok as (S1 & S2 & S3 & S4 & S5 & (T1 & T2 & T3 & T4 & T5 & T6) & _).
  assert (LN: Z.of_nat (length (repeat (SlotLit 7) n)) = 268435455) by (rewrite repeat_length; lia).
  assert (HO: header_ok h (repeat (SlotLit 7) n)).
  { unfold header_ok, h. cbn [hd_sender hd_receiver hd_sid hd_spec hd_twoway hd_csender hd_creceiver hd_next hd_nskip hd_ndata ts_npackets ts_nslots ts_slots].
    rewrite LN. split; [exact S1|]. split; [exact S2|]. split; [exact S3|]. split; [exact S4|]. split; [exact S5|].
    split; [unfold tspec_ok; cbn [ts_start ts_timeout ts_typeP ts_padding ts_npackets ts_nslots]; lia|]. split; [lia|]. split; [reflexivity|]. split.
    2: { split; [lia|]. split; [reflexivity|]. split; [intros _; right; reflexivity|]. lia. }
    apply Forall_forall. intros x X. apply repeat_spec in X. subst x. unfold slot_ok. lia. }
  assert (J: octet_string 112 (repeat 0 112)) by (split; [reflexivity|]; apply Forall_forall; intros x X; apply repeat_spec in X; subst x; split; [discriminate|reflexivity]).
  destruct (write_header_some (repeat 0 112) h _ HO) as (f & W).
  destruct (huge_schedule (repeat 0 112) h (repeat (SlotLit 7) n) f J HO eq_refl eq_refl eq_refl eq_refl LN W) as (h' & A & B & C).
  exists (repeat 0 112), h, (repeat (SlotLit 7) n), f, h'. split; [exact J|]. split; [exact HO|]. split; [reflexivity|]. split; [reflexivity|].
  split; [exact W|]. split; [exact A|]. split; [exact B|]. split; [|exact C].
  destruct (write_header_shape _ h _ f J HO W) as (pre & sl & (PL & _) & SLL & _ & _ & _ & FE). cbv zeta in FE.
  rewrite FE, !app_length, !be_enc_length, PL, SLL, zeros_length. cbn [length magic]. lia.
Qed.
Print Assumptions C24_refuted.

(** ** C25 *)

(** Any sequence of successful header updates (OWPWriteDataHeaderFinished / NumSkipRecs /
    NumDataRecs): re-reading gives the values written last, and no octet outside of the fields
    of these updates has changed. *)
Theorem C25_updates : forall us f h g,
  read_initial f = Some h -> 3 <= ih_version h -> Forall update_ok us -> 0 <= ih_odata h < 2^62 -> updates us f = Some g ->
  read_initial g = Some (fold_left (fun h u => update_header u h) us h) /\
  only_changes f g (fun i => Exists (fun u => update_octets u i) us).
Proof. intros us f h g A B C D E. destruct (update_many us f h g (conj A B) C D E) as ((X & _) & Y). split; [exact X|exact Y]. Qed.
Print Assumptions C25_updates.

(** In particular, no data record ever changes: all updated octets are in the first 40. *)
Theorem C25_records_untouched : forall us f h g,
  read_initial f = Some h -> 3 <= ih_version h -> Forall update_ok us -> 0 <= ih_odata h < 2^62 -> updates us f = Some g ->
  length g = length f /\ octs_at g 0 8 = octs_at f 0 8 /\ skipn 32 g = skipn 32 f.
Proof.
  intros us f h g A B C D E. destruct (update_many us f h g (conj A B) C D E) as (_ & (L & Y)).
  assert (K: forall i, (i < 8 \/ 32 <= i)%nat -> nth_error f i = nth_error g i).
  { intros i I. apply Y. intros X. apply Exists_exists in X. destruct X as (u & _ & U). destruct u; cbn in U; lia. }
  split; [now symmetry|]. split.
  - unfold octs_at. rewrite !skipn_O. apply nth_error_ext. intros i.
    destruct (Nat.lt_ge_cases i 8) as [I|I].
    + rewrite !nth_error_firstn_lt by lia. symmetry. apply K. lia.
    + assert (N: forall l : list Z, nth_error (firstn 8 l) i = None) by (intros l; apply nth_error_None; rewrite firstn_length; lia). now rewrite !N.
  - apply nth_error_ext. intros i. rewrite !nth_error_skipn_add. symmetry. apply K. lia.
Qed.
Print Assumptions C25_records_untouched.

Example C25_example :
  exists h g, read_initial sample_file = Some h /\ 3 <= ih_version h /\ 0 <= ih_odata h < 2^62 /\
    updates [UNData 0; UNSkips 3; UFinished 1 77] sample_file = Some g /\
    exists h', read_initial g = Some h' /\ ih_nskip h' = 3 /\ ih_finished h' = 1 /\ ih_next h' = 77 /\ ih_oskip h' = 200.
Proof.
  assert (A: match read_initial sample_file with Some h => 3 <= ih_version h /\ 0 <= ih_odata h < 2^62 | None => False end) by (vm_compute; intuition discriminate).
  destruct (read_initial sample_file) as [h|]; [|contradiction]. exists h.
  assert (B: match updates [UNData 0; UNSkips 3; UFinished 1 77] sample_file with Some g =>
     match read_initial g with Some h' => ih_nskip h' = 3 /\ ih_finished h' = 1 /\ ih_next h' = 77 /\ ih_oskip h' = 200 | None => False end | None => False end) by (vm_compute; auto).
  destruct (updates [UNData 0; UNSkips 3; UFinished 1 77] sample_file) as [g|]; [|contradiction]. exists g.
  split; [reflexivity|]. split; [apply A|]. split; [apply A|]. split; [reflexivity|].
  destruct (read_initial g) as [h'|]; [|contradiction]. exists h'. auto.
Qed.

(** ** C26 *)

(** [readable ... l]: l are the decoded records at [pos], [pos]+len, ... as far as they are there;
    there is such a list for every file ([C26_records_exist]).  The application function is called on
    them in order until it returns non-zero; the result is success when all [n] were visited, or
    when it stopped with a positive value. *)
Theorem C26_parse_partial : forall St (proc : datarec -> St -> Z * St) version f n pos l s,
  version = 0 \/ version = 2 \/ version = 3 ->
  readable (decode_datarec version) f pos (if version =? 3 then 25 else 24) n l ->
  let '(v, rc, s') := visit proc l s in
  (exists rest, l = v ++ rest /\ (rc = 0 -> rest = [])) /\
  parse_records proc version pos n f s = Some ((if rc =? 0 then (length l =? n)%nat else 0 <=? rc), s').
Proof.
  intros St proc version f n pos l s V RD. pose proof (parse_visit datarec St proc (decode_datarec version) f _ n pos l s RD) as P.
  destruct (visit proc l s) as [[v rc] s'] eqn:E. split; [exact (visit_prefix _ _ proc l s v rc s' E)|].
  destruct V as [-> | [-> | ->]]; unfold parse_records; cbn [Z.eqb Pos.eqb orb] in *; now rewrite P.
Qed.
Print Assumptions C26_parse_partial.

Theorem C26_parse_twoway : forall St (proc : twrec -> St -> Z * St) f n pos l s,
  readable (decode_twrec 131) f pos 50 n l ->
  let '(v, rc, s') := visit proc l s in
  (exists rest, l = v ++ rest /\ (rc = 0 -> rest = [])) /\
  parse_tw_records proc 131 pos n f s = ((if rc =? 0 then (length l =? n)%nat else 0 <=? rc), s').
Proof.
  intros St proc f n pos l s RD. pose proof (parse_visit twrec St proc (decode_twrec 131) f _ n pos l s RD) as P.
  destruct (visit proc l s) as [[v rc] s'] eqn:E. split; [exact (visit_prefix _ _ proc l s v rc s' E)|].
  unfold parse_tw_records. cbn [Z.eqb Pos.eqb]. exact P.
Qed.
Print Assumptions C26_parse_twoway.

Theorem C26_records_exist : forall R (dec : list Z -> option R) f len n pos, exists l, readable dec f pos len n l.
Proof. exact readable_exists. Qed.

(** Missing from the full claim: OWPParseRecords also accepts the version number of two-way files,
    and then overruns its buffer. *)
Theorem C26_refuted : exists version n f, parse_records (fun r (s : list datarec) => (0, s ++ [r])) version 0 n f [] = None.
Proof. exists 131, 1%nat, (repeat 0 50). reflexivity. Qed.
Print Assumptions C26_refuted.

(** three records, the application stops at the second *)
Definition sample_recs : list datarec :=
  [mkRec 5 (mkTS (3 * 2^60) 1 1 10) (mkTS (3 * 2^60 + 77) 1 1 10) 64; mkRec 4 (mkTS (3 * 2^60 + 9) 1 1 10) (mkTS 0 1 1 10) 255;
   mkRec 6 (mkTS (3 * 2^60 + 11) 1 1 10) (mkTS (3 * 2^60 + 99) 1 1 10) 64].
Definition sample_data : list Z := flat_map (fun r => match encode_datarec r with Some b => b | None => [] end) sample_recs.
Example C26_example :
  readable (decode_datarec 3) (sample_file ++ sample_data) 200 25 3 sample_recs /\
  parse_records (fun r s => (0, s ++ [r_seq r])) 3 200 3 (sample_file ++ sample_data) [] = Some (true, [5; 4; 6]) /\
  parse_records (fun r s => (0, s ++ [r_seq r])) 3 200 4 (sample_file ++ sample_data) [] = Some (false, [5; 4; 6]) /\
  parse_records (fun r s => (if r_seq r =? 4 then 1 else 0, s ++ [r_seq r])) 3 200 3 (sample_file ++ sample_data) [] = Some (true, [5; 4]).
Proof.
  split; [|repeat split; vm_compute; reflexivity].
  split; [cbn; lia|]. split; [|intros X; cbn [length sample_recs] in X; lia]. intros i r E. unfold sample_recs in E.
  assert (LL: length (sample_file ++ sample_data) = 275%nat) by (vm_compute; reflexivity). rewrite LL.
  destruct i as [|[|[|i]]]; cbn [nth_error] in E; try (destruct i; discriminate E); apply (f_equal (fun o => match o with Some x => x | None => r end)) in E; cbv beta iota in E; subst r; (split; [lia|vm_compute; reflexivity]).
Qed.

(** ** C27 *)

(** Completing a session file ... *)
Theorem C27_completion_is_writes : forall f odata ndata next skips, cleaned f odata ndata -> 25 * ndata < 2^32 ->
  exists h, read_initial f = Some h /\ complete_session next skips f = Some (do_writes (completion_writes h next skips) f).
Proof.
  intros f odata ndata next skips C N. pose proof (complete_is_writes f odata ndata next skips C N) as X. eexists. split; [|exact X].
  apply (cleaned_v3 f odata ndata skips C).
Qed.
Print Assumptions C27_completion_is_writes.

(** ... and dying after any number [k] of its writes: the file can be read, the data records are all
    there, and their number is right as soon as the file is marked as finished; before that it is
    too big by one for every 25 octets of skip records that have been written.
    Missing from the full claim: the number may be too big ([C27_refuted]). *)
Theorem C27_crash_partial : forall f odata ndata next skips h k, cleaned f odata ndata -> 25 * ndata < 2^32 ->
  Z.of_nat (length skips) < 2^28 -> read_initial f = Some h ->
  let g := do_writes (firstn k (completion_writes h next skips)) f in
  exists h', read_header g = Some (h', odata) /\
    hd_ndata h' = ndata + (if (length skips + 3 <=? k)%nat then 0 else 8 * Z.of_nat (Nat.min k (length skips)) / 25) /\
    (forall o l, (32 <= o)%nat -> (o + l <= length f)%nat -> octs_at g o l = octs_at f o l).
Proof.
  intros f odata ndata next skips h k C N S R.
  pose proof (cleaned_v3 f odata ndata skips C) as (R' & _). rewrite R in R'. assert (E := f_equal (fun o => match o with Some x => x | None => h end) R'). cbv beta iota in E. subst h. clear R R'.
  destruct (crash_header f odata ndata next skips C N S k) as (h' & A & B & D). exists h'. split; [exact A|]. split; [|exact D].
  rewrite B. destruct (length skips + 3 <=? k)%nat; lia.
Qed.
Print Assumptions C27_crash_partial.

(** With at most three skip ranges, all reported records are genuine at every crash point. *)
Theorem C27_crash_few_skips : forall f odata ndata next skips h k, cleaned f odata ndata -> 25 * ndata < 2^32 ->
  (length skips <= 3)%nat -> read_initial f = Some h ->
  exists h', read_header (do_writes (firstn k (completion_writes h next skips)) f) = Some (h', odata) /\ hd_ndata h' = ndata.
Proof.
  intros f odata ndata next skips h k C N S R.
  destruct (C27_crash_partial f odata ndata next skips h k C N ltac:(change (2^28) with 268435456; lia) R) as (h' & A & B & _). exists h'. split; [exact A|]. rewrite B.
  destruct (Nat.leb_spec (length skips + 3) k); [lia|]. rewrite Z.div_small by lia. lia.
Qed.
Print Assumptions C27_crash_few_skips.

Definition sample_cleaned : list Z := match write_ndata 3 (sample_file ++ sample_data) with Some f => f | None => [] end.
Lemma sample_is_cleaned : cleaned sample_cleaned 200 3.
Proof.
  unfold cleaned. repeat match goal with |- _ /\ _ => split end; try (vm_compute; first [reflexivity|discriminate]).
  assert (A: match decode_preamble false (octs_at sample_cleaned 40 112) 112 false 28 with PreOK _ => True | _ => False end) by (vm_compute; exact I).
  destruct (decode_preamble false (octs_at sample_cleaned 40 112) 112 false 28); try contradiction. eexists. reflexivity.
Qed.

(** Four skip ranges, death before the file is marked as finished: a fourth "data record", made of
    skip records, is reported - and delivered to the application. *)
Theorem C27_refuted : exists f odata ndata next skips h k h' recs,
  cleaned f odata ndata /\ 25 * ndata < 2^32 /\ Forall skip_ok skips /\ read_initial f = Some h /\
  let g := do_writes (firstn k (completion_writes h next skips)) f in
  read_header g = Some (h', odata) /\ ndata < hd_ndata h' /\
  parse_records (fun r s => (0, s ++ [r])) 3 (Z.to_nat odata) (Z.to_nat (hd_ndata h')) g [] = Some (true, recs) /\
  map r_seq recs = [5; 4; 6; 10].
Proof.
  set (sk := [mkSkip 10 65537; mkSkip 70000 70000; mkSkip 80000 80001; mkSkip (2^17) (2^18)]).
  assert (A: exists h, read_initial sample_cleaned = Some h /\
     match read_header (do_writes (firstn 4 (completion_writes h 1000 sk)) sample_cleaned) with Some (h', o) => o = 200 /\ hd_ndata h' = 4 | None => False end /\
     match parse_records (fun r s => (0, s ++ [r])) 3 200 4 (do_writes (firstn 4 (completion_writes h 1000 sk)) sample_cleaned) [] with
     Some (true, recs) => map r_seq recs = [5; 4; 6; 10] | _ => False end).
  { exists (mkIH 3 25 200 2 0 0 3 0 200 275 true). split; [vm_compute; reflexivity|]. split; vm_compute; auto. }
  destruct A as (h & R & A & B).
  destruct (read_header (do_writes (firstn 4 (completion_writes h 1000 sk)) sample_cleaned)) as [[h' o]|] eqn:H; [|contradiction]. destruct A as (-> & A).
  destruct (parse_records (fun r s => (0, s ++ [r])) 3 200 4 (do_writes (firstn 4 (completion_writes h 1000 sk)) sample_cleaned) []) as [[[] recs]|] eqn:P; try contradiction.
  exists sample_cleaned, 200, 3, 1000, sk, h, 4%nat, h', recs.
  split; [apply sample_is_cleaned|]. split; [lia|]. split; [unfold sk; repeat (apply Forall_cons; [unfold skip_ok; cbn [sk_begin sk_end]; lia|]); apply Forall_nil|]. split; [exact R|].
  cbv zeta. split; [exact H|]. rewrite A. split; [lia|]. split; [exact P|exact B].
Qed.
Print Assumptions C27_refuted.

(** ** C28 *)

(** For a one-way session with one record per packet.  Partial: schedules below 2^28 - 1 slots and
    fewer than 171798692 packets. *)
Theorem C28_estimate_partial : forall junk h slots f, octet_string 112 junk -> header_ok h slots -> hd_twoway h = false ->
  Z.of_nat (length slots) + 1 < 2^28 -> 25 * ts_npackets (hd_spec h) < 2^32 -> write_header junk h = Some f ->
  Z.of_nat (length f) + 25 * ts_npackets (hd_spec h) <= test_diskspace (hd_spec h).
Proof. exact diskspace_enough. Qed.
Print Assumptions C28_estimate_partial.

(** each record adds 25 octets *)
Theorem C28_record_size : forall r f g, write_record r f = Some g -> length g = (length f + 25)%nat.
Proof.
  intros r f g W. unfold write_record in W. destruct (encode_datarec r) as [b|] eqn:E; [|discriminate]. injection W as <-. rewrite app_length. f_equal.
  destruct (encode_errest (r_send r)) as [se|] eqn:SE; [|unfold encode_datarec in E; rewrite SE in E; discriminate].
  destruct (encode_errest (r_recv r)) as [re|] eqn:RE; [|unfold encode_datarec in E; rewrite SE, RE in E; discriminate].
  rewrite (encode_datarec_octs r se re SE RE) in E. injection E as <-. unfold encode_errest in SE, RE.
  destruct (_ =? 0) in SE; [discriminate|]. destruct (_ =? 0) in RE; [discriminate|]. injection SE as <-. injection RE as <-. reflexivity.
Qed.

(** 171798692 packets (4.3 GB): the estimate is 380 octets. *)
Theorem C28_refuted : exists t, tspec_ok t /\ 1 <= ts_npackets t /\ test_diskspace t < 400 /\ 4000000000 < 25 * ts_npackets t.
Proof. exists (mkTSpec (3 * 2^60 + 5) (2^33) 184 100 171798692 1 (Some [SlotLit 7])). repeat split; vm_compute; congruence. Qed.
Print Assumptions C28_refuted.

Example C28_example : test_diskspace sample_spec = 25216 /\ Z.of_nat (length sample_file) + 25 * 1000 = 25200.
Proof. split; vm_compute; reflexivity. Qed.

(** ** C29, the file: what the receiver stores when the session is completed *)
Theorem C29_skips_in_file : forall f odata ndata next skips,
  cleaned f odata ndata -> 25 * ndata < 2^32 -> 0 <= next < 2^32 ->
  Forall (fun s => 0 <= sk_begin s < 2^32 /\ 0 <= sk_end s < 2^32) skips -> Z.of_nat (length skips) < 2^28 ->
  exists g, complete_session next skips f = Some g /\
    (exists h', read_header g = Some (h', odata) /\ hd_ndata h' = ndata /\ hd_finished h' = 1 /\ hd_next h' = next /\ hd_nskip h' = Z.of_nat (length skips)) /\
    read_data_skips (Z.of_nat (length skips)) g = Some skips /\
    (forall o l, (32 <= o)%nat -> (o + l <= length f)%nat -> octs_at g o l = octs_at f o l).
Proof. exact completed. Qed.
Print Assumptions C29_skips_in_file.

Example C29_file_example :
  match complete_session 1000 [mkSkip 2 3; mkSkip 500 700] sample_cleaned with
  | Some g => read_data_skips 2 g = Some [mkSkip 2 3; mkSkip 500 700] | None => False end.
Proof. vm_compute. reflexivity. Qed.

(** The records a finished session announces are all there: a file that is too short is refused. *)
Theorem C26_announced_records_present : forall f h pos, octets f -> read_header f = Some (h, pos) -> hd_version h = 3 -> hd_finished h = 1 -> 0 < hd_ndata h ->
  0 <= pos /\ pos = hd_odata h /\ hd_ndata h = field f 20 4 /\ pos + 25 * hd_ndata h <= Z.of_nat (length f).
Proof.
  intros f h pos O R V F N. unfold read_header in R. destruct (read_initial f) as [i|] eqn:RI; [|discriminate].
  assert (K: ih_version i = hd_version h /\ ih_finished i = hd_finished h /\ ih_recsize i = hd_recsize h /\ ih_hdrlen i = pos /\ ih_odata i = hd_odata h /\
    0 <= ih_hdrlen i /\ ih_ndata i <= Z.quot (ih_size i - ih_hdrlen i) (ih_recsize i) /\
    (negb (ih_finished i =? FIN_NORMAL) || negb (Z.land (ih_version i) 128 =? 0) = false -> hd_ndata h = ih_ndata i)).
  { destruct (2 <=? ih_version i).
    - destruct (fread _ 112 f) as [m|]; [|discriminate]. destruct (decode_preamble _ _ _ _ _) as [p| |]; try discriminate.
      destruct (Z.ltb_spec (ih_hdrlen i) 0); [discriminate|]. destruct (Z.ltb_spec (Z.quot (ih_size i - ih_hdrlen i) (ih_recsize i)) (ih_ndata i)); [discriminate|].
      injection R as <- <-. cbn [hd_version hd_finished hd_recsize hd_odata hd_ndata]. repeat (split; [auto|]). intros ->. reflexivity.
    - destruct (Z.ltb_spec (ih_hdrlen i) 0); [discriminate|]. destruct (Z.ltb_spec (Z.quot (ih_size i - ih_hdrlen i) (ih_recsize i)) (ih_ndata i)); [discriminate|].
      injection R as <- <-. cbn [hd_version hd_finished hd_recsize hd_odata hd_ndata]. repeat (split; [auto|]). intros ->. reflexivity. }
  destruct K as (K1 & K2 & _ & K4 & K5 & K6 & K7 & K8). rewrite V in K1. rewrite F in K2. rewrite K1, K2 in K8. specialize (K8 eq_refl). clear R.
  unfold read_initial in RI. destruct (Z.of_nat (length f) <? 16); [discriminate|]. destruct (negb _); [discriminate|].
  set (v := be_dec (sub 4 4 f)) in RI. destruct ((v =? 0) || (v =? 2)) eqn:V02.
  { exfalso. destruct (v =? 0) eqn:E0; [injection RI as <-; cbn [ih_version] in K1; apply Z.eqb_eq in E0; lia|].
    destruct (fread 16 4 f); [|discriminate]. injection RI as <-. cbn [ih_version] in K1. cbn [orb] in V02. apply Z.eqb_eq in V02. lia. }
  destruct ((v =? 3) || (v =? 131)) eqn:V3; [|discriminate]. destruct (fread 0 40 f) as [b|] eqn:FR; [|discriminate]. injection RI as <-.
  cbn [ih_version ih_finished ih_recsize ih_hdrlen ih_odata ih_size ih_ndata] in *. rewrite K1 in K7. cbn [Z.eqb Pos.eqb] in K7.
  unfold fread in FR. destruct (length f <? 0 + 40)%nat eqn:L; [discriminate|]. injection FR as <-.
  assert (NE: sub 20 4 (sub 0 40 f) = octs_at f 20 4). { unfold sub, octs_at. rewrite skipn_O. rewrite skipn_firstn_comm. rewrite firstn_firstn. reflexivity. }
  rewrite NE in *. unfold field. rewrite K8 in N |- *.
  assert (NN: number (octs_at f 20 4) = be_dec (octs_at f 20 4)) by apply number_be. rewrite NN. set (n := be_dec (octs_at f 20 4)) in *. clearbody n. clear NN NE.
  split; [lia|]. split; [congruence|]. split; [reflexivity|].
  assert (Q: 0 <= Z.of_nat (length f) - pos).
  { destruct (Z.leb_spec 0 (Z.of_nat (length f) - pos)) as [|LT]; [assumption|]. exfalso. rewrite K4 in K7.
    assert (Z.quot (Z.of_nat (length f) - pos) 25 <= 0); [|lia]. replace (Z.of_nat (length f) - pos) with (- (pos - Z.of_nat (length f))) by lia. rewrite Z.quot_opp_l by lia.
    pose proof (Z.quot_pos (pos - Z.of_nat (length f)) 25 ltac:(lia) ltac:(lia)). lia. }
  rewrite K4 in K7. rewrite Z.quot_div_nonneg in K7 by lia. pose proof (Z.mul_div_le (Z.of_nat (length f) - pos) 25 ltac:(lia)). lia.
Qed.
Print Assumptions C26_announced_records_present.
Example C26_announced_example :
  match complete_session 1000 [] sample_cleaned with
  | Some g => match read_header g with
              | Some (h, pos) => (hd_version h =? 3) && (hd_finished h =? 1) && (0 <? hd_ndata h) = true /\
                                 read_header (firstn (Z.to_nat pos + 25 * (Z.to_nat (hd_ndata h) - 1)) g) = None
              | None => False end
  | None => False end.
Proof. vm_compute. split; reflexivity. Qed.
