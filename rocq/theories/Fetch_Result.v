(** Proofs about fetching sessions: the file the client writes can be read. *)
From Coq Require Import ZArith List Bool Lia ZifyBool ZifyNat Arith.
From Verif Require Import Base BaseLemmas Time_Model Time_Proofs Sched_Model Wire_Model Wire_Spec Wire_Proofs Control_Model File_Model File_Spec File_Proofs File_Updates
  Server_Model Fetch_Model Fetch_Spec Fetch_Proofs.
Import ListNotations.
Open Scope Z_scope.
Ltac Zify.zify_post_hook ::= Z.div_mod_to_equations.

(** pieces of the same length behind one another *)
Lemma concat_nth : forall w (l : list (list Z)) i b pre post, Forall (fun o => length o = w) l -> nth_error l i = Some b ->
  octs_at (pre ++ concat l ++ post) (length pre + w * i) w = b.
Proof.
  intros w l i b pre post F. revert i b pre. induction F as [|x l X F IH]; intros i b pre I; [destruct i; discriminate|].
  destruct i as [|i]; cbn [nth_error] in I.
  - assert (EX: x = b) by congruence. rewrite <- EX. cbn [concat]. unfold octs_at.
    rewrite Nat.mul_0_r, Nat.add_0_r, skipn_app, skipn_all, Nat.sub_diag. cbn [app skipn].
    rewrite <- app_assoc, firstn_app, X, Nat.sub_diag. change (firstn 0 (concat l ++ post)) with (@nil Z). rewrite app_nil_r, <- X. apply firstn_all.
  - cbn [concat]. rewrite <- app_assoc. rewrite app_assoc. rewrite <- (IH i b (pre ++ x) I). f_equal. rewrite app_length. lia.
Qed.

Lemma pieces : forall f w n pos, concat (map (fun i => octs_at f (pos + w * i) w) (seq 0 n)) = octs_at f pos (w * n).
Proof.
  intros f w. induction n as [|n IH]; intros pos; [rewrite Nat.mul_0_r; reflexivity|].
  rewrite <- cons_seq. cbn [map concat]. rewrite <- seq_shift, map_map.
  rewrite (map_ext _ (fun i => octs_at f ((pos + w) + w * i) w)) by (intros; f_equal; lia). rewrite IH.
  unfold octs_at. rewrite Nat.mul_0_r, Nat.add_0_r. replace (w * S n)%nat with (w + w * n)%nat by lia.
  clear. revert pos f. generalize (w * n)%nat. intros k. induction pos as [|pos IH]; intros f.
  - cbn [Nat.add skipn]. revert f. induction w as [|w IH]; intros f; [reflexivity|].
    destruct f; cbn [firstn skipn app Nat.add]; [now rewrite firstn_nil|]. f_equal. apply IH.
  - destruct f; cbn [Nat.add skipn]; [rewrite !firstn_nil; reflexivity|]. apply IH.
Qed.

Lemma decode_skips_pieces : forall skips sk pre post, Forall2 skip_octets skips sk ->
  decode_skips (length pre) (length skips) (pre ++ concat sk ++ post) = Some skips.
Proof.
  induction skips as [|s skips IH]; intros sk pre post F; inversion F as [|? x ? sk' X F']; subst; [reflexivity|].
  cbn [length decode_skips concat]. destruct X as (L & B & E1). unfold fread. rewrite !app_length, L.
  destruct (Nat.ltb_spec (length pre + (8 + length (concat sk') + length post)) (length pre + 8)); [lia|].
  assert (EX: sub (length pre) 8 (pre ++ (x ++ concat sk') ++ post) = x).
  { unfold sub. rewrite skipn_app, skipn_all, Nat.sub_diag. cbn [app skipn]. rewrite <- app_assoc, firstn_app, L, Nat.sub_diag.
    change (firstn 0 (concat sk' ++ post)) with (@nil Z). rewrite app_nil_r, <- L. apply firstn_all. }
  rewrite EX. replace (pre ++ (x ++ concat sk') ++ post) with ((pre ++ x) ++ concat sk' ++ post) by now rewrite <- !app_assoc.
  replace (length pre + 8)%nat with (length (pre ++ x)) by (rewrite app_length; lia). rewrite IH by exact F'.
  unfold decode_skip. rewrite !be_field, B, E1. now destruct s.
Qed.

(** what a decoded request is *)
Lemma preamble_ok : forall m p, octet_string 112 m -> decode_preamble false m 112 false 28 = PreOK p ->
  sa_ok (p_sender p) /\ sa_ok (p_receiver p) /\ sa_family (p_sender p) = sa_family (p_receiver p) /\ sa_family (p_sender p) <> AF_OTHER /\
  octet_string 16 (p_sid p) /\ (p_conf_sender p = true \/ p_conf_receiver p = true) /\
  forall sl, tspec_ok (mkTSpec (p_start p) (p_timeout p) (p_typeP p) (p_padding p) (p_npackets p) (p_nslots p) sl).
Proof.
  intros m p (L & O) DP. apply decode_preamble_iff in DP; [|split; assumption|lia].
  destruct DP as (_ & (V & CF) & (F1 & F2 & F3 & F4 & F5 & F6 & F7 & F8 & F9 & F10 & F11 & F12)).
  assert (FB: forall o n, 0 <= field m o n < 256 ^ Z.of_nat n) by (intros; now apply field_bound).
  assert (OL: forall o n, (o + n <= 112)%nat -> octet_string n (octs_at m o n)) by (intros; split; [apply octs_len; lia|now apply octets_sub]).
  cbn [andb] in F6, F7.
  pose proof (FB 4 4)%nat. pose proof (FB 8 4)%nat. pose proof (FB 12 2)%nat. pose proof (FB 14 2)%nat. pose proof (FB 64 4)%nat. pose proof (FB 68 8)%nat.
  pose proof (FB 76 8)%nat. pose proof (FB 84 4)%nat.
  change (256 ^ Z.of_nat 4) with (2^32) in *. change (256 ^ Z.of_nat 8) with (2^64) in *. change (256 ^ Z.of_nat 2) with (2^16) in *.
  assert (SA: forall q o, 0 <= q < 2^16 -> (o + 16 <= 112)%nat -> sa_ok (mkSA (if p_ipvn p =? 6 then AF_INET6 else AF_INET) q (octs_at m o (if p_ipvn p =? 6 then 16%nat else 4%nat)))).
  { intros q o Q Oo. unfold sa_ok. cbn [sa_port sa_addr sa_family]. split; [exact Q|]. destruct (p_ipvn p =? 6).
    - destruct (OL o 16%nat Oo) as (A & B). split; assumption.
    - destruct (OL o 4%nat ltac:(lia)) as (A & B). split; assumption. }
  split; [rewrite F6; apply SA; lia|]. split; [rewrite F7; apply SA; lia|]. split; [rewrite F6, F7; reflexivity|].
  split; [rewrite F6; cbn [sa_family]; destruct (p_ipvn p =? 6); discriminate|]. split; [rewrite F8; apply OL; lia|].
  split; [tauto|]. intros sl. unfold tspec_ok. cbn [ts_start ts_timeout ts_typeP ts_padding ts_npackets ts_nslots].
  rewrite F4, F5, F9, F10, F11, F12. auto 10.
Qed.

Lemma slot_decoded_ok : forall b s, octet_string 16 b -> decode_slot b = Some s -> slot_ok s.
Proof.
  intros b s O DS. pose proof O as (L & F). apply decode_slot_iff in DS; [|exact O]. unfold slot_ok.
  assert (FB: forall o n, 0 <= field b o n < 256 ^ Z.of_nat n) by (intros; now apply field_bound). pose proof (FB 8 8)%nat as X.
  change (256 ^ Z.of_nat 8) with (2^64) in X. destruct DS as [(_ & ->) | (_ & ->)]; exact X.
Qed.

Section Result.
Context {f : list Z} {fin next : Z} {p : preamble} {slots : list slot} {skips : list skiprec} {recs : list datarec}
  (SF : session_file f fin next p slots skips recs).

Lemma result_reads : forall junk got sk rc, octet_string 112 junk ->
  Forall2 skip_octets skips sk -> Forall2 record_octets got rc -> Z.of_nat (length got) < 2^32 ->
  exists hd, write_header junk (mkHdr 0 0 false fin next (Z.of_nat (length skips)) (Z.of_nat (length got)) 0 0 (p_sender p) (p_receiver p)
      (p_conf_sender p) (p_conf_receiver p) (p_sid p)
      (mkTSpec (p_start p) (p_timeout p) (p_typeP p) (p_padding p) (p_npackets p) (p_nslots p) (Some slots))) = Some hd /\
    reads_as (hd ++ concat sk ++ concat rc) fin next p slots skips got.
Proof.
  intros junk got sk rc J SK RC LG.
  pose proof (sf_odata SF) as (_ & _ & _ & LF). unfold odata in LF.
  destruct SF as (O & _ & _ & FI & FI2 & NX & DP & NP & NS1 & NSL & NB & SLO & _ & _ & NSK & _).
  assert (O112: octet_string 112 (octs_at f 40 112)) by (split; [apply octs_len; lia|now apply octets_sub]).
  destruct (preamble_ok _ _ O112 DP) as (A1 & A2 & A3 & A4 & A5 & A6 & A7).
  assert (NX2: 0 <= next < 2^32) by (rewrite <- NX; apply (field_bound f 12 4 O)).
  set (h := mkHdr 0 0 false fin _ _ _ 0 0 _ _ _ _ _ _).
  assert (HO: header_ok h slots).
  { unfold header_ok, h. cbn [hd_sender hd_receiver hd_sid hd_spec hd_twoway hd_csender hd_creceiver hd_next hd_nskip hd_ndata ts_npackets ts_nslots ts_slots].
    split; [exact A1|]. split; [exact A2|]. split; [exact A3|]. split; [exact A4|]. split; [exact A5|]. split; [apply A7|]. split; [exact NP|]. split; [reflexivity|].
    split. { apply Forall_forall. intros s I. apply In_nth_error in I. destruct I as (i & I). pose proof (SLO i s I) as DS.
      assert ((i < length slots)%nat) by (apply nth_error_Some; congruence).
      eapply slot_decoded_ok; [|exact DS]. split; [apply octs_len; lia|now apply octets_sub]. }
    split; [exact NS1|]. split; [exact NSL|]. split; [intros _; exact A6|]. lia. }
  destruct (write_header_some junk h slots HO) as (hd & W). exists hd. split; [exact W|].
  assert (L8: length (concat sk) = (8 * length skips)%nat).
  { rewrite (concat_len 8); [f_equal; symmetry; eapply Forall2_len; exact SK|]. clear - SK. induction SK as [|s b l l' (X & _) F IH]; constructor; auto. }
  assert (F25: Forall (fun o => length o = 25%nat) rc) by (clear - RC; induction RC as [|r b l l' (X & _) F IH]; constructor; auto).
  pose proof (Forall2_len _ _ _ _ _ RC) as LR.
  assert (L25: length (concat rc) = (25 * length got)%nat) by (rewrite (concat_len 25) by exact F25; lia).
  destruct (header_roundtrip junk h slots hd (concat sk ++ concat rc) J HO ltac:(lia) ltac:(exact NSK) W) as (LH & K).
  cbv zeta in K. unfold rec_len, h in K.
  cbn [hd_sender hd_receiver hd_sid hd_spec hd_twoway hd_csender hd_creceiver hd_next hd_nskip hd_ndata hd_finished hd_recsize ts_start ts_timeout ts_typeP ts_padding ts_npackets ts_nslots ts_slots] in K.
  rewrite app_length, L8, L25 in K.
  replace (Z.of_nat (8 * length skips + 25 * length got) - 8 * Z.of_nat (length skips)) with (25 * Z.of_nat (length got)) in K by lia.
  replace (25 * Z.of_nat (length got) / 25) with (Z.of_nat (length got)) in K by lia.
  destruct K as (h' & R & K1 & K2 & _ & _ & K3 & K4 & K5 & K6 & K7 & K8 & K9 & K10 & K11 & K12 & K13 & K14 & K15 & K16); [lia|lia|lia|].
  exists h', (hd_odata h'). split; [exact R|]. split; [exact K5|]. split; [exact K3|].
  split. { rewrite K6. destruct FI2 as [-> | ->]; reflexivity. }
  split; [exact K7|]. split; [exact K10|]. split; [exact K11|]. split; [exact K12|]. split; [exact K13|]. split; [exact K14|]. split; [exact K15|].
  split; [exact K16|]. split; [exact K8|].
  split.
  { intros NE. rewrite K8. unfold read_data_skips.
    assert (N0: Z.of_nat (length skips) <> 0) by (destruct skips; [contradiction|cbn; lia]).
    assert (RI: exists ih, read_initial (hd ++ concat sk ++ concat rc) = Some ih /\ ih_version ih = 3 /\ ih_nskip ih = Z.of_nat (length skips) /\ ih_oskip ih = Z.of_nat (length hd)).
    { unfold read_header in R. destruct (read_initial (hd ++ concat sk ++ concat rc)) as [ih|]; [|discriminate]. exists ih. split; [reflexivity|].
      cbv zeta in R.
      assert (RR: ih_version ih = hd_version h' /\ ih_nskip ih = hd_nskip h' /\ ih_oskip ih = hd_oskip h').
      { clear - R. destruct (2 <=? ih_version ih).
        - destruct (fread _ 112 _) as [m|]; [|discriminate]. destruct (decode_preamble false m 112 false 128); try discriminate.
          destruct (ih_hdrlen ih <? 0); [discriminate|]. destruct (_ <? ih_ndata ih); [discriminate|]. apply (f_equal (fun x => match x with Some y => fst y | None => h' end)) in R.
          cbn [fst] in R. rewrite <- R. auto.
        - destruct (ih_hdrlen ih <? 0); [discriminate|]. destruct (_ <? ih_ndata ih); [discriminate|]. apply (f_equal (fun x => match x with Some y => fst y | None => h' end)) in R.
          cbn [fst] in R. rewrite <- R. auto. }
      destruct RR as (-> & -> & ->). rewrite K5, K8, (K2 N0). auto. }
    destruct RI as (ih & -> & -> & -> & ->). cbn [Z.ltb Z.compare Pos.compare Pos.compare_cont]. rewrite Z.eqb_refl. cbn [negb].
    destruct (Z.ltb_spec (Z.of_nat (length hd)) 0); [lia|]. rewrite !Nat2Z.id. apply decode_skips_pieces, SK. }
  split. { rewrite K9. destruct ((fin =? 1) && negb false); reflexivity. }
  split; [lia|]. split.
  { intros i r I. assert (NE: exists b, nth_error rc i = Some b /\ record_octets r b).
    { clear - RC I. revert i I. induction RC as [|r0 b l l' X F IH]; intros i I; [destruct i; discriminate|]. destruct i; cbn [nth_error] in *.
      - exists b. split; [reflexivity|]. assert (r0 = r) by congruence. subst. exact X.
      - exact (IH i I). }
    destruct NE as (b & Nb & (Lb & Db)). unfold nth_record. rewrite K1.
    pose proof (concat_nth 25 rc i b (hd ++ concat sk) [] F25 Nb) as CN. rewrite app_nil_r, <- app_assoc, app_length, L8 in CN.
    replace (Z.to_nat (Z.of_nat (length hd) + 8 * Z.of_nat (length skips))) with (length hd + 8 * length skips)%nat by lia. rewrite CN. exact Db. }
  rewrite K1, !app_length, L8, L25. lia.
Qed.

End Result.
