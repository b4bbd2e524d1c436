(** Fetching a session from the file of the server to the file of the client. *)
From Coq Require Import ZArith List Bool Lia ZifyBool ZifyNat Arith.
From Verif Require Import Base BaseLemmas Puts Time_Model Time_Proofs Sched_Model Wire_Model Wire_Spec Wire_Proofs Control_Model Control_Spec
  Control_Proofs Control_Integrity Stop_Model Stop_Spec Stop_Proofs Stop_Exchange File_Model File_Spec File_Proofs File_Updates
  Server_Model Fetch_Model Fetch_Spec Fetch_Proofs Fetch_Result Fetch_Exchange.
Import ListNotations.
Open Scope Z_scope.
Ltac Zify.zify_post_hook ::= Z.div_mod_to_equations.

Lemma octs_app : forall f pos a b, octs_at f pos a ++ octs_at f (pos + a) b = octs_at f pos (a + b).
Proof.
  intros f pos a b. unfold octs_at. revert f. induction pos as [|pos IH]; intros f.
  - cbn [Nat.add skipn]. revert f. induction a as [|a IH]; intros f; [reflexivity|].
    destruct f; cbn [firstn skipn app Nat.add]; [now rewrite firstn_nil|]. f_equal. apply IH.
  - destruct f; cbn [Nat.add skipn]; [rewrite !firstn_nil; reflexivity|]. apply IH.
Qed.

Lemma sections_chunks : forall l r s t, sections r = Some (s :: t) -> sections (map Chunk l ++ r) = Some ((concat l ++ s) :: t).
Proof. induction l as [|b l IH]; intros r s t R; cbn [map app sections concat]; [exact R|]. rewrite (IH r s t R). now rewrite app_assoc. Qed.

(** turn the buffer [t] into a chain of writes whose shape is [sh] (as in Control_Proofs) *)
Ltac to_writes t sh SH :=
  let r := reify_puts t (@nil (nat * list Z)) in
  match r with (?ws, ?b) =>
    change t with (writes ws b);
    assert (SH: shape ws = sh) by (unfold shape; cbn [map fst snd]; rewrite ?zeros_length, ?be_enc_length; cbn [length]; congruence)
  end.
Ltac wlen n SH :=
  match type of SH with shape ?ws = ?sh =>
    match goal with |- context [length (writes ws ?b)] =>
      rewrite (len_writes n ws sh b SH) by first [vm_compute; reflexivity | lia] end end.

Section File.
Context {f : list Z} {fin next : Z} {p : preamble} {slots : list slot} {skips : list skiprec} {recs : list datarec}
  (SF : session_file f fin next p slots skips recs).

Let pos := Z.to_nat (field f 24 8).
Definition skip_pieces : list (list Z) := map (fun i => octs_at f (pos + 8 * i) 8) (seq 0 (length skips)).
Lemma sf_pieces : Forall2 skip_octets skips skip_pieces.
Proof.
  assert (LF: field f 24 8 + 8 * Z.of_nat (length skips) <= Z.of_nat (length f)) by apply SF.
  assert (B: 0 <= field f 24 8). { apply (field_bound f 24 8). apply SF. }
  assert (SK: forall i s, nth_error skips i = Some s -> sk_begin s = field f (pos + 8 * i) 4 /\ sk_end s = field f (pos + 8 * i + 4) 4) by apply SF.
  unfold skip_pieces.
  assert (G: forall l n, (n + length l <= length skips)%nat -> (forall i s, nth_error l i = Some s -> nth_error skips (n + i) = Some s) ->
     Forall2 skip_octets l (map (fun i => octs_at f (pos + 8 * i) 8) (seq n (length l)))).
  { induction l as [|x l IH]; intros n Ln X; cbn [length seq map]; constructor.
    - pose proof (X 0%nat x eq_refl) as N0. rewrite Nat.add_0_r in N0. destruct (SK n x N0) as (A1 & A2).
      cbn [length] in Ln. assert (PL: (pos + 8 * n + 8 <= length f)%nat) by (unfold pos; lia).
      split; [apply octs_len; exact PL|].
      assert (FS: forall o, (o + 4 <= 8)%nat -> field (octs_at f (pos + 8 * n) 8) o 4 = field f (pos + 8 * n + o) 4).
      { intros o Oo. unfold field. f_equal. change octs_at with (fun m o l => sub o l m). cbv beta. rewrite sub_sub by lia. reflexivity. }
      rewrite !FS by lia. rewrite A1, A2, Nat.add_0_r. auto.
    - apply IH; [cbn [length] in Ln; lia|]. intros i s I. replace (S n + i)%nat with (n + S i)%nat by lia. now apply X. }
  apply (G skips 0%nat); auto.
Qed.

(** the blocks of skip records: whole ones and the last one *)
Lemma sf_skip_split : skips <> [] -> exists whole lst,
  skip_blocks (f := f) (skips := skips) = whole ++ [lst ++ zeros (16 - 8 * (length skips - 2 * ((length skips - 1) / 2)))] /\
  length whole = ((length skips - 1) / 2)%nat /\ Forall (fun b => length b = 16%nat) whole /\
  length lst = (8 * (length skips - 2 * ((length skips - 1) / 2)))%nat /\ concat whole ++ lst = concat skip_pieces.
Proof.
  intros NE. assert (N1: (1 <= length skips)%nat) by (destruct skips; [contradiction|cbn; lia]).
  assert (LF: field f 24 8 + 8 * Z.of_nat (length skips) <= Z.of_nat (length f)) by apply SF.
  assert (B: 0 <= field f 24 8). { apply (field_bound f 24 8). apply SF. }
  exists (blocks_at (f := f) pos ((length skips - 1) / 2)),
    (octs_at f (pos + 16 * ((length skips - 1) / 2)) (8 * (length skips - 2 * ((length skips - 1) / 2)))).
  split. { unfold skip_blocks. destruct skips; [contradiction|]. reflexivity. }
  split; [unfold blocks_at; now rewrite map_length, seq_length|]. split.
  { unfold blocks_at. apply Forall_forall. intros x I. apply in_map_iff in I. destruct I as (i & <- & I). apply in_seq in I. apply octs_len. unfold pos. lia. }
  split; [apply octs_len; unfold pos; lia|].
  unfold blocks_at, skip_pieces. rewrite !pieces, octs_app. f_equal. lia.
Qed.

Definition short : Prop := fin = 1 -> recs = [] -> Z.of_nat (length f) < 152 + 16 * (Z.of_nat (length slots) + 1) + 25.

Lemma sf_settled : forall tries b e h, short -> settle 11 0 0 0 tries b e = Settled f h -> h = served (f := f) (fin := fin) (next := next) (slots := slots) (skips := skips) (recs := recs).
Proof.
  intros tries b e h SH X. destruct (sf_odata SF) as (OD & _ & OB & LF). assert (F12: fin = 1 \/ fin = 2) by apply SF.
  assert (LB: Z.of_nat (length recs) < 2^32) by apply SF.
  assert (ND: if (fin =? 2) && (field f 20 4 =? 0) then Z.of_nat (length recs) = (Z.of_nat (length f) - field f 32 8) / 25 else field f 20 4 = Z.of_nat (length recs)) by apply SF.
  destruct (settle_ok _ _ _ _ _ _ _ _ _ X) as (k & _ & [(T & R & V & FN)|(T & h0 & R & -> & _)]); rewrite (sf_initial SF) in R.
  - assert (HH: h = mkIH 3 25 (odata (slots := slots)) fin next (Z.of_nat (length skips)) (field f 20 4) (field f 24 8) (odata (slots := slots)) (Z.of_nat (length f)) true) by congruence.
    rewrite HH in FN |- *. cbn [ih_finished] in FN. unfold FIN_NORMAL in FN. replace (fin =? 2) with false in ND by lia. cbn [andb] in ND. unfold served. now rewrite ND.
  - assert (HH: h0 = mkIH 3 25 (odata (slots := slots)) fin next (Z.of_nat (length skips)) (field f 20 4) (field f 24 8) (odata (slots := slots)) (Z.of_nat (length f)) true) by congruence.
    rewrite HH. unfold adjusted, served. cbn [ih_version ih_recsize ih_hdrlen ih_finished ih_next ih_nskip ih_ndata ih_oskip ih_odata ih_size ih_header]. f_equal.
    rewrite OD in ND. unfold odata in *. destruct (Z.eqb_spec (field f 20 4) 0) as [N0|N0].
    + destruct F12 as [F1|F1].
      * replace (fin =? 2) with false in ND by lia. cbn [andb] in ND. assert (RN: recs = []) by (apply length_zero_iff_nil; lia).
        specialize (SH F1 RN). rewrite Z.quot_div_nonneg by lia. unfold u32. rewrite Z.mod_small by (change M32 with (2^32); lia). lia.
      * replace (fin =? 2) with true in ND by lia. cbn [andb] in ND. rewrite Z.quot_div_nonneg by lia. rewrite <- ND. unfold u32. rewrite Z.mod_small by (change M32 with (2^32); lia). lia.
    + replace ((fin =? 2) && false) with false in ND by (now rewrite andb_false_r). exact ND.
Qed.

Lemma sf_stable : forall tries b e, short -> (forall i, fst (tries i) = f /\ (fin = 1 \/ snd (tries i) = Locked f)) ->
  ~ (fin = 2 /\ b = 0 /\ e = 4294967295) -> settle 11 0 0 0 tries b e = Settled f (served (f := f) (fin := fin) (next := next) (slots := slots) (skips := skips) (recs := recs)).
Proof.
  intros tries b e SH ST NC. assert (F12: fin = 1 \/ fin = 2) by apply SF.
  assert (G: exists h, settle 11 0 0 0 tries b e = Settled f h).
  { assert (K: forall n, exists h, settle (S n) 0 0 0 tries b e = Settled f h); [intros n|exact (K 10%nat)]. cbn [settle]. destruct (ST 0%nat) as (S1 & S2). destruct (tries 0%nat) as [f0 lk]. cbn [fst snd] in S1, S2. subst f0. rewrite (sf_initial SF).
    cbn [ih_version ih_finished]. cbn [Z.eqb Pos.eqb negb]. unfold FIN_ERROR, FIN_NORMAL. replace (fin =? 0) with false by lia.
    destruct (Z.eqb_spec fin 1) as [F1|F1]; [eauto|]. destruct S2 as [S2|S2]; [lia|]. rewrite S2, (sf_initial SF). cbn [ih_finished].
    replace ((b =? 0) && (e =? 4294967295) && negb (fin =? 1)) with false by lia. eauto. }
  destruct G as (h & G). rewrite G. f_equal. eapply sf_settled; eauto.
Qed.

(** what is sent for a settled file *)
Lemma sf_sections : forall b e, exists pre body sl sk rc p1 p2,
  transfer f (served (f := f) (fin := fin) (next := next) (slots := slots) (skips := skips) (recs := recs)) b e = FSend fin next (Z.of_nat (length skips)) (Z.of_nat (length (wanted fin b e recs))) (Some pre) body /\
  pre = octs_at f 40 112 /\ Forall2 slot_octets slots sl /\ Forall2 skip_octets skips sk /\ Forall2 record_octets (wanted fin b e recs) rc /\
  sections body = Some [concat sl; concat sk ++ zeros p1; concat rc ++ zeros p2] /\ Forall chunk_ok body /\ (p1 < 16)%nat /\ (p2 < 17)%nat.
Proof.
  intros b e. destruct (sf_transfer SF b e) as (rc & RC & T).
  assert (F25: Forall (fun o => length o = 25%nat) rc) by (clear - RC; induction RC as [|r o l l' (_ & (X & _) & _) F IH]; constructor; auto).
  assert (R2: Forall2 record_octets (wanted fin b e recs) rc).
  { clear - RC. induction RC as [|r o l l' (_ & (X & _) & Y) F IH]; constructor; auto. split; assumption. }
  pose proof (sf_slots_blocks SF) as SB.
  assert (BL: Forall (fun x => length x = 16%nat) (blocks_at (f := f) 152 (length slots))).
  { clear - SB. induction SB as [|r o l l' (X & _) F IH]; constructor; auto. }
  assert (CK: forall n l, (n <= 25)%nat -> Forall (fun x => length x = (16 * n)%nat) l -> Forall chunk_ok (map Chunk l)).
  { intros n l N. induction 1 as [|x l X F IH]; cbn [map]; constructor; auto. unfold chunk_ok. lia. }
  assert (SKS: exists p1, concat (skip_blocks (f := f) (skips := skips)) = concat skip_pieces ++ zeros p1 /\ (p1 < 16)%nat /\ Forall chunk_ok (map Chunk (skip_blocks (f := f) (skips := skips)))).
  { destruct (Nat.eq_dec (length skips) 0) as [N0|N0].
    - exists 0%nat. unfold skip_blocks, skip_pieces. rewrite N0. apply length_zero_iff_nil in N0. rewrite N0. split; [reflexivity|]. split; [lia|constructor].
    - destruct sf_skip_split as (w & l & S1 & S2 & S3 & S4 & S5). { destruct skips; [cbn in N0; lia|discriminate]. }
      rewrite S1. eexists. rewrite concat_app. cbn [concat]. rewrite app_nil_r, app_assoc, S5. split; [reflexivity|]. split; [lia|].
      rewrite map_app. apply Forall_app. split; [apply (CK 1%nat); [lia|exact S3]|]. constructor; [|constructor]. unfold chunk_ok. rewrite app_length, S4, zeros_length. lia. }
  destruct SKS as (p1 & SK1 & SK2 & SK3).
  assert (RS: exists p2, concat (full (length rc / 16) rc ++ left_over rc) = concat rc ++ zeros p2 /\ (p2 < 17)%nat /\ Forall chunk_ok (map Chunk (full (length rc / 16) rc ++ left_over rc))).
  { pose proof (full_concat (length rc / 16) rc ltac:(lia)) as FC. pose proof (full_len rc F25) as FL. unfold left_over.
    assert (LS: length (concat (skipn (16 * (length rc / 16)) rc)) = (25 * (length rc mod 16))%nat).
    { rewrite (concat_len 25) by (apply Forall_skipn, F25). rewrite skipn_length. lia. }
    rewrite map_app, concat_app. destruct (Nat.eqb_spec (length rc mod 16) 0) as [M|M].
    - exists 0%nat. assert (Z0: concat (skipn (16 * (length rc / 16)) rc) = []) by (apply length_zero_iff_nil; lia). rewrite Z0 in FC. cbn [map concat]. rewrite FC, app_nil_r. split; [reflexivity|]. split; [lia|].
      rewrite app_nil_r. apply (CK 25%nat); [lia|exact FL].
    - eexists. cbn [concat map]. rewrite app_nil_r, app_assoc, FC. split; [reflexivity|]. split; [lia|].
      apply Forall_app. split; [apply (CK 25%nat); [lia|exact FL]|]. constructor; [|constructor]. unfold chunk_ok. rewrite app_length, LS, zeros_length. lia. }
  destruct RS as (p2 & RS1 & RS2 & RS3).
  eexists _, _, _, skip_pieces, rc, p1, p2. split; [exact T|]. split; [reflexivity|]. split; [exact SB|]. split; [exact sf_pieces|]. split; [exact R2|].
  split; [|split; [|split; [exact SK2|exact RS2]]].
  - rewrite <- SK1, <- RS1.
    assert (S3: sections [Seal] = Some [[]]) by reflexivity.
    pose proof (sections_chunks (full (length rc / 16) rc ++ left_over rc) [Seal] [] [] S3) as S4. rewrite app_nil_r in S4.
    assert (S5: sections ([Seal] ++ map Chunk (full (length rc / 16) rc ++ left_over rc) ++ [Seal]) = Some [[]; concat (full (length rc / 16) rc ++ left_over rc)]).
    { cbn [app sections]. now rewrite S4. }
    pose proof (sections_chunks (skip_blocks (f := f) (skips := skips)) _ _ _ S5) as S6. rewrite app_nil_r in S6.
    assert (S7: sections ([Seal] ++ map Chunk (skip_blocks (f := f) (skips := skips)) ++ [Seal] ++ map Chunk (full (length rc / 16) rc ++ left_over rc) ++ [Seal]) =
      Some [[]; concat (skip_blocks (f := f) (skips := skips)); concat (full (length rc / 16) rc ++ left_over rc)]).
    { change ([Seal] ++ ?x) with (Seal :: x) at 1. cbn [sections]. now rewrite S6. }
    pose proof (sections_chunks (blocks_at (f := f) 152 (length slots)) _ _ _ S7) as S8. rewrite app_nil_r in S8. exact S8.
  - assert (SE: Forall chunk_ok [Seal]) by (constructor; [exact I|constructor]).
    repeat (apply Forall_app; split); auto. apply (CK 1%nat); [lia|exact BL].
Qed.

End File.

Section Whole.
Variable E D H : list Z -> list Z -> list Z.
Hypothesis BC : block_cipher E D.
Hypothesis HL : digest20 H.

Lemma linked_writer : forall a b a', linked a b -> same a a' -> wiv a' = wiv a -> shm a' = shm a -> linked a' b.
Proof using. intros a b a' (L1 & L2 & L3 & L4 & L5 & L6) (S1 & S2 & S3 & S4 & _) W M. unfold linked. repeat split; congruence. Qed.

Lemma recv_remote : forall c off nb q d, recv_blocks D c off nb = (q, d) -> remote d = remote c.
Proof using.
  intros c off nb q d R. unfold recv_blocks in R. destruct (read_raw c off (16 * nb)) as [r c1] eqn:RR.
  assert (P: remote c1 = remote c).
  { unfold read_raw in RR. apply (f_equal snd) in RR. cbn [snd] in RR. destruct (io c) as [|[|]]; cbn [snd] in RR; rewrite <- RR; cproj; reflexivity. }
  rewrite <- P. destruct r; [|apply (f_equal snd) in R; cbn [snd] in R; now rewrite <- R..].
  destruct (ciphers c1); [destruct (cbc_dec D _ _ nb _) as [x y]|]; apply (f_equal snd) in R; cbn [snd] in R; rewrite <- R; reflexivity.
Qed.

Lemma fetch_whole : forall f fin next p slots skips recs files tries junk c s b e sid rc n g c' t s1 tests sess rs sv oc os,
  session_file f fin next p slots skips recs -> short (f := f) (fin := fin) (slots := slots) (recs := recs) ->
  files sid = Some tries -> (forall i, fst (tries i) = f /\ (fin = 1 \/ snd (tries i) = Locked f)) ->
  ~ (fin = 2 /\ b = 0 /\ e = 4294967295) ->
  octet_string 112 junk -> wf c -> wf s -> quiet c -> quiet s -> linked c s -> linked s c -> twoway c = false ->
  st c = StRequest -> st s = StRequest -> 0 <= b < 2^32 -> 0 <= e < 2^32 -> length sid = 16%nat ->
  (link_local (p_sender p) = true -> link_local (remote c) = true) -> (link_local (p_receiver p) = true -> link_local (remote c) = true) ->
  fetch_session E D H junk true true c b e sid = (rc, n, g, c') ->
  read_request_type D s = (t, s1) ->
  process_fetch E D H (mkSrv s1 tests sess) (fun b e sid => look (files sid) b e) = (rs, sv) ->
  sent c c' oc -> sent s (s_c sv) os -> inp s = oc -> inp c = os ->
  t = 4 /\ rs = ErrOK /\ rc = ErrOK /\ n = Z.of_nat (length (wanted fin b e recs)) /\
  reads_as g fin next p slots skips (wanted fin b e recs) /\
  st c' = StRequest /\ st (s_c sv) = StRequest /\ linked c' (s_c sv) /\ linked (s_c sv) c' /\ wf c' /\ wf (s_c sv) /\
  s_tests sv = tests /\ s_sessions sv = sess.
Proof using BC HL.
  intros f fin next p slots skips recs files tries junk c s b e sid rc n g c' t s1 tests sess rs sv oc os
    SF SH FS ST NC J Wc Ws Qc Qs Lcs Lsc Tw Stc Sts Hb He Lsid LLs LLr CL RT PF SoC SoS Is Ic.
  assert (F12: fin = 1 \/ fin = 2) by apply SF.
  (* the request *)
  destruct (write_fetch_quiet E H c b e sid Qc Stc Tw) as (c1 & WF & WP1 & St1 & Sm1).
  assert (OC: exists o, sent c c1 o).
  { unfold write_fetch in WF. destruct (_ || _); [discriminate|]. rewrite Tw in WF.
    set (m := put 16 _ _) in WF. assert (M0: length m = 400%nat).
    { unfold m. assert (W := proj1 Wc). match goal with |- length ?tt = _ => to_writes tt [(0,1);(1,7);(8,4);(12,4);(16,16)]%nat SHP end. wlen 400%nat SHP. exact W. }
    destruct (send_blocks E (shm_digest H (shm_add (set_msg c m) 0 2) 32) 0 3) as [[| |] c0] eqn:SB; try discriminate.
    destruct (emit E D H BC HL c m 2 c0 M0 ltac:(lia) ltac:(apply Wc) SB) as [W1 _].
    assert (EC: c1 = clr_st (or_st c0 (Z.lor StFetchAck StFetchSession)) StRequest) by congruence. rewrite EC.
    eexists. unfold sent, clr_st, or_st. cproj. apply W1. }
  destruct OC as (o0 & SO1).
  (* what the client makes of it is still to come; the server side first *)
  assert (CR: exists rest, inp s = o0 ++ rest /\ (rest = [] -> True)).
  { (* the client only reads after the request *)
    unfold fetch_session in CL. rewrite Tw, WF in CL. change (ErrOK <? ErrWARNING) with false in CL. cbv iota in CL.
    assert (G: rpres c1 c').
    { destruct (read_fetch_ack D H c1) as [[rc2 [[[[a fi] nx] nk] nd]] c2] eqn:RA. apply ack_read_rpres in RA.
      assert (GI: forall c0, rpres c1 c0 -> rpres c1 (invalid c0)) by (intros c0 X; eapply rpres_trans; [exact X|apply st_rpres]).
      destruct (rc2 <? ErrWARNING); [apply (f_equal snd) in CL; cbn [snd] in CL; rewrite <- CL; now apply GI|].
      destruct (negb (a =? CNTRL_ACCEPT)); [apply (f_equal snd) in CL; cbn [snd] in CL; rewrite <- CL; exact RA|].
      destruct (read_test_request D H c2 false true true) as [[[rc3 q] ac] c3] eqn:RR.
      assert (R3: rpres c2 c3).
      { clear - RR. unfold read_test_request in RR.
        assert (GI: forall c0 x, rpres c2 c0 -> rpres c2 (set_st c0 x)) by (intros c0 x X; eapply rpres_trans; [exact X|apply st_rpres]).
        destruct (negb (is_st _ c2)) in RR; [apply (f_equal snd) in RR; cbn [snd] in RR; rewrite <- RR; apply rpres_refl|].
        destruct (recv_blocks D c2 0 1) as [q0 d1] eqn:R1. apply recv_rpres in R1.
        destruct q0; try (apply (f_equal snd) in RR; cbn [snd] in RR; rewrite <- RR; apply GI; exact R1).
        destruct (recv_blocks D d1 16 6) as [q1 d2] eqn:R2. apply recv_rpres in R2. pose proof (rpres_trans _ _ _ R1 R2) as R2'.
        destruct q1; try (apply (f_equal snd) in RR; cbn [snd] in RR; rewrite <- RR; apply GI; exact R2').
        cbv zeta in RR. destruct (rhm_check H (rhm_add d2 0 6) 96) as [ok d3] eqn:R3. apply check_rpres in R3.
        assert (R3': rpres c2 d3) by (eapply rpres_trans; [exact R2'|eapply rpres_trans; [apply rhm_rpres|exact R3]]).
        destruct (negb ok); [apply (f_equal snd) in RR; cbn [snd] in RR; rewrite <- RR; apply GI; exact R3'|].
        destruct (decode_preamble _ _ _ _ _) as [p0| |]; try (apply (f_equal snd) in RR; cbn [snd] in RR; rewrite <- RR; first [exact R3'|apply GI; exact R3']).
        destruct (negb (ll_scope_ok _ (p_sender p0))); [apply (f_equal snd) in RR; cbn [snd] in RR; rewrite <- RR; exact R3'|].
        destruct (negb (ll_scope_ok _ (p_receiver p0))); [apply (f_equal snd) in RR; cbn [snd] in RR; rewrite <- RR; exact R3'|].
        assert (R4: rpres c2 (or_st (clr_st d3 StTestRequest) StTestRequestSlots)) by (unfold or_st, clr_st; apply GI, GI, R3').
        set (d4 := or_st _ StTestRequestSlots) in *. cbn [negb] in RR. cbv iota in RR.
        destruct (twoway d4); [apply (f_equal snd) in RR; cbn [snd] in RR; rewrite <- RR; unfold or_st at 1; apply GI; exact R4|].
        cbn [orb] in RR. destruct (read_slots D H d4 (p_nslots p0) true) as [sl d5] eqn:R5.
        assert (R5': rpres c2 d5).
        { unfold read_slots in R5. destruct (negb _); [apply (f_equal snd) in R5; cbn [snd] in R5; rewrite <- R5; exact R4|].
          destruct (read_slots_loop D d4 _ true) as [[l|] d6] eqn:R6; apply slots_rpres in R6; pose proof (rpres_trans _ _ _ R4 R6) as R6'.
          - destruct (recv_blocks D d6 0 1) as [q2 d7] eqn:R7. apply recv_rpres in R7. pose proof (rpres_trans _ _ _ R6' R7) as R7'.
            destruct q2; try (apply (f_equal snd) in R5; cbn [snd] in R5; rewrite <- R5; apply GI; exact R7').
            destruct (rhm_check H d7 0) as [ok2 d8] eqn:R8. apply check_rpres in R8. pose proof (rpres_trans _ _ _ R7' R8) as R8'.
            destruct ok2; apply (f_equal snd) in R5; cbn [snd] in R5; rewrite <- R5; apply GI; exact R8'.
          - apply (f_equal snd) in R5; cbn [snd] in R5; rewrite <- R5; exact R6'. }
        destruct sl; apply (f_equal snd) in RR; cbn [snd] in RR; rewrite <- RR; unfold or_st; apply GI; exact R5'. }
      pose proof (rpres_trans _ _ _ RA R3) as R3'. destruct q as [q|]; [|apply (f_equal snd) in CL; cbn [snd] in CL; rewrite <- CL; now apply GI].
      destruct (negb (rc3 =? ErrOK)); [apply (f_equal snd) in CL; cbn [snd] in CL; rewrite <- CL; now apply GI|].
      destruct (take_skips D c3 nk) as [[sk|] c4] eqn:T1; apply take_skips_rpres in T1; pose proof (rpres_trans _ _ _ R3' T1) as T1'; [|apply (f_equal snd) in CL; cbn [snd] in CL; rewrite <- CL; now apply GI].
      destruct (take_code D H c4) as [[|] c5] eqn:T2; apply take_code_rpres in T2; pose proof (rpres_trans _ _ _ T1' T2) as T2'; [|apply (f_equal snd) in CL; cbn [snd] in CL; rewrite <- CL; now apply GI].
      destruct (take_records D c5 nd) as [[rcs|] c6] eqn:T3; apply take_records_rpres in T3; pose proof (rpres_trans _ _ _ T2' T3) as T3'; [|apply (f_equal snd) in CL; cbn [snd] in CL; rewrite <- CL; now apply GI].
      destruct (take_code D H c6) as [[|] c7] eqn:T4; apply take_code_rpres in T4; pose proof (rpres_trans _ _ _ T3' T4) as T4'; [|apply (f_equal snd) in CL; cbn [snd] in CL; rewrite <- CL; now apply GI].
      assert (GF: rpres c1 (or_st (clr_st c7 StFetching) StRequest)) by (unfold or_st, clr_st; eapply rpres_trans; [exact T4'|eapply rpres_trans; apply st_rpres]).
      destruct (write_header _ _); apply (f_equal snd) in CL; cbn [snd] in CL; rewrite <- CL; exact GF. }
    exists []. split; [|auto]. rewrite app_nil_r. destruct G as (_ & _ & G & _). unfold sent in SoC, SO1. rewrite G, SO1 in SoC. rewrite Is. symmetry. eapply app_inv_head; exact SoC. }
  destruct CR as (rest & Is' & _).
  destruct (fetch_roundtrip E D H BC HL c c1 s b e sid o0 rest Wc Ws Qs Lcs Sts Hb He Lsid WF SO1 Is') as (s1' & s2 & RT' & RF & (A1 & A2 & A3 & A4 & A5) & Sts2).
  assert (TT: t = 4 /\ s1 = s1') by (split; congruence). destruct TT as (-> & ->). split; [reflexivity|].
  pose proof (type_rpres D _ _ _ RT') as RP1. pose proof (fetch_read_rpres D H _ _ _ RF) as RP2. pose proof (rpres_trans _ _ _ RP1 RP2) as RPs.
  unfold process_fetch in PF. cbn [s_c s_tests s_sessions] in PF. rewrite RF in PF. change (ErrOK <? ErrOK) with false in PF. cbv iota zeta in PF.
  rewrite FS in PF. unfold look in PF. rewrite (sf_stable SF tries b e SH ST NC) in PF.
  destruct (sf_transfer SF b e) as (rcs & RC & TR). rewrite TR in PF. set (wn := wanted fin b e recs) in *.
  assert (I2: is_st StFetchAck s2 = true) by (unfold is_st; rewrite Sts2; reflexivity).
  destruct (write_ack_quiet E H s2 CNTRL_ACCEPT fin next (Z.of_nat (length skips)) (Z.of_nat (length wn)) A5 I2) as (s3 & WA & WP3).
  rewrite WA in PF. change (ErrOK <? ErrOK) with false in PF. cbv iota in PF.
  set (pre := octs_at f 40 112) in *.
  set (s3' := shm_digest H (shm_add (set_msg s3 (put 0 pre (msg s3))) 0 6) 96) in *.
  assert (Q3: quiet s3) by exact (quiet_wpres _ _ WP3 A5).
  assert (WP3': wpres s3 s3') by (eapply wpres_trans; [eapply wpres_trans; [apply msg_pres|apply shm_add_pres]|apply digest_pres]).
  destruct (send_quiet E s3' 0 7 (quiet_wpres _ _ WP3' Q3)) as (s4 & S4 & WP4). rewrite S4 in PF.
  pose proof (wpres_trans _ _ _ WP3' WP4) as WP34. pose proof (quiet_wpres _ _ WP34 Q3) as Q4.
  set (sb := blocks_at (f := f) 152 (length slots)) in *. set (kb := skip_blocks (f := f) (skips := skips)) in *.
  set (rb := full (length rcs / 16) rcs ++ left_over rcs) in *.
  assert (NB: ~ In Broken (map Chunk sb ++ [Seal] ++ map Chunk kb ++ [Seal] ++ map Chunk rb ++ [Seal])).
  { intros I. assert (NM: forall l, ~ In Broken (map Chunk l)) by (intros l X; apply in_map_iff in X; destruct X as (x & X & _); discriminate).
    repeat (apply in_app_or in I; destruct I as [I|I]; [first [exact (NM _ I)|destruct I as [I|I]; [discriminate|exact I]]|]). destruct I as [I|I]; [discriminate|exact I]. }
  destruct (send_outs_quiet E H _ s4 Q4 NB) as (s9 & S9 & WP9). rewrite S9 in PF.
  pose proof (wpres_trans _ _ _ (wpres_trans _ _ _ WP3 WP34) WP9) as WPs.
  assert (PV: rs = ErrOK /\ sv = mkSrv (or_st (clr_st s9 StFetching) StRequest) tests sess) by (split; cbn in PF; congruence). destruct PV as (-> & ->).
  split; [reflexivity|]. cbn [s_c s_tests s_sessions] in *.
  (* taking the transfer apart *)
  rewrite send_outs_app in S9. destruct (send_outs E H s4 (map Chunk sb)) as [[|] s5] eqn:S5; [|discriminate].
  rewrite send_outs_app in S9. destruct (send_outs E H s5 [Seal]) as [[|] s6] eqn:S6; [|discriminate].
  rewrite send_outs_app in S9. destruct (send_outs E H s6 (map Chunk kb)) as [[|] s7] eqn:S7; [|discriminate].
  rewrite send_outs_app in S9. destruct (send_outs E H s7 [Seal]) as [[|] s7'] eqn:S7'; [|discriminate].
  rewrite send_outs_app in S9. destruct (send_outs E H s7' (map Chunk rb)) as [[|] s8] eqn:S8; [|discriminate].
  assert (SEAL: forall a a', send_outs E H a [Seal] = (true, a') -> send_blocks E (shm_digest H a 0) 0 1 = (IODone, a')).
  { intros a a' X. cbn [send_outs] in X. destruct (send_blocks E _ 0 1) as [[| |] a0]; congruence. }
  apply SEAL in S6. apply SEAL in S7'. apply SEAL in S9.
  (* the acknowledgement *)
  assert (Lsc2: linked s2 c1).
  { destruct RPs as (P1 & P2 & _ & P4 & P5 & P6 & P7). destruct WP1 as (V1 & V2 & _). destruct Lsc as (M1 & M2 & M3 & M4 & M5 & M6).
    destruct Sm1 as (N1 & N2 & N3 & N4 & _). unfold linked. cbn [set_st mode twoway key hkey] in *. repeat split; congruence. }
  assert (Qc1: quiet c1) by exact (quiet_wpres _ _ WP1 Qc).
  assert (Ic1: inp c1 = os) by (destruct WP1 as (_ & _ & V & _); congruence).
  assert (OA: exists oa, sent s2 s3 oa /\ wf s3 /\ same s2 (set_st s3 (st s2)) /\ st s3 = StFetching).
  { unfold write_fetch_ack in WA. rewrite I2 in WA. cbn [negb] in WA. set (m := put 12 _ _) in WA.
    assert (M0: length m = 400%nat).
    { assert (W := proj1 A4). unfold m. replace (fin =? 0) with false by lia. match goal with |- length ?tt = _ => to_writes tt [(0,32);(0,1);(1,1);(4,4);(8,4);(12,4)]%nat SHP end. wlen 400%nat SHP. exact W. }
    destruct (send_blocks E (shm_digest H (shm_add (set_msg s2 m) 0 1) 16) 0 2) as [[| |[]] c0] eqn:SB; try discriminate.
    destruct (emit E D H BC HL s2 m 1 c0 M0 ltac:(lia) ltac:(apply A4) SB) as [W1 _]. change (CNTRL_ACCEPT =? CNTRL_ACCEPT) with true in WA. cbv iota in WA.
    assert (E3: s3 = clr_st c0 StFetchAck) by congruence. rewrite E3. eexists. split; [unfold sent, clr_st; cproj; apply W1|].
    split; [eapply (wf_wrote E D BC s2 c0 _ 2); [exact A4|exact W1|rewrite app_length, (tag_len H HL), sub_length by lia; reflexivity]|].
    destruct W1 as (SM & _). split.
    - unfold same, clr_st in *. cproj. tauto.
    - unfold clr_st. cproj. destruct SM as (_ & _ & _ & _ & _ & _ & ->). rewrite Sts2. reflexivity. }
  destruct OA as (oa & SA & W3 & SM3 & St3).
  (* the request of the file *)
  assert (LF: (152 <= length f)%nat) by (pose proof (sf_odata SF) as (_ & _ & _ & X); unfold odata in X; lia).
  assert (LP: length pre = 112%nat) by (unfold pre; apply octs_len; lia).
  assert (DP: decode_preamble false (sub 0 112 pre) 112 false 28 = PreOK p).
  { replace (sub 0 112 pre) with pre; [apply SF|]. unfold sub. cbn [skipn]. symmetry. rewrite <- LP. apply firstn_all. }
  assert (NSL: p_nslots p = Z.of_nat (length slots)) by apply SF.
  pose proof (sf_slots_blocks SF) as SBK.
  assert (S36: exists ob, sent s3 s6 ob /\ wf s6).
  { destruct (emit E D H BC HL s3 (put 0 pre (msg s3)) 6 s4 ltac:(rewrite put_length; destruct W3; lia) ltac:(lia) ltac:(apply W3) S4) as [W4 _].
    assert (Wf4: wf s4) by (eapply (wf_wrote E D BC s3 s4 _ 7); [exact W3|exact W4|rewrite app_length, (tag_len H HL), sub_length by (rewrite put_length; destruct W3; lia); reflexivity]).
    destruct (slot_blocks_stream E D H BC slots sb s4 s5 Wf4 SBK S5) as (o5 & X5 & _ & Wf5 & _).
    destruct (tag_step E D H BC HL s5 s6 Wf5 S6) as (o6 & X6 & _ & Wf6 & _).
    destruct W4 as (_ & X4 & _). eexists. split; [|exact Wf6]. unfold sent in *. rewrite X6, X5, X4, <- !app_assoc. reflexivity. }
  destruct S36 as (ob & SBo & W6).
  (* the rest as one stream *)
  assert (F25: Forall (fun o => length o = 25%nat) rcs) by (clear - RC; induction RC as [|r o l l' (_ & (X & _) & _) F IH]; constructor; auto).
  assert (NSK: Z.of_nat (length skips) < 2^29) by apply SF.
  assert (KS: stream s6 s7 (fun x x' => take_skips D x (Z.of_nat (length skips)) = (Some (concat (skip_pieces (f := f) (skips := skips))), x'))).
  { destruct (Nat.eq_dec (length skips) 0) as [N0|N0].
    - assert (KB: kb = []) by (unfold kb, skip_blocks; apply length_zero_iff_nil in N0; now rewrite N0). rewrite KB in S7. cbn [map send_outs] in S7.
      assert (s6 = s7) by congruence. subst s7. eapply stream_weak; [|apply stream_nil; exact W6]. intros x x' ->. rewrite N0.
      unfold skip_pieces. rewrite N0. reflexivity.
    - destruct (sf_skip_split SF) as (w & l & K1 & K2 & K3 & K4 & K5). { intros X. rewrite X in N0. now apply N0. }
      fold kb in K1. rewrite K1 in S7. rewrite <- K5.
      eapply (skips_stream E D H BC (length skips) w l _ s6 s7 W6 ltac:(lia) NSK K2 K3 K4 eq_refl S7). }
  assert (W7: wf s7) by (destruct KS as (? & _ & _ & Y & _); exact Y).
  pose proof (code_step E D H BC HL s7 s7' W7 S7') as KC. assert (W7': wf s7') by (destruct KC as (? & _ & _ & Y & _); exact Y).
  pose proof (records_stream E D H BC rcs s7' s8 W7' F25 S8) as KR. assert (W8: wf s8) by (destruct KR as (? & _ & _ & Y & _); exact Y).
  pose proof (code_step E D H BC HL s8 s9 W8 S9) as KE.
  destruct (stream_app _ _ _ _ _ KS (stream_app _ _ _ _ _ KC (stream_app _ _ _ _ _ KR KE))) as (od & SD & SMd & W9 & K).
  (* the client *)
  assert (OS: os = oa ++ ob ++ od).
  { unfold sent, or_st, clr_st in SoS, SA, SBo, SD. cbn [outp set_st] in SoS. rewrite SD, SBo, SA in SoS. destruct RPs as (_ & _ & PO & _). rewrite PO in SoS.
    rewrite <- !app_assoc in SoS. symmetry. eapply app_inv_head; exact SoS. }
  assert (I1: is_st StFetchAck c1 = true) by (unfold is_st; rewrite St1; reflexivity).
  assert (LW: Z.of_nat (length wn) < 2^32).
  { pose proof (filter_le _ (fun r => (b <=? r_seq r) && (r_seq r <=? e) && ((fin =? 1) || (r_seq r <=? last_received recs))) recs) as X. change (filter _ recs) with wn in X.
    assert (Z.of_nat (length recs) < 2^32) by apply SF. lia. }
  assert (NX: 0 <= next < 2^32). { assert (FN: field f 12 4 = next) by apply SF. rewrite <- FN. apply (field_bound f 12 4). apply SF. }
  destruct (fetch_ack_roundtrip E D H BC HL s2 s3 c1 CNTRL_ACCEPT fin next (Z.of_nat (length skips)) (Z.of_nat (length wn)) oa (ob ++ od) A4 A3 Qc1 Lsc2) as (c2 & RA & (B1 & B2 & B3 & B4 & B5) & _ & Stc2);
    [unfold accept_code, CNTRL_ACCEPT; lia|lia|exact NX|lia|lia|exact I1|exact WA|exact SA|rewrite Ic1; exact OS|].
  replace (fin =? 0) with false in RA by lia. change (CNTRL_ACCEPT =? 0) with true in Stc2. cbv iota in Stc2.
  assert (Tw1: twoway c1 = false) by (destruct Sm1 as (_ & X & _); cbn [set_st twoway] in X; congruence). rewrite Tw1, St1 in Stc2.
  pose proof (ack_read_rpres D H _ _ _ RA) as RPa.
  assert (Tw2: twoway c2 = false) by (destruct RPa as (_ & _ & _ & _ & X & _); congruence).
  assert (REM: remote c2 = remote c).
  { (* reading the acknowledgement does not change the address of the peer *)
    destruct Sm1 as (_ & _ & _ & _ & X & _). cbn [set_st remote] in X. rewrite <- X. clear - RA. unfold read_fetch_ack in RA. destruct (negb _); [discriminate|].
    destruct (recv_blocks D c1 0 2) as [q d] eqn:R. pose proof (recv_remote _ _ _ _ _ R) as RR. destruct q; try discriminate.
    unfold rhm_check, rhm_add in RA. repeat match type of RA with context [ciphers ?y] => destruct (ciphers y) end;
      repeat match type of RA with context [if ?y then _ else _] => destruct y end; try discriminate; apply (f_equal snd) in RA; cbn [snd] in RA; rewrite <- RA; unfold or_st, clr_st; cproj; exact RR. }
  destruct (request_read E D H BC HL s3 pre s4 c2 p slots sb s5 s6 ob od W3 ltac:(lia) ltac:(lia) S4 S5 S6 DP SBK NSL B4 B5 B1 Tw2)
    as (c3 & RR & (G1 & G2 & G3 & G4 & G5) & St3c & RPr & SM36 & _ & Tw3);
    [rewrite Stc2; reflexivity|rewrite REM; exact LLs|rewrite REM; exact LLr|exact SBo|exact B2|].
  destruct (K c3 [] G4 G5 G1) as (c9 & (x4 & T4 & x5 & T5 & x6 & T6 & T7) & (Z1 & Z2 & Z3 & Z4 & Z5) & SMc); [rewrite app_nil_r; exact G2|].
  destruct (result_reads SF junk wn (skip_pieces (f := f) (skips := skips)) rcs J (sf_pieces SF)) as (hd & WH & RD); [|exact LW|].
  { clear - RC. induction RC as [|r o l l' (_ & (X & _) & Y) F IH]; constructor; auto. split; assumption. }
  unfold fetch_session in CL. rewrite Tw, WF in CL. change (ErrOK <? ErrWARNING) with false in CL. cbv iota in CL.
  rewrite RA in CL. change (ErrOK <? ErrWARNING) with false in CL. change (CNTRL_ACCEPT =? CNTRL_ACCEPT) with true in CL. cbn [negb] in CL. cbv iota in CL.
  rewrite RR in CL. change (ErrOK =? ErrOK) with true in CL. cbn [negb q_sender q_receiver q_conf_sender q_conf_receiver q_sid q_spec] in CL. cbv zeta in CL.
  rewrite T4, T5 in CL. replace (length rcs) with (length wn) in T6 by (eapply Forall2_len; exact RC).
  rewrite T6, T7, WH in CL.
  assert (CE: rc = ErrOK /\ n = Z.of_nat (length wn) /\ g = hd ++ concat (skip_pieces (f := f) (skips := skips)) ++ concat rcs /\ c' = or_st (clr_st c9 StFetching) StRequest) by (repeat split; congruence).
  destruct CE as (-> & -> & -> & ->). split; [reflexivity|]. split; [reflexivity|]. split; [exact RD|].
  assert (St9: st c9 = StFetching) by (destruct SMc as (_ & _ & _ & _ & _ & _ & X); congruence).
  split; [unfold or_st, clr_st; cproj; rewrite St9; reflexivity|].
  assert (Sts9: st s9 = StFetching). { destruct SMd as (_ & _ & _ & _ & _ & _ & X). destruct SM36 as (_ & _ & _ & _ & _ & _ & Y). congruence. }
  split; [unfold or_st, clr_st; cproj; rewrite Sts9; reflexivity|].
  split.
  { (* client to server *)
    apply take_skips_rpres in T4. apply take_code_rpres in T5. apply take_records_rpres in T6. apply take_code_rpres in T7.
    pose proof (rpres_trans _ _ _ RPa (rpres_trans _ _ _ RPr (rpres_trans _ _ _ T4 (rpres_trans _ _ _ T5 (rpres_trans _ _ _ T6 T7))))) as (U1 & U2 & _ & U3 & U4 & U5 & U6).
    destruct WPs as (V1 & V2 & _). destruct A1 as (M1 & M2 & M3 & M4 & M5 & M6).
    destruct SM3 as (N1 & N2 & N3 & N4 & _). destruct SM36 as (N1' & N2' & N3' & N4' & _). destruct SMd as (N1'' & N2'' & N3'' & N4'' & _).
    cbn [set_st mode twoway key hkey] in *. unfold linked, or_st, clr_st. cproj. repeat split; congruence. }
  split; [exact Z1|]. split; [exact Z4|]. split; [exact W9|]. split; reflexivity.
Qed.

End Whole.
