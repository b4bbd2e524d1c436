From Coq Require Import ZArith List Bool Lia ZifyBool ZifyNat.
From Verif Require Import Base BaseLemmas Arith_Model Arith_Proofs Time_Model Time_Proofs Wire_Model Wire_Spec Wire_Proofs
  Control_Model Control_Spec Control_Proofs File_Proofs Packet_Model Sender_Model Sender_Spec.
Import ListNotations.
Open Scope Z_scope.
Ltac Zify.zify_post_hook ::= Z.div_mod_to_equations.

(** ** timespec arithmetic in nanoseconds *)
Definition norm (t : tspec) : Prop := 0 <= snd t < 1000000000.

Lemma ts_gt_ns : forall a b, norm a -> norm b -> ts_gt a b = (ns b <? ns a).
Proof. unfold norm, ts_gt, ns. intros [a a0] [b b0] Ha Hb. cbn [fst snd] in *. destruct (Z.eqb_spec a b); lia. Qed.
Lemma ts_lt_ns : forall a b, norm a -> norm b -> ts_lt a b = (ns a <? ns b).
Proof. unfold norm, ts_lt, ns. intros [a a0] [b b0] Ha Hb. cbn [fst snd] in *. destruct (Z.eqb_spec a b); lia. Qed.
Lemma ts_add_ns : forall a b, norm a -> norm b -> norm (ts_add a b) /\ ns (ts_add a b) = ns a + ns b.
Proof.
  unfold norm, ts_add, ns. intros [a a'] [b b'] Ha Hb. cbn [fst snd] in *.
  destruct (Z.leb_spec 1000000000 (a'+b')); cbn [fst snd]; lia.
Qed.
Lemma ts_sub_ns : forall a b, norm a -> norm b -> norm (ts_sub a b) /\ ns (ts_sub a b) = ns a - ns b.
Proof.
  unfold norm, ts_sub, ns. intros [a a'] [b b'] Ha Hb. cbn [fst snd] in *.
  destruct (Z.ltb_spec (a'-b') 0); cbn [fst snd]; lia.
Qed.
Lemma num64_ns : forall x, 0 <= x < M64 -> norm (OWPNum64ToTimespec x) /\ ns (OWPNum64ToTimespec x) = ns_of x.
Proof.
  intros x Hx. destruct (num64_timespec_floor x Hx) as (s & n & E & Hs & Hn & V).
  rewrite E. unfold norm, ns, ns_of. cbn [fst snd]. split; [lia|exact V].
Qed.

(** ** skip lists *)
(** sorted, separated ranges from [lo] on, all below [hi] *)
Fixpoint chain (lo hi : Z) (l : list skiprec) : Prop :=
  match l with
  | [] => True
  | s :: r => lo <= sk_begin s /\ sk_begin s <= sk_end s /\ sk_end s < hi /\ chain (sk_end s + 2) hi r
  end.
Definition covered (l : list skiprec) (seq : Z) : Prop :=
  exists s, In s l /\ sk_begin s <= seq <= sk_end s.

Lemma chain_hi : forall l lo hi hi', hi <= hi' -> chain lo hi l -> chain lo hi' l.
Proof. induction l; cbn [chain]; auto. intros lo hi hi' Hh (A & B & C & D). repeat split; try lia. eauto. Qed.
Lemma chain_lo : forall l lo lo' hi, lo' <= lo -> chain lo hi l -> chain lo' hi l.
Proof. destruct l; cbn [chain]; auto. intros. intuition lia. Qed.

Lemma skip_unfold : forall a b r seq, skip (a :: b :: r) seq = a :: skip (b :: r) seq.
Proof. reflexivity. Qed.

Lemma skip_chain : forall l lo i, 0 <= lo <= i -> i < M32 -> chain lo i l -> chain lo (i + 1) (skip l i).
Proof.
  induction l as [|s l IH]; intros lo i Hl Hi C.
  - cbn. lia.
  - destruct C as (A & B & C & D).
    destruct l as [|b r].
    + cbn [skip]. unfold u32.
      destruct (Z.eqb_spec ((sk_end s + 1) mod M32) i) as [e|e]; cbn [chain sk_begin sk_end].
      * lia.
      * rewrite Z.mod_small in e by lia. repeat split; try lia.
    + rewrite skip_unfold. cbn [chain]. repeat split; try lia.
      apply IH; auto; try lia. destruct D as (D1 & D2 & D3 & _). lia.
Qed.

Lemma skip_covered : forall l lo i, 0 <= lo -> i < M32 -> chain lo i l ->
  forall seq, covered (skip l i) seq <-> covered l seq \/ seq = i.
Proof.
  induction l as [|s l IH]; intros lo i Hl Hi C seq.
  - unfold covered. cbn. split.
    + intros (x & [<-|[]] & H). cbn in H. right. lia.
    + intros [(x & [] & _)| ->]. eexists; split; [left; reflexivity|]. cbn. lia.
  - destruct C as (A & B & C & D). destruct l as [|b r].
    + cbn [skip]. unfold u32. rewrite Z.mod_small by lia.
      destruct (Z.eqb_spec (sk_end s + 1) i) as [e|e]; unfold covered; split.
      * intros (x & [<-|[]] & Hx). cbn [sk_begin sk_end] in Hx.
        destruct (Z.eq_dec seq i); [auto|left]. exists s; split; [left; auto|lia].
      * intros [(x & [<-|[]] & Hx)| ->]; (eexists; split; [left; reflexivity|]; cbn [sk_begin sk_end]; lia).
      * intros (x & [<-|[<-|[]]] & Hx); [left; exists s; cbn; auto|right; cbn in Hx; lia].
      * intros [(x & [<-|[]] & Hx)| ->]; [exists s; cbn; auto|].
        exists (mkSkip i i). cbn. split; [auto|lia].
    + rewrite skip_unfold. assert (Hc := IH (sk_end s + 2) i ltac:(lia) Hi D seq).
      unfold covered in *. split.
      * intros (x & [<-|Hin] & Hx); [left; exists s; cbn; auto|].
        destruct Hc as [Hc _]. destruct Hc as [(y & Hy & Hy')| ->]; [eauto| |auto].
        left. exists y. split; [right; auto|auto].
      * intros Hor. assert (Hd: (sk_begin s <= seq <= sk_end s) \/ (exists y, In y (b :: r) /\ sk_begin y <= seq <= sk_end y) \/ seq = i).
        { destruct Hor as [(x & [<-|Hin] & Hx)| ->]; eauto. }
        destruct Hd as [Hd|Hd]; [exists s; split; [left; auto|auto]|].
        apply Hc in Hd. destruct Hd as (y & Hy & Hy'). exists y; split; [right; auto|auto].
Qed.

Lemma chain_covered_lt : forall l lo hi seq, chain lo hi l -> covered l seq -> lo <= seq < hi.
Proof.
  induction l as [|s l IH]; intros lo hi seq C (x & Hin & Hx); [destruct Hin|].
  destruct C as (A & B & C & D). destruct Hin as [<-|Hin]; [lia|].
  assert (sk_end s + 2 <= seq < hi) by (apply IH; [auto|exists x; auto]). lia.
Qed.

Lemma chain_nth : forall l lo hi k s, chain lo hi l -> nth_error l k = Some s ->
  lo <= sk_begin s <= sk_end s /\ sk_end s < hi.
Proof.
  induction l as [|a l IH]; intros lo hi k s C E; [destruct k; discriminate|].
  destruct C as (A & B & C & D). destruct k; cbn [nth_error] in E.
  - inversion E; subst. lia.
  - specialize (IH _ _ _ _ D E). lia.
Qed.
Lemma chain_order : forall l lo hi j k a b, chain lo hi l -> (j < k)%nat ->
  nth_error l j = Some a -> nth_error l k = Some b -> sk_end a + 1 < sk_begin b.
Proof.
  induction l as [|x l IH]; intros lo hi j k a b C Hjk Ea Eb; [destruct j; discriminate|].
  destruct C as (A & B & C & D). destruct k; [lia|]. destruct j; cbn [nth_error] in Ea, Eb.
  - inversion Ea; subst. pose proof (chain_nth _ _ _ _ _ D Eb). lia.
  - eapply (IH _ _ j k); eauto; lia.
Qed.
Lemma chain_length : forall l lo hi, chain lo hi l -> l <> [] -> lo + 2 * Z.of_nat (length l) <= hi + 1.
Proof.
  induction l as [|s l IH]; intros lo hi C N; [congruence|]. cbn [length chain] in *.
  destruct C as (A & B & C & D). destruct l as [|b r]; [cbn [length]; lia|].
  specialize (IH _ _ D ltac:(discriminate)). lia.
Qed.

(** ** the report *)
Lemma skips_concat_length : forall l, length (concat (map encode_skip l)) = (8 * length l)%nat.
Proof. induction l; cbn [map concat length]; auto. rewrite app_length, IHl. cbn [length encode_skip]. reflexivity || (unfold encode_skip; rewrite app_length, !be_enc_length; lia). Qed.

Lemma sub_skips : forall l k s, nth_error l k = Some s ->
  sub (8 * k) 8 (concat (map encode_skip l)) = encode_skip s.
Proof.
  induction l as [|a l IH]; intros k s E; [destruct k; discriminate|].
  cbn [map concat]. destruct k; cbn [nth_error] in E.
  - inversion E; subst. apply sub_whole. reflexivity.
  - rewrite sub_app_r by (change (length (encode_skip a)) with 8%nat; lia).
    change (length (encode_skip a)) with 8%nat. replace (8 * S k - 8)%nat with (8 * k)%nat by lia. auto.
Qed.

Lemma report_fields : forall st n, 0 <= s_i st < M32 -> n = length (s_skips st) -> Z.of_nat n < M32 ->
  let f := skip_file st in
  rep_next f = s_i st /\ rep_count f = Z.of_nat n /\ length f = (8 + 8 * n)%nat /\
  forall k s, nth_error (s_skips st) k = Some s -> is_u32 (sk_begin s) -> is_u32 (sk_end s) ->
    rep_begin f k = sk_begin s /\ rep_end f k = sk_end s.
Proof.
  intros st n Hi Hn Hl f. unfold rep_next, rep_count, rep_begin, rep_end. subst n.
  assert (L: length f = (8 + 8 * length (s_skips st))%nat).
  { unfold f, skip_file. rewrite !app_length, !be_enc_length, skips_concat_length. lia. }
  repeat split; auto.
  - rewrite field_be. unfold f, skip_file. rewrite sub_whole by apply be_enc_length. now apply be_dec_enc.
  - rewrite field_be. unfold f, skip_file. rewrite sub_app_r by (rewrite be_enc_length; lia).
    rewrite be_enc_length, sub_whole by apply be_enc_length. unfold u32. rewrite Z.mod_small by lia. apply be_dec_enc. split; [lia|exact Hl].
  - rewrite field_be. replace (8 + 8 * k)%nat with (8 + 8 * k + 0)%nat by lia.
    rewrite <- (sub_sub 0 4 (8 + 8 * k) 8) by lia. unfold f, skip_file. rewrite app_assoc.
    rewrite sub_app_r by (rewrite app_length, !be_enc_length; lia).
    rewrite app_length, !be_enc_length. replace (8 + 8 * k - (4 + 4))%nat with (8 * k)%nat by lia.
    rewrite (sub_skips _ _ _ H). unfold encode_skip. rewrite sub_whole by apply be_enc_length. now apply be_dec_enc.
  - rewrite field_be. replace (12 + 8 * k)%nat with (8 + 8 * k + 4)%nat by lia.
    rewrite <- (sub_sub 4 4 (8 + 8 * k) 8) by lia. unfold f, skip_file. rewrite app_assoc.
    rewrite sub_app_r by (rewrite app_length, !be_enc_length; lia).
    rewrite app_length, !be_enc_length. replace (8 + 8 * k - (4 + 4))%nat with (8 * k)%nat by lia.
    rewrite (sub_skips _ _ _ H). unfold encode_skip. rewrite sub_app_r by (rewrite be_enc_length; lia).
    rewrite be_enc_length. replace (4 - 4)%nat with 0%nat by lia. rewrite sub_all by apply be_enc_length. now apply be_dec_enc.
Qed.

Section Run.
Variable E : list Z -> list Z -> list Z.
Variable H : list Z -> list Z -> list Z.
Variable mode : Z.
Variable aeskey hmackey : list Z.
Variable start : tspec.
Variable timeout : Z.
Variable npackets : Z.
Variable delta : nat -> Z.
Variable padding : Z -> list Z.

(** accounting: everything before [i] is settled in exactly one way, nothing from [i] on *)
Definition accounted (i : Z) (sk : list skiprec) (log : list sevent) : Prop :=
  0 <= i < M32 /\ chain 0 i sk /\
  (forall q, 0 <= q < i -> (attempts q log = 1%nat /\ ~ covered sk q) \/ (attempts q log = 0%nat /\ covered sk q)) /\
  (forall q, i <= q -> attempts q log = 0%nat).

Lemma attempts_app : forall q a b, attempts q (a ++ b) = (attempts q a + attempts q b)%nat.
Proof. intros. unfold attempts. now rewrite filter_app, app_length. Qed.

Lemma acc_send : forall i sk log c s p r, r = SendOK \/ r = SendOther -> i + 1 < M32 -> accounted i sk log ->
  accounted (i + 1) sk (log ++ [EvSend i c s p r]).
Proof.
  intros i sk log c s p r Hr Hi (A & B & C & D).
  assert (One: forall q, attempts q [EvSend i c s p r] = if i =? q then 1%nat else 0%nat).
  { intros q. unfold attempts. cbn [filter is_sent]. destruct Hr as [-> | ->]; cbn [is_sent]; rewrite ?andb_true_r; destruct (i =? q); reflexivity. }
  split; [lia|]. split; [eapply chain_hi; [|exact B]; lia|]. split.
  - intros q Hq. rewrite attempts_app, One. destruct (Z.eqb_spec i q) as [e|e].
    + left. subst q. rewrite (D i) by lia. split; [reflexivity|]. intros Hc.
      pose proof (chain_covered_lt _ _ _ _ B Hc). lia.
    + rewrite Nat.add_0_r. apply C. lia.
  - intros q Hq. rewrite attempts_app, One. destruct (Z.eqb_spec i q); [lia|]. rewrite (D q) by lia. reflexivity.
Qed.

Lemma acc_nobufs : forall i sk log c s p, accounted i sk log -> accounted i sk (log ++ [EvSend i c s p SendNoBufs]).
Proof.
  intros i sk log c s p (A & B & C & D).
  assert (Z0: forall q, attempts q (log ++ [EvSend i c s p SendNoBufs]) = attempts q log).
  { intros q. rewrite attempts_app. unfold attempts at 2. cbn. lia. }
  repeat split; auto; try lia; intros q Hq; rewrite Z0; auto.
Qed.

Lemma acc_skip : forall i sk log c s, i + 1 < M32 -> accounted i sk log ->
  accounted (i + 1) (skip sk i) (log ++ [EvSkip i c s]).
Proof.
  intros i sk log c s Hi (A & B & C & D).
  assert (Z0: forall q, attempts q (log ++ [EvSkip i c s]) = attempts q log).
  { intros q. rewrite attempts_app. unfold attempts at 2. cbn. lia. }
  split; [lia|]. split; [apply skip_chain; auto; lia|]. split; intros q Hq; rewrite Z0; [|apply D; lia].
  rewrite (skip_covered sk 0 i ltac:(lia) ltac:(lia) B q).
  destruct (Z.eq_dec q i) as [->|n]; [right; split; [apply D; lia|auto]|].
  destruct (C q ltac:(lia)) as [[C1 C2]|[C1 C2]]; [left; split; auto; tauto|right; tauto].
Qed.

(** ** timing: every event respects the window of its packet *)
Definition ev_timely (e : sevent) : Prop :=
  match e with
  | EvSend q c s p _ => clock_ok c -> 0 <= q /\ ns s = due start delta q /\ due start delta q < ns c <= due start delta q + ns_of timeout
  | EvSkip q c s => clock_ok c -> 0 <= q /\ ns s = due start delta q /\ due start delta q + ns_of timeout < ns c
  end.
(** contents: every packet is the one built from its sequence number and the clock reading *)
Definition ev_packet (e : sevent) : Prop :=
  match e with
  | EvSend q c s p _ => exists t, owptime t = owptime (OWPTimespecToTimestamp (mkTS 0 0 0 0) c None None) /\
      build_packet E H mode aeskey hmackey (padding q) q t = Some p
  | EvSkip _ _ _ => True
  end.

(** running state *)
Definition inv (st : sstate) : Prop :=
  accounted (s_i st) (s_skips st) (s_log st) /\
  s_i st < Z.max 1 npackets /\
  s_off st = total delta (Z.to_nat (s_i st)) mod M64 /\
  norm (s_next st) /\ ns (s_next st) = due start delta (s_i st) /\
  Forall ev_timely (s_log st) /\ Forall ev_packet (s_log st).

Hypothesis start_norm : norm start.
Hypothesis timeout_u64 : 0 <= timeout < M64.
Hypothesis npackets_u32 : 0 <= npackets < M32.

Lemma setup_spec : forall i off st, 0 <= i ->
  (i = 0 /\ off = 0 \/ 0 < i /\ off = total delta (Z.to_nat (i - 1)) mod M64) ->
  let st' := s_setup start delta i off st in
  s_i st' = i /\ s_off st' = total delta (Z.to_nat i) mod M64 /\ norm (s_next st') /\ ns (s_next st') = due start delta i /\
  s_skips st' = s_skips st /\ s_log st' = s_log st.
Proof.
  intros i off st Hi Ho st'.
  assert (O: OWPNum64Add off (delta (Z.to_nat i)) = total delta (Z.to_nat i) mod M64).
  { unfold OWPNum64Add. destruct Ho as [[-> ->]|[Hp ->]].
    - cbn [Z.to_nat total]. unfold u64. f_equal.
    - replace (Z.to_nat i) with (S (Z.to_nat (i - 1))) by lia. cbn [total]. unfold u64.
      rewrite Z.add_mod_idemp_l by lia. reflexivity. }
  assert (B: 0 <= total delta (Z.to_nat i) mod M64 < M64) by (apply Z.mod_pos_bound; lia).
  destruct (num64_ns _ B) as [N1 N2]. destruct (ts_add_ns _ start N1 start_norm) as [N3 N4].
  unfold st', s_setup. cbn [s_i s_off s_next s_skips s_log]. rewrite O. repeat split; auto; try apply N3.
  rewrite N4, N2. unfold due. apply Z.add_comm.
Qed.

Lemma inv_init : inv (s_init start delta).
Proof.
  unfold s_init. destruct (setup_spec 0 (OWPULongToNum64 0) (mkSS 0 0 (0,0) (mkTS 0 0 0 0) 0 [] []) ltac:(lia) ltac:(left; auto))
    as (A & B & C & D & S & L).
  unfold inv. rewrite A, B, S, L. cbn [s_skips s_log]. repeat split; auto; try apply C; try lia; cbn; auto.
Qed.

(** what a step ends in *)
Definition post (o : sstep) : Prop :=
  match o with
  | SGo st => inv st
  | SStop st => inv st
  | SEnd st => accounted (s_i st) (s_skips st) (s_log st) /\ s_i st = Z.max 1 npackets /\
      norm (s_next st) /\ ns (s_next st) = due start delta (s_i st - 1) /\
      Forall ev_timely (s_log st) /\ Forall ev_packet (s_log st)
  | SExit log => Forall ev_timely log /\ Forall ev_packet log
  end.

Lemma advance_post : forall st,
  accounted (s_i st + 1) (s_skips st) (s_log st) -> 0 <= s_i st < Z.max 1 npackets ->
  s_off st = total delta (Z.to_nat (s_i st)) mod M64 -> norm (s_next st) -> ns (s_next st) = due start delta (s_i st) ->
  Forall ev_timely (s_log st) -> Forall ev_packet (s_log st) ->
  post (s_advance start npackets delta st).
Proof.
  intros st A I O N D T P. unfold s_advance. unfold u32. rewrite Z.mod_small by (destruct A; lia).
  set (st1 := mkSS _ _ _ _ _ _ _). destruct (Z.ltb_spec (s_i st + 1) npackets).
  - destruct (setup_spec (s_i st + 1) (s_off st) st1 ltac:(lia)) as (SA & SB & SC & SD & SS & SL).
    { right. split; [lia|]. now rewrite Z.add_simpl_r. }
    cbn [post]. unfold inv. rewrite SA, SB, SS, SL. unfold st1. cbn [s_skips s_log].
    repeat split; auto; try apply A; try apply SC; try lia.
  - cbn [post st1 s_i s_skips s_log s_next]. rewrite Z.add_simpl_r.
    split; [exact A|]. split; [lia|]. split; [exact N|]. split; [exact D|]. split; auto.
Qed.

Lemma pass_post : forall st e, inv st -> post (s_pass E H mode aeskey hmackey start timeout npackets delta padding st e).
Proof.
  intros st e (A & I & O & N & D & T & P). unfold s_pass.
  assert (I0: 0 <= s_i st) by (destruct A; lia).
  assert (IM: s_i st + 1 < M32 \/ s_i st + 1 = M32) by lia.
  assert (II: s_i st + 1 < M32) by lia. clear IM.
  destruct (se_int e || se_usr2 e); [unfold post, inv; tauto|].
  destruct (se_clock e) as [[[cur err] sy]|]; [|cbn [post]; auto].
  destruct (num64_ns timeout timeout_u64) as [T1 T2]. fold (s_timeout timeout) in T1, T2.
  destruct (ts_add_ns _ _ T1 N) as [L1 L2].
  destruct (ts_gt cur (s_next st)) eqn:G1.
  2:{ destruct (se_sleep e); cbn [post]; auto. unfold inv; tauto. }
  destruct (ts_gt cur (ts_add (s_timeout timeout) (s_next st))) eqn:G2.
  - apply advance_post; cbn [s_i s_skips s_log s_off s_next]; auto.
    + apply acc_skip; auto.
    + apply Forall_app; split; auto. constructor; [|constructor]. cbn [ev_timely].
      intros [K1 K2]. assert (Nc: norm cur) by exact K2.
      rewrite ts_gt_ns in G2 by auto. split; [lia|]. split; [auto|]. lia.
    + apply Forall_app; split; auto. repeat constructor.
  - set (ts0 := OWPTimespecToTimestamp _ cur _ _).
    set (ts := mkTS (owptime ts0) sy (multiplier ts0) (scale ts0)).
    destruct (se_int2 e || se_usr22 e); [unfold post, inv; cbn [s_i s_skips s_log s_off s_next]; tauto|].
    destruct (build_packet E H mode aeskey hmackey (padding (s_i st)) (s_i st) ts) as [pkt|] eqn:Bp; [|cbn [post]; auto].
    assert (T': forall r, Forall ev_timely (s_log st ++ [EvSend (s_i st) cur (s_next st) pkt r])).
    { intros r. apply Forall_app; split; auto. constructor; [|constructor]. cbn [ev_timely].
      intros [K1 K2]. assert (Nc: norm cur) by exact K2.
      rewrite ts_gt_ns in G1, G2 by auto. split; [lia|]. split; [auto|]. lia. }
    assert (P': forall r, Forall ev_packet (s_log st ++ [EvSend (s_i st) cur (s_next st) pkt r])).
    { intros r. apply Forall_app; split; auto. constructor; [|constructor]. cbn [ev_packet].
      exists ts. split; [|auto]. unfold ts, ts0. cbn [owptime]. now rewrite !owptime_ToTimestamp. }
    destruct (se_send e) eqn:Sr.
    + apply advance_post; cbn [s_i s_skips s_log s_off s_next]; auto. apply acc_send; auto.
    + cbn [post]. unfold inv. cbn [s_i s_skips s_log s_off s_next]. split; [now apply acc_nobufs|].
      repeat split; auto; apply N.
    + cbn [post]. auto.
    + apply advance_post; cbn [s_i s_skips s_log s_off s_next]; auto. apply acc_send; auto.
Qed.

Lemma loop_post : forall es st, inv st -> post (s_loop E H mode aeskey hmackey start timeout npackets delta padding st es).
Proof.
  induction es as [|e es IH]; intros st I; cbn [s_loop]; [exact I|].
  pose proof (pass_post st e I) as P.
  destruct (s_pass E H mode aeskey hmackey start timeout npackets delta padding st e) as [st'| | |]; auto.
Qed.

(** ** the results of a whole run *)
Definition run := run_sender E H mode aeskey hmackey start timeout npackets delta padding.

Lemma run_inv : forall ed es tes int st f, run ed es tes int = SOReport st f ->
  accounted (s_i st) (s_skips st) (s_log st) /\ f = skip_file st /\ s_i st <= Z.max 1 npackets /\
  Forall ev_timely (s_log st) /\ Forall ev_packet (s_log st).
Proof.
  intros ed es tes int st f R. unfold run, run_sender in R.
  pose proof (loop_post es _ inv_init) as P.
  destruct (s_loop _ _ _ _ _ _ _ _ _ _ _ es) as [st0|st0|st0|log]; try discriminate; cbn [post] in P.
  - destruct (s_tail _ tes) as [[|]|]; try discriminate. unfold s_finish in R. destruct int; try discriminate.
    inversion R; subst. intuition lia.
  - unfold s_finish in R. destruct int; try discriminate. inversion R; subst. unfold inv in P. intuition lia.
Qed.

Definition the_log (o : soutcome) : list sevent :=
  match o with SORunning st => s_log st | SOFailed l => l | SOReport st _ => s_log st end.

Lemma run_events : forall ed es tes int,
  Forall ev_timely (the_log (run ed es tes int)) /\ Forall ev_packet (the_log (run ed es tes int)).
Proof.
  intros ed es tes int. unfold run, run_sender.
  pose proof (loop_post es _ inv_init) as P.
  destruct (s_loop _ _ _ _ _ _ _ _ _ _ _ es) as [st0|st0|st0|log]; cbn [post] in P.
  - unfold inv in P. cbn [the_log]. tauto.
  - destruct (s_tail _ tes) as [[|]|]; unfold s_finish; [destruct int| |]; cbn [the_log]; tauto.
  - unfold inv in P. unfold s_finish; destruct int; cbn [the_log]; tauto.
  - cbn [the_log]. auto.
Qed.
End Run.
