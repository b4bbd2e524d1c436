(** Proofs about connection set-up. *)
From Coq Require Import ZArith List Bool Lia ZifyBool ZifyNat.
From Verif Require Import Base BaseLemmas Time_Model Sched_Model Wire_Model Wire_Spec Wire_Proofs Puts Control_Model Control_Spec Control_Proofs Control_Integrity Setup_Model Setup_Spec Setup_Select.
Import ListNotations.
Open Scope Z_scope.

(** ** What the calls leave alone *)

Definition same_keys (a b : ctl) : Prop :=
  twoway a = twoway b /\ key a = key b /\ hkey a = hkey b /\ riv a = riv b /\ wiv a = wiv b /\ shm a = shm b /\ rhm a = rhm b.

Lemma same_keys_refl : forall c, same_keys c c.
Proof. repeat split. Qed.
Lemma same_keys_trans : forall a b c, same_keys a b -> same_keys b c -> same_keys a c.
Proof. unfold same_keys. intuition congruence. Qed.

Lemma write_raw_same : forall c bs r c', write_raw c bs = (r, c') -> same_keys c c' /\ mode c' = mode c /\ inp c' = inp c /\ st c' = st c /\ msg c' = msg c.
Proof. unfold write_raw. intros c bs r c' W. destruct (io c) as [|[|i n] t]; inversion W; subst; repeat split. Qed.
Lemma read_raw_same : forall c o n r c', read_raw c o n = (r, c') -> same_keys c c' /\ mode c' = mode c /\ outp c' = outp c /\ st c' = st c.
Proof. unfold read_raw. intros c o n r c' W. destruct (io c) as [|[|i k] t]; inversion W; subst; repeat split. Qed.
Lemma write_raw_quiet : forall c bs, quiet c -> exists c', write_raw c bs = (IODone, c') /\ outp c' = outp c ++ bs /\ quiet c'.
Proof.
  unfold write_raw, quiet. intros c bs Q. destruct (io c) as [|a t]; [eexists; repeat split; constructor|].
  inversion Q; subst. eexists; repeat split. assumption.
Qed.

Lemma wf_same : forall c c', same_keys c c' -> msg c' = msg c -> wf c -> wf c'.
Proof. unfold wf, same_keys. intros. intuition congruence. Qed.

Lemma read_greeting_same : forall c rc x c', read_greeting c = (rc, x, c') -> same_keys c c' /\ mode c' = mode c /\ outp c' = outp c.
Proof.
  unfold read_greeting. intros c rc x c' R. destruct (negb (st c =? 0)); [inversion R; subst; repeat split|].
  destruct (read_raw c 0 64) as [r c1] eqn:RR. apply read_raw_same in RR. destruct RR as (A & B & C & _).
  destruct r; inversion R; subst; (split; [exact A|split; [exact B|exact C]]).
Qed.

Lemma read_greeting_fields : forall c x c' of ch sa co, wf c -> read_greeting c = (ErrOK, x, c') -> x = (of, ch, sa, co) ->
  (64 <= length (inp c))%nat /\ of = field (inp c) 12 4 /\ ch = octs_at (inp c) 16 16 /\ sa = octs_at (inp c) 32 16 /\ co = field (inp c) 48 4.
Proof.
  unfold read_greeting. intros c x c' of ch sa co (W1 & W2 & W3) R ->. destruct (negb (st c =? 0)); [discriminate|].
  destruct (read_raw c 0 64) as [r c1] eqn:RR. destruct r; try discriminate.
  assert (L: (64 <= length (inp c))%nat /\ msg c1 = put 0 (firstn 64 (inp c)) (msg c)).
  { unfold read_raw in RR. destruct (io c) as [|[|i k] t]; try discriminate; destruct (length (inp c) <? 64)%nat eqn:Q; inversion RR; subst; cproj; (split; [apply Nat.ltb_ge in Q; exact Q|reflexivity]). }
  destruct L as [L M]. inversion R; subst. cproj. rewrite M. split; [exact L|].
  assert (X: forall o n, (o + n <= 64)%nat -> sub o n (put 0 (firstn 64 (inp c)) (msg c)) = octs_at (inp c) o n).
  { intros o n Ho. rewrite sub_put_prefix by (rewrite firstn_length; lia). unfold sub, octs_at.
    rewrite skipn_firstn_comm, firstn_firstn. f_equal. lia. }
  rewrite !field_be. rewrite !X by lia. repeat split; reflexivity.
Qed.

Lemma put_head : forall n off bs m, (n <= off)%nat -> (off <= length m)%nat -> firstn n (put off bs m) = firstn n m.
Proof.
  intros n off bs m A B. unfold put. rewrite firstn_app, firstn_firstn, firstn_length.
  replace (n - Nat.min off (length m))%nat with 0%nat by lia. cbn [firstn]. rewrite app_nil_r. f_equal. lia.
Qed.

Lemma put_longer : forall off bs m, (off <= length m)%nat -> (length m <= length (put off bs m))%nat.
Proof. intros. unfold put. rewrite !app_length, firstn_length, skipn_length. lia. Qed.

Lemma write_setup_same : forall c u t rc c', write_setup c u t = (rc, c') -> same_keys c c' /\ mode c' = mode c /\ inp c' = inp c.
Proof.
  unfold write_setup. intros c u t rc c' W. destruct (negb (st c =? StSetup)); [inversion W; subst; repeat split|].
  set (m := if ciphers c then _ else _) in W. destruct (write_raw (set_msg c m) (sub 0 164 m)) as [r c1] eqn:WR.
  apply write_raw_same in WR. destruct WR as (A & B & C & _).
  destruct r; inversion W; subst; (split; [exact A|split; [exact B|exact C]]).
Qed.

Lemma write_setup_mode : forall c u t c', length (msg c) = 400%nat -> 0 <= mode c < 2^32 -> write_setup c u t = (ErrOK, c') ->
  exists o, outp c' = outp c ++ o /\ field o 0 4 = mode c.
Proof.
  unfold write_setup. intros c u t c' W1 Hm W. destruct (negb (st c =? StSetup)); [discriminate|].
  set (b := put 0 (be_enc 4 (mode c)) (put 0 (zeros 164) (msg c))) in W.
  set (m := if ciphers c then _ else _) in W. destruct (write_raw (set_msg c m) (sub 0 164 m)) as [r c1] eqn:WR.
  destruct r; try discriminate. apply write_raw_ok in WR. unfold sent_raw in WR. inversion W; subst c'.
  exists (sub 0 164 m). split; [rewrite WR; reflexivity|].
  assert (L: length b = 400%nat) by (unfold b; repeat (rewrite put_length; rewrite ?be_enc_length, ?zeros_length); lia).
  assert (B: firstn 4 b = be_enc 4 (mode c)).
  { unfold b. change (sub 0 4 (put 0 (be_enc 4 (mode c)) (put 0 (zeros 164) (msg c))) = be_enc 4 (mode c)).
    apply sub_put_same; rewrite ?be_enc_length; [lia|]. rewrite put_length; rewrite ?zeros_length; lia. }
  rewrite field_be. change (sub 0 4 (sub 0 164 m)) with (firstn 4 (firstn 164 m)). rewrite firstn_firstn. change (Nat.min 4 164) with 4%nat.
  replace (firstn 4 m) with (be_enc 4 (mode c)); [rewrite be_dec_enc by (rewrite pow32; lia); lia|].
  unfold m. destruct (ciphers c); [|now rewrite B].
  pose proof (put_longer 4 u b ltac:(lia)). pose proof (put_longer 84 t (put 4 u b) ltac:(lia)).
  rewrite !put_head by lia. now rewrite B.
Qed.

Lemma read_setup_fields : forall c x c' m u t iv, wf c -> read_setup c = (ErrOK, x, c') -> x = (m, u, t, iv) ->
  (164 <= length (inp c))%nat /\ m = field (inp c) 0 4 /\ u = octs_at (inp c) 4 80 /\ t = octs_at (inp c) 84 64 /\ iv = octs_at (inp c) 148 16 /\
  same_keys c c' /\ wf c' /\ inp c' = skipn 164 (inp c) /\ outp c' = outp c /\ st c' = st c /\ (quiet c -> quiet c').
Proof.
  unfold read_setup. intros c x c' m u t iv (W1 & W2 & W3) R ->. destruct (negb (st c =? StSetup)); [discriminate|].
  destruct (read_raw c 0 164) as [r c1] eqn:RR. pose proof (read_raw_same _ _ _ _ _ RR) as (SK & _). destruct r; try discriminate.
  assert (LQ: length (put 0 (firstn 164 (inp c)) (msg c)) = 400%nat) by (rewrite put_length; rewrite ?firstn_length; lia).
  assert (L: (164 <= length (inp c))%nat /\ msg c1 = put 0 (firstn 164 (inp c)) (msg c) /\ inp c1 = skipn 164 (inp c) /\ outp c1 = outp c /\ st c1 = st c /\ (quiet c -> quiet c1) /\
             length (riv c1) = 16%nat /\ length (wiv c1) = 16%nat).
  { unfold read_raw in RR. set (q := put 0 (firstn 164 (inp c)) (msg c)) in *. clearbody q. set (q2 := skipn 164 (inp c)) in *. clearbody q2.
    destruct (io c) as [|[|i k] t0] eqn:IO; try discriminate; destruct (length (inp c) <? 164)%nat eqn:Q; inversion RR; subst; cproj;
    (split; [apply Nat.ltb_ge in Q; exact Q|repeat split; auto]); unfold quiet; rewrite IO; cproj; intros QQ; inversion QQ; auto. }
  destruct L as (L & M & I & O & S & QQ & R1 & R2). inversion R; subst. rewrite M. split; [exact L|].
  assert (X: forall o n, (o + n <= 164)%nat -> sub o n (put 0 (firstn 164 (inp c)) (msg c)) = octs_at (inp c) o n).
  { intros o n Ho. rewrite sub_put_prefix by (rewrite firstn_length; lia). unfold sub, octs_at.
    rewrite skipn_firstn_comm, firstn_firstn. f_equal. lia. }
  rewrite !field_be. rewrite !X by lia. unfold wf. rewrite M. repeat match goal with |- _ /\ _ => split end; auto.
Qed.

Lemma feed_wf : forall c o, wf c -> wf (feed c o). Proof. auto. Qed.

Lemma feed_quiet : forall c o, quiet c -> quiet (feed c o). Proof. auto. Qed.

Lemma greet_quiet : forall s of ch sa co, wf s -> quiet s -> st s = 0 -> exists s', write_greeting s of ch sa co = (ErrOK, s') /\ quiet s' /\
  same_keys s s' /\ mode s' = mode s /\ inp s' = inp s.
Proof.
  intros s of ch sa co W Q S. unfold write_greeting. rewrite S. cbn [Z.eqb negb].
  match goal with |- context [write_raw ?c ?b] => destruct (write_raw_quiet c b Q) as (c1 & WR & _ & Q1); rewrite WR; apply write_raw_same in WR;
    destruct WR as (SK & MM & I & _) end.
  eexists. split; [reflexivity|]. cproj. split; [exact Q1|]. split; [exact SK|]. split; [exact MM|exact I].
Qed.

Lemma setup_quiet : forall c u t, quiet c -> st c = StSetup -> exists c', write_setup c u t = (ErrOK, c') /\ quiet c' /\ st c' = StSetup.
Proof.
  intros c u t Q S. unfold write_setup. rewrite S, Z.eqb_refl. cbn [negb].
  match goal with |- context [write_raw ?c ?b] => destruct (write_raw_quiet c b Q) as (c1 & WR & _ & Q1); rewrite WR; apply write_raw_same in WR;
    destruct WR as (SK & MM & I & ST & _) end.
  eexists. split; [reflexivity|]. split; [exact Q1|]. rewrite ST. exact S.
Qed.

Section S.
Variable E D : list Z -> list Z -> list Z.
Variable kdf : list Z -> list Z -> Z -> option (list Z).

(** ** Client (C20) *)





(** C20 *)
Lemma open_respond_sound : forall c w c', wf c -> open_respond E kdf c w = OpenOK c' ->
  let offered := field (inp c) 12 4 in let m := mode c' in
  exists haskey, usable offered (cw_req w) haskey (twoway c) m /\
    (haskey = true -> exists u p, cw_user w = Some u /\ fst (cw_getpf w u) = Some p) /\
    fst (cw_policy w m) = true /\
    (forall m', usable offered (cw_req w) haskey (twoway c) m' -> (strength m < strength m')%nat -> fst (cw_policy w m') = false) /\
    exists o, outp c' = outp c ++ o /\ field o 0 4 = m.
Proof.
  intros c w c' W R. cbv zeta. unfold open_respond in R.
  destruct (read_greeting c) as [[rc x] c1] eqn:RG. destruct x as [[[of ch] sa] co].
  destruct (negb (rc =? ErrOK)) eqn:Erc; [discriminate|]. assert (rc = ErrOK) by (unfold ErrOK in *; lia). subst rc.
  pose proof (read_greeting_fields _ _ _ _ _ _ _ W RG eq_refl) as (L & Fo & _).
  pose proof (read_greeting_same _ _ _ _ RG) as (SK & SM & SO).
  assert (W1: wf c1).
  { unfold read_greeting in RG. destruct (negb (st c =? 0)); [discriminate|]. destruct (read_raw c 0 64) as [r c2] eqn:RR.
    destruct r; try discriminate. inversion RG; subst. destruct W as (A & B & C).
    assert (A': length (put 0 (firstn 64 (inp c)) (msg c)) = 400%nat) by (rewrite put_length; rewrite ?firstn_length; lia).
    unfold read_raw in RR. set (q := put 0 (firstn 64 (inp c)) (msg c)) in *. clearbody q.
    destruct (io c) as [|[|i k] t]; try discriminate;
    destruct (length (inp c) <? 64)%nat; inversion RR; subst; unfold wf; cproj; auto. }
  destruct (client_pf w of) as [pf|] eqn:CP; [|discriminate].
  set (hk := match pf with Some _ => true | None => false end) in R.
  destruct (select_mode of (cw_req w) hk (twoway c1) (cw_policy w)) as [m| |] eqn:SEL; try discriminate.
  destruct (select_sound _ _ _ _ _ _ SEL) as (U & P & ST). rewrite <- (proj1 SK) in *.
  set (cm := set_mode c1 m) in R.
  destruct (if ciphers cm then _ else _) as [c2 token] eqn:T in R.
  assert (Q: (mode c2 = m /\ length (msg c2) = 400%nat /\ outp c2 = outp c) \/ token = None).
  { destruct (ciphers cm).
    - destruct (cw_key w), (cw_hkey w), (cw_iv w); inversion T; subst; auto.
      left. cproj. split; [reflexivity|]. split; [apply W1|exact SO].
    - inversion T; subst. left. cproj. split; [reflexivity|]. split; [apply W1|exact SO]. }
  destruct token as [t|]; [|discriminate]. destruct Q as [(Q1 & Q2 & Q3)|]; [|discriminate].
  destruct (write_setup c2 _ t) as [rc c3] eqn:WS in R. destruct (rc =? ErrOK) eqn:Erc2; [|discriminate].
  assert (rc = ErrOK) by (unfold ErrOK in *; lia). subst rc. inversion R; subst c3.
  pose proof (write_setup_same _ _ _ _ _ WS) as (_ & M3 & _).
  assert (SM4: single_mode m) by apply U.
  destruct (write_setup_mode _ _ _ _ Q2 ltac:(rewrite Q1; destruct SM4 as [->|[->|[->| ->]]]; lia) WS) as (o & O1 & O2).
  rewrite M3, Q1. rewrite <- Fo. exists hk. split; [exact U|]. split.
  - intros HK. assert (PF: pf <> None) by (intros ->; discriminate HK). clear - CP PF.
    unfold client_pf in CP. destruct (cw_user w) as [u|]; [|congruence].
    destruct (negb _); [|congruence]. destruct (cw_getpf w u) as [p e] eqn:GP.
    destruct p as [p|]; [|destruct (e =? ErrOK); congruence].
    exists u, p. rewrite GP. auto.
  - split; [exact P|]. split; [exact ST|]. exists o. rewrite O1, Q3, O2. auto.
Qed.

(** ** Server (C21, C22) *)

Lemma write_server_start_same : forall c a u rc c', write_server_start E c a u = (rc, c') ->
  twoway c' = twoway c /\ key c' = key c /\ hkey c' = hkey c /\ riv c' = riv c /\ rhm c' = rhm c /\ inp c' = inp c /\ (a = CNTRL_ACCEPT -> mode c' = mode c).
Proof.
  unfold write_server_start. intros c a u rc c' W. destruct (negb (st c =? StSetup)); [inversion W; subst; repeat split|].
  set (m := put 16 (wiv c) _) in W.
  set (c1 := if a =? CNTRL_ACCEPT then _ else _) in W.
  assert (C1: twoway c1 = twoway c /\ key c1 = key c /\ hkey c1 = hkey c /\ riv c1 = riv c /\ rhm c1 = rhm c /\ inp c1 = inp c /\ (a = CNTRL_ACCEPT -> mode c1 = mode c)).
  { unfold c1. destruct (a =? CNTRL_ACCEPT) eqn:A; cproj; repeat split; intros; subst; try discriminate. }
  clearbody c1. unfold shm_add in W.
  set (c2 := if ciphers c1 then set_shm _ _ else c1) in W.
  assert (C2: twoway c2 = twoway c /\ key c2 = key c /\ hkey c2 = hkey c /\ riv c2 = riv c /\ rhm c2 = rhm c /\ inp c2 = inp c /\ (a = CNTRL_ACCEPT -> mode c2 = mode c)).
  { unfold c2. destruct (ciphers c1); cproj; auto. }
  clearbody c2.
  set (c3 := if ciphers c2 then _ else c2) in W.
  assert (C3: twoway c3 = twoway c /\ key c3 = key c /\ hkey c3 = hkey c /\ riv c3 = riv c /\ rhm c3 = rhm c /\ inp c3 = inp c /\ (a = CNTRL_ACCEPT -> mode c3 = mode c)).
  { unfold c3. destruct (ciphers c2); [|exact C2]. destruct (cbc_enc _ _ _ _ _). cproj. exact C2. }
  clearbody c3. destruct (write_raw c3 (sub 0 48 (msg c3))) as [r c5] eqn:WR.
  apply write_raw_same in WR. destruct WR as ((A1 & A2 & A3 & A4 & A5 & A6 & A7) & B & I & _).
  destruct r; inversion W; subst; rewrite <- ?A1, <- ?A2, <- ?A3, <- ?A4, <- ?A7, ?B, ?I; intuition.
Qed.


Lemma accept_sound : forall s offered chal salt count uptime w s' u, wf s ->
  accept_decide E D kdf s offered chal salt count uptime w = AcceptOK s' u ->
  let r := firstn 164 (inp s) in let m := field r 0 4 in
  (single_mode m /\ (m = 8 -> twoway s = true)) /\ mode s' = m /\ fst (sw_policy w m u) = true /\
  (m = 1 -> u = None) /\
  (m <> 1 -> u = Some (octs_at r 4 80) /\
     exists pf k, fst (sw_getpf w (octs_at r 4 80)) = Some pf /\ kdf pf salt count = Some k /\
       let tok := fst (cbc_dec D k (zeros 16) 4 (octs_at r 84 64)) in
       octs_at tok 0 16 = chal /\ key s' = octs_at tok 16 16 /\ hkey s' = octs_at tok 32 32 /\ riv s' = octs_at r 148 16).
Proof.
  intros s offered chal salt count uptime w s' u W A. cbv zeta. unfold accept_decide in A.
  destruct (read_setup s) as [[rc x] c1] eqn:RS. destruct x as [[[m user] raw] iv].
  destruct (negb (rc =? ErrOK)) eqn:Erc; [discriminate|]. assert (rc = ErrOK) by (unfold ErrOK in *; lia). subst rc.
  destruct (read_setup_fields _ _ _ _ _ _ _ W RS eq_refl) as (L & Fm & Fu & Ft & Fi & SK & _).
  set (c2 := set_riv (set_mode c1 m) iv) in A.
  assert (Rr: forall o n, (o + n <= 164)%nat -> octs_at (firstn 164 (inp s)) o n = octs_at (inp s) o n).
  { intros o n Ho. unfold octs_at. rewrite skipn_firstn_comm, firstn_firstn. f_equal. lia. }
  assert (RF: field (firstn 164 (inp s)) 0 4 = m) by (rewrite field_be; change (sub 0 4) with (fun l => octs_at l 0 4); cbv beta; rewrite Rr by lia; rewrite Fm, field_be; reflexivity).
  rewrite RF, !Rr by lia. rewrite <- Fu, <- Ft, <- Fi. clear RF Rr.
  assert (TW: twoway c2 = twoway s) by (unfold c2; cproj; symmetry; apply SK).
  destruct (negb (m =? MODE_OPEN) && _ && _ && _) eqn:BM; [discriminate|].
  assert (SMD: single_mode m /\ (m = 8 -> twoway s = true)).
  { rewrite TW in BM. unfold single_mode, MODE_OPEN, MODE_MIXED, MODE_AUTH, MODE_ENCR in *. destruct (twoway s); cbn [negb orb andb] in BM; split; lia. }
  split; [exact SMD|].
  destruct (Z.lor m offered =? 0); [discriminate|].
  assert (FIN: forall c uu, accept_finish E c m uptime w uu = AcceptOK s' u -> uu = u /\ fst (sw_policy w m u) = true /\ mode s' = mode c /\ key s' = key c /\ hkey s' = hkey c /\ riv s' = riv c).
  { intros c uu F. unfold accept_finish in F. destruct (sw_policy w m uu) as [ok err] eqn:SP. destruct ok; cbn [negb] in F; [|discriminate].
    destruct (write_server_start E c CNTRL_ACCEPT uptime) as [rc c3] eqn:WS. destruct (rc =? ErrOK); [|discriminate].
    inversion F; subst. rewrite SP. apply write_server_start_same in WS. destruct WS as (_ & K & HK & RI & _ & _ & MM).
    rewrite (MM eq_refl). repeat split; auto. }
  assert (CI: ciphers c2 = negb (m =? 1)).
  { unfold ciphers, c2. cproj. destruct (proj1 SMD) as [->|[->|[->| ->]]]; reflexivity. }
  rewrite CI in A. destruct (m =? 1) eqn:M1; cbn [negb] in A.
  - destruct (FIN _ _ A) as (<- & P & MM & _). split; [exact MM|]. split; [exact P|]. split; [auto|]. intros; lia.
  - destruct (sw_getpf w user) as [pf err] eqn:GP.
    assert (A2: exists tok, decrypt_token D kdf (match pf with Some p => p | None => [] end) salt count raw = Some tok /\
       (if negb (eqb_octets chal (firstn 16 tok)) || match pf with None => true | _ => false end then AcceptNo (snd (write_server_start E c2 CNTRL_REJECT 0)) else
        match sw_iv w with None => AcceptNo (snd (write_server_start E c2 CNTRL_FAILURE 0))
        | Some wi => accept_finish E (set_hkey (set_key (set_wiv c2 wi) (sub 16 16 tok)) (sub 32 32 tok)) m uptime w (Some user) end) = AcceptOK s' u).
    { destruct pf as [p|]; destruct (err =? ErrOK); try discriminate;
      (destruct (decrypt_token D kdf _ salt count raw) as [tok|]; [|discriminate]); exists tok; (split; [reflexivity|exact A]). }
    clear A. destruct A2 as (tok & DT & A).
    destruct (negb (eqb_octets chal (firstn 16 tok)) || _) eqn:CH; [discriminate|]. apply orb_false_iff in CH. destruct CH as [CH PF].
    destruct pf as [p|]; [|discriminate]. destruct (sw_iv w) as [wi|]; [|discriminate].
    destruct (FIN _ _ A) as (<- & P & MM & K & HK & RI). clear A.
    split; [exact MM|]. split; [exact P|]. split; [lia|]. intros _. split; [reflexivity|].
    unfold decrypt_token in DT. destruct (kdf p salt count) as [k|] eqn:KD; [|discriminate].
    assert (DT' : fst (cbc_dec D k (zeros 16) 4 raw) = tok) by congruence.
    exists p, k. split; [reflexivity|]. split; [exact KD|]. rewrite DT'. rewrite K, HK, RI. cproj.
    apply negb_false_iff in CH. apply eqb_octets_spec in CH. repeat split; auto.
Qed.

(** ** An honest handshake (C22) *)




Lemma start_quiet : forall c up, quiet c -> st c = StSetup -> exists c' o, write_server_start E c CNTRL_ACCEPT up = (ErrOK, c') /\ sent c c' o.
Proof.
  intros c up Q S. unfold write_server_start. rewrite S, Z.eqb_refl. cbn [negb].
  change (CNTRL_ACCEPT =? CNTRL_ACCEPT) with true. cbv iota.
  set (c1 := set_st _ _). assert (C1: quiet c1 /\ outp c1 = outp c) by (split; [exact Q|reflexivity]). clearbody c1.
  set (c2 := shm_add c1 32 1). assert (C2: quiet c2 /\ outp c2 = outp c) by (unfold c2, shm_add; destruct (ciphers c1); exact C1). clearbody c2.
  set (c3 := if ciphers c2 then _ else c2). assert (C3: quiet c3 /\ outp c3 = outp c).
  { unfold c3. destruct (ciphers c2); [|exact C2]. destruct (cbc_enc _ _ _ _ _). exact C2. }
  clearbody c3. destruct (write_raw_quiet c3 (sub 0 48 (msg c3)) (proj1 C3)) as (c4 & WR & O & _). rewrite WR.
  exists c4, (sub 0 48 (msg c3)). split; [reflexivity|]. unfold sent. rewrite O, (proj2 C3). reflexivity.
Qed.

Lemma finish_quiet : forall s s' x, read_server_start D s = (ErrOK, x, s') -> fst x = CNTRL_ACCEPT ->
  wiv s' = wiv s /\ shm s' = shm s /\ mode s' = mode s.
Proof.
  unfold read_server_start. intros s s' x R A. destruct (negb (st s =? StSetup)); [discriminate|].
  destruct (read_raw s 0 32) as [r c1] eqn:R1. apply read_raw_same in R1. destruct R1 as ((_ & _ & _ & _ & A5 & A6 & _) & M1 & _).
  destruct r; try discriminate.
  destruct (get_accept (byte 15 (msg c1)) =? CNTRL_INVALID); [discriminate|].
  set (c2 := if get_accept (byte 15 (msg c1)) =? CNTRL_ACCEPT then _ else _) in R.
  destruct (recv_blocks D c2 0 1) as [r c3] eqn:R3. destruct r; try discriminate.
  assert (A': get_accept (byte 15 (msg c1)) = CNTRL_ACCEPT) by (inversion R; subst; exact A).
  assert (C2: wiv c2 = wiv s /\ shm c2 = shm s /\ mode c2 = mode s).
  { unfold c2. rewrite A', Z.eqb_refl. cproj. rewrite A5, A6, M1. auto. }
  clearbody c2.
  assert (C3: wiv c3 = wiv s /\ shm c3 = shm s /\ mode c3 = mode s).
  { unfold recv_blocks in R3. destruct (read_raw c2 0 (16 * 1)) as [q c4] eqn:R4. apply read_raw_same in R4.
    destruct R4 as ((_ & _ & _ & _ & B5 & B6 & _) & M4 & _). destruct q; try discriminate.
    assert (wiv c4 = wiv s /\ shm c4 = shm s /\ mode c4 = mode s) by (rewrite <- B5, <- B6, M4; exact C2).
    destruct (ciphers c4); [destruct (cbc_dec _ _ _ _ _)|]; inversion R3; subst; cproj; auto. }
  inversion R; subst. cproj. unfold rhm_add. destruct (ciphers c3); cproj; exact C3.
Qed.
End S.

Section T.
Variable E D : list Z -> list Z -> list Z.
Hypothesis BC : block_cipher E D.
Variable kdf : list Z -> list Z -> Z -> option (list Z).

Lemma new_octets : forall a b c : ctl, forall o, outp a = outp b -> sent b c o -> skipn (length (outp a)) (outp c) = o.
Proof. intros a b c o A S. unfold sent in S. rewrite S, A, skipn_app, skipn_all, Nat.sub_diag. reflexivity. Qed.

Lemma handshake : forall c0 s0 offered chal salt count uptime cw sw user pf k hk civ siv kk m,
  fresh c0 -> fresh s0 -> twoway c0 = twoway s0 ->
  0 <= offered < 2^32 -> length chal = 16%nat -> length salt = 16%nat -> 0 <= count < 2^32 -> 0 <= uptime < 2^64 ->
  cw_user cw = Some user -> length user = 80%nat ->
  fst (cw_getpf cw user) = Some pf -> fst (sw_getpf sw user) = Some pf -> kdf pf salt count = Some kk ->
  cw_key cw = Some k -> length k = 16%nat -> cw_hkey cw = Some hk -> length hk = 32%nat ->
  cw_iv cw = Some civ -> length civ = 16%nat -> sw_iv sw = Some siv -> length siv = 16%nat ->
  select_mode offered (cw_req cw) true (twoway c0) (cw_policy cw) = SelMode m -> m <> 1 ->
  fst (sw_policy sw m (Some user)) = true ->
  exists s1 c1 s2 c2,
    accept_greet s0 offered chal salt count = (true, s1) /\
    open_respond E kdf (feed c0 (outp s1)) cw = OpenOK c1 /\
    accept_decide E D kdf (feed s1 (outp c1)) offered chal salt count uptime sw = AcceptOK s2 (Some user) /\
    open_finish D (feed c1 (skipn (length (outp s1)) (outp s2))) = (OpenOK c2, uptime) /\
    linked c2 s2 /\ linked s2 c2 /\ mode c2 = m /\ key c2 = k /\ hkey c2 = hk /\
    st c2 = StRequest /\ st s2 = StRequest /\ inp c2 = [] /\ inp s2 = [].
Proof.
  intros c0 s0 offered chal salt count uptime cw sw user pf k hk civ siv kk m
    (Wc & Qc & Sc & Ic & Oc & Hc & Rc) (Ws & Qs & Ss & Is & Os & Hs & Rs) TW Bo Lch Ls Bc Bu Cu Lu Cp Sp KD Ck Lk Chk Lhk Civ Lciv Siv Lsiv SEL M1 SP.
  destruct (select_sound _ _ _ _ _ _ SEL) as (U & _ & _).
  assert (Off: offered <> 0) by (intros ->; destruct U as (SM & CO & _); unfold contains in CO; rewrite Z.land_0_l in CO; unfold single_mode in SM; lia).
  assert (CM: negb (Z.land m DOCIPHER_CNTRL =? 0) = true) by (destruct (proj1 U) as [->|[->|[->| ->]]]; try lia; reflexivity).
  assert (CA: negb (Z.land (Z.land offered (cw_req cw)) DOCIPHER_CNTRL =? 0) = true).
  { apply negb_true_iff, Z.eqb_neq. intros X. destruct U as (SM & CO & CR & _). unfold contains in *.
    assert (Z.land m DOCIPHER_CNTRL = 0).
    { rewrite <- CO, <- CR. replace (Z.land offered (Z.land (cw_req cw) m)) with (Z.land (Z.land offered (cw_req cw)) m) by (now rewrite Z.land_assoc).
      rewrite <- Z.land_assoc, (Z.land_comm m), Z.land_assoc, X. apply Z.land_0_l. }
    rewrite H, Z.eqb_refl in CM. discriminate. }
  (* greeting *)
  destruct (greet_quiet s0 offered chal salt count Ws Qs Ss) as (s1 & WG & Qs1 & SK1 & SM1 & SI1).
  assert (GO: exists g, sent s0 s1 g) by (exists (outp s1); unfold sent; rewrite Os; reflexivity).
  destruct GO as (g & GO). assert (g = outp s1) by (unfold sent in GO; rewrite Os in GO; exact (eq_sym GO)). subst g.
  destruct (greeting_roundtrip s0 s1 (feed c0 (outp s1)) offered chal salt count (outp s1) [] Ws (feed_wf _ _ Wc) (feed_quiet _ _ Qc) Sc Bo Lch Ls Bc WG GO)
    as (c0' & RG & I0 & St1 & St0 & Ws1 & Wc0 & Qc0).
  { unfold feed. cproj. rewrite Ic, app_nil_r. reflexivity. }
  pose proof (read_greeting_same _ _ _ _ RG) as (SKc & SMc & SOc).
  (* response *)
  assert (CP: client_pf cw offered = Some (Some pf)).
  { unfold client_pf. rewrite Cu, CA. destruct (cw_getpf cw user) as [p e]. cbn [fst] in Cp. subst p. reflexivity. }
  set (tok := fst (cbc_enc E kk (zeros 16) 4 (chal ++ k ++ hk))).
  assert (Ltok: length tok = 64%nat /\ fst (cbc_dec D kk (zeros 16) 4 tok) = chal ++ k ++ hk).
  { assert (LL: length (chal ++ k ++ hk) = (16 * 4)%nat) by (rewrite !app_length; lia).
    split; [unfold tok; apply (cbc_enc_len E D BC); auto|]. unfold tok. now rewrite (cbc_dec_enc E D BC) by auto. }
  destruct Ltok as [Ltok Dtok].
  set (cr := set_wiv (set_hkey (set_key (set_mode c0' m) k) hk) civ).
  assert (Wcr: wf cr) by (unfold wf, cr in *; cproj; intuition).
  destruct (setup_quiet cr user tok Qc0 St0) as (c1 & WS & Qc1 & Stc1).
  pose proof (write_setup_same _ _ _ _ _ WS) as (SKr & SMr & SIr).
  assert (OR: open_respond E kdf (feed c0 (outp s1)) cw = OpenOK c1).
  { unfold open_respond. rewrite RG. cbn [negb Z.eqb ErrOK Pos.eqb]. rewrite CP.
    replace (twoway c0') with (twoway c0) by (rewrite <- (proj1 SKc); reflexivity). rewrite SEL.
    replace (ciphers (set_mode c0' m)) with true by (unfold ciphers; cproj; now rewrite CM).
    rewrite Ck, Chk, Civ. unfold encrypt_token. rewrite KD. fold tok cr. rewrite Cu, WS. reflexivity. }
  assert (Ocr: outp cr = []) by (unfold cr; cproj; rewrite SOc; exact Oc).
  assert (CO1: sent cr c1 (outp c1)) by (unfold sent; rewrite Ocr; reflexivity).
  assert (Is1: inp (feed s1 (outp c1)) = outp c1 ++ []) by (unfold feed; cproj; rewrite SI1, Is, app_nil_r; reflexivity).
  assert (BM: 0 <= m < 2^32) by (destruct (proj1 U) as [->|[->|[->| ->]]]; lia).
  destruct (setup_roundtrip cr c1 (feed s1 (outp c1)) user tok (outp c1) [] Wcr (feed_wf _ _ Ws1) (feed_quiet _ _ Qs1) St1 BM Lu Ltok WS CO1 Is1)
    as (s1' & RS & I1 & _ & St1' & Wc1 & Ws1' & Qs1').
  assert (CC: ciphers cr = true) by exact CM. rewrite CC in RS.
  pose proof (read_setup_fields _ _ _ _ _ _ _ (feed_wf _ _ Ws1) RS eq_refl) as (_ & _ & _ & _ & _ & SKs & _ & _ & SOs & _).
  change (mode cr) with m in RS. change (wiv cr) with civ in RS.
  (* decision *)
  set (sr := set_hkey (set_key (set_wiv (set_riv (set_mode s1' m) civ) siv) k) hk).
  assert (Wsr: wf sr) by (unfold wf, sr in *; cproj; intuition).
  destruct (start_quiet E sr uptime Qs1' St1') as (s2 & o2 & WST & SO2).
  assert (TWs: twoway s1' = twoway c0).
  { rewrite <- (proj1 SKs). unfold feed. cproj. rewrite <- (proj1 SK1). auto. }
  assert (AD: accept_decide E D kdf (feed s1 (outp c1)) offered chal salt count uptime sw = AcceptOK s2 (Some user)).
  { unfold accept_decide. rewrite RS. cbn [negb Z.eqb ErrOK Pos.eqb].
    replace (negb (m =? MODE_OPEN) && (negb (twoway (set_riv (set_mode s1' m) civ)) || negb (m =? MODE_MIXED)) && negb (m =? MODE_AUTH) && negb (m =? MODE_ENCR)) with false.
    2: { cproj. rewrite TWs. destruct U as (SM & _ & _ & _ & U5). unfold single_mode, MODE_OPEN, MODE_MIXED, MODE_AUTH, MODE_ENCR in *.
         destruct (twoway c0); cbn [negb orb]; lia. }
    replace (Z.lor m offered =? 0) with false.
    2: { symmetry. apply Z.eqb_neq. intros X. apply Z.lor_eq_0_iff in X. tauto. }
    replace (ciphers (set_riv (set_mode s1' m) civ)) with true by (unfold ciphers; cproj; now rewrite CM).
    destruct (sw_getpf sw user) as [p e]. cbn [fst] in Sp. subst p.
    unfold decrypt_token. rewrite KD, Dtok.
    assert (T0: firstn 16 (chal ++ k ++ hk) = chal) by (rewrite firstn_app, firstn_all2, Lch by lia; cbn [Nat.sub firstn]; now rewrite app_nil_r).
    assert (T1: sub 16 16 (chal ++ k ++ hk) = k).
    { unfold sub. rewrite skipn_app, skipn_all2, Lch by lia. cbn [Nat.sub skipn app]. rewrite firstn_app, firstn_all2, Lk by lia. cbn [Nat.sub firstn]. now rewrite app_nil_r. }
    assert (T2: sub 32 32 (chal ++ k ++ hk) = hk).
    { unfold sub. rewrite app_assoc, skipn_app, skipn_all2 by (rewrite app_length; lia). rewrite app_length, Lch, Lk. cbn [Nat.sub plus skipn app]. rewrite firstn_all2 by lia. reflexivity. }
    rewrite T0, T1, T2. replace (eqb_octets chal chal) with true by (symmetry; now apply eqb_octets_spec). cbn [negb orb]. rewrite Siv.
    replace (match e =? ErrOK with true => _ | false => _ end) with (accept_finish E sr m uptime sw (Some user)) by (destruct (e =? ErrOK); reflexivity).
    unfold accept_finish. destruct (sw_policy sw m (Some user)) as [ok er]. cbn [fst] in SP. subst ok. cbn [negb].
    fold sr. rewrite WST. reflexivity. }
  (* conclusion *)
  assert (NO: skipn (length (outp s1)) (outp s2) = o2).
  { apply (new_octets s1 sr s2 o2); [|exact SO2]. unfold sr. cproj. rewrite SOs. reflexivity. }
  destruct SKr as (K1 & K2 & K3 & K4 & K5 & K6 & K7).
  assert (F1: mode sr = mode (feed c1 o2)) by (unfold sr, feed; cproj; rewrite SMr; reflexivity).
  assert (F2: twoway sr = twoway (feed c1 o2)).
  { unfold sr, feed. cproj. rewrite TWs, <- K1. unfold cr. cproj. rewrite <- (proj1 SKc). reflexivity. }
  destruct (server_start_roundtrip E D BC sr s2 (feed c1 o2) uptime o2 [] Wsr (feed_wf _ _ Wc1) (feed_quiet _ _ Qc1) Stc1 Bu F1 F2)
    as (c2 & RSS & AG & St2 & Stc2); auto.
  { unfold feed. cproj. rewrite SIr. unfold cr. cproj. rewrite I0, app_nil_r. reflexivity. }
  destruct (finish_quiet D _ _ _ RSS eq_refl) as (G1 & G2 & G3).
  pose proof (write_server_start_same E D kdf _ _ _ _ _ WST) as (V1 & V2 & V3 & V4 & V5 & VI & V6).
  destruct AG as (LK & IC2 & Wfs2 & Wfc2 & Qc2).
  assert (LK' := LK). destruct LK' as (L1 & L2 & L3 & L4 & L5 & L6).
  exists s1, c1, s2, c2. split.
  { unfold accept_greet. rewrite WG. cbn [ErrOK Z.eqb Pos.eqb andb]. apply Z.eqb_neq in Off. now rewrite Off. }
  split; [exact OR|]. split; [exact AD|]. rewrite NO.
  split; [unfold open_finish; rewrite RSS; reflexivity|].
  split.
  { unfold linked. rewrite <- L1, <- L2, <- L3, <- L4. repeat split; auto.
    - rewrite G1, V4. unfold feed. cproj. rewrite <- K5. reflexivity.
    - rewrite G2, V5. unfold feed. cproj. rewrite <- K6. reflexivity. }
  split; [exact LK|].
  split; [rewrite G3; unfold feed; cproj; rewrite SMr; reflexivity|].
  split; [rewrite <- L3, V2; reflexivity|]. split; [rewrite <- L4, V3; reflexivity|].
  split; [exact Stc2|]. split; [exact St2|]. split; [exact IC2|]. rewrite VI. unfold sr. cproj. exact I1.
Qed.
End T.
