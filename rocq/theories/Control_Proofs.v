(** Proofs about the control connection. *)
From Coq Require Import ZArith List Bool Lia ZifyBool ZifyNat Arith.
From Verif Require Import Base BaseLemmas Puts Time_Model Time_Proofs Sched_Model Wire_Model Wire_Spec Wire_Proofs Control_Model Control_Spec.
Import ListNotations.
Open Scope Z_scope.
Ltac Zify.zify_post_hook ::= Z.div_mod_to_equations.

Ltac cproj := cbn [st mode twoway msg key hkey riv wiv shm rhm inp outp io remote local
  set_st set_mode set_msg set_key set_hkey set_riv set_wiv set_shm set_rhm set_inp set_outp or_st clr_st invalid fst snd].

(** ** lists and buffers *)
Lemma xor_len : forall a b n, length a = n -> length b = n -> length (xor_octets a b) = n.
Proof.
  induction a; destruct b; intros n Ha Hb; cbn in *; subst; auto; discriminate.
Qed.

Lemma xor_inv : forall a b, length a = length b -> xor_octets (xor_octets a b) b = a.
Proof.
  induction a; destruct b; intros Hl; cbn in *; auto; try discriminate.
  f_equal; auto. rewrite Z.lxor_assoc, Z.lxor_nilpotent, Z.lxor_0_r. auto.
Qed.

Lemma skipn_app_len : forall (A:Type) (a b : list A) n, length a = n -> skipn n (a ++ b) = b.
Proof. intros. subst. rewrite skipn_app, skipn_all, Nat.sub_diag. reflexivity. Qed.
Lemma firstn_app_len : forall (A:Type) (a b : list A) n, length a = n -> firstn n (a ++ b) = a.
Proof. intros. subst. rewrite firstn_app, firstn_all, Nat.sub_diag. cbn. apply app_nil_r. Qed.

Lemma sub_all : forall l n, length l = n -> sub 0 n l = l.
Proof. intros. unfold sub. cbn [skipn]. subst. apply firstn_all. Qed.

Lemma sub_put_prefix : forall o l p m, (o + l <= length p)%nat -> sub o l (put 0 p m) = sub o l p.
Proof.
  intros. unfold sub, put. cbn [firstn app]. rewrite skipn_app, firstn_app.
  rewrite skipn_length. replace (l - (length p - o))%nat with 0%nat by lia. cbn [firstn]. apply app_nil_r.
Qed.

Lemma sub_sub : forall o l o' n m, (o + l <= n)%nat -> sub o l (sub o' n m) = sub (o' + o) l m.
Proof.
  intros. unfold sub. rewrite skipn_firstn_comm, firstn_firstn.
  replace (Nat.min l (n - o)) with l by lia.
  rewrite <- (Nat.add_comm o o'). f_equal. revert m. induction o'; intros.
  - now rewrite Nat.add_0_r.
  - rewrite Nat.add_succ_r. destruct m; cbn [skipn]; [now rewrite skipn_nil|]. apply IHo'.
Qed.

Lemma sub_app_split : forall o n m buf, sub o (n + m) buf = sub o n buf ++ sub (o + n) m buf.
Proof.
  intros. unfold sub. rewrite <- (firstn_skipn n (firstn (n + m) (skipn o buf))).
  rewrite firstn_firstn. replace (Nat.min n (n + m)) with n by lia. f_equal.
  rewrite skipn_firstn_comm. replace (n + m - n)%nat with m by lia. f_equal.
  revert buf. induction o; intros; auto. destruct buf; cbn [skipn plus]; [apply skipn_nil|]. apply IHo.
Qed.

Lemma put_put : forall off a b m, length a = length b -> (off <= length m)%nat -> put off a (put off b m) = put off a m.
Proof.
  intros. unfold put. rewrite firstn_app, firstn_firstn.
  rewrite firstn_length. replace (Nat.min off off) with off by lia.
  replace (off - Nat.min off (length m))%nat with 0%nat by lia. cbn [firstn]. rewrite app_nil_r. f_equal. f_equal.
  rewrite skipn_app. rewrite skipn_all2 by (rewrite firstn_length; lia). cbn [app].
  rewrite firstn_length. replace (off + length a - Nat.min off (length m))%nat with (length b) by lia.
  rewrite skipn_app_len by auto. congruence.
Qed.

Lemma put_self : forall off n m, (off + n <= length m)%nat -> put off (sub off n m) m = m.
Proof.
  intros. unfold put. rewrite sub_length by lia. unfold sub.
  rewrite <- (firstn_skipn off m) at 4. f_equal.
  rewrite <- (firstn_skipn n (skipn off m)) at 2. f_equal.
  clear H. revert m. induction off; intros; cbn [plus skipn]; auto. destruct m; [now rewrite skipn_nil|]. apply IHoff.
Qed.

Lemma byte_sub_eq : forall i a b, sub i 1 a = sub i 1 b -> byte i a = byte i b.
Proof.
  intros i a b H0. unfold byte, sub in *.
  assert (G: forall l, nth i l 0 = nth 0 (firstn 1 (skipn i l)) 0).
  { clear. induction i; intros l; destruct l; cbn; auto. apply IHi. }
  rewrite (G a), (G b). now rewrite H0.
Qed.

(** ** CBC *)
Section P.
Variable E D : list Z -> list Z -> list Z.
Variable H : list Z -> list Z -> list Z.
Hypothesis BC : block_cipher E D.
Hypothesis HL : digest20 H.

Lemma cbc_enc_len : forall nb k iv p, length p = (16 * nb)%nat -> length iv = 16%nat ->
  length (fst (cbc_enc E k iv nb p)) = (16 * nb)%nat /\ length (snd (cbc_enc E k iv nb p)) = 16%nat.
Proof using BC.
  induction nb; intros k iv p Hp Hi; cbn [cbc_enc]; [cbn; auto|].
  assert (Hx: length (xor_octets (firstn 16 p) iv) = 16%nat).
  { apply xor_len; auto. rewrite firstn_length. lia. }
  pose proof (proj1 (BC k _ Hx)) as He.
  specialize (IHnb k (E k (xor_octets (firstn 16 p) iv)) (skipn 16 p)).
  destruct (cbc_enc E k (E k (xor_octets (firstn 16 p) iv)) nb (skipn 16 p)) as [r iv'] eqn:Q.
  cbn [fst snd] in *. rewrite app_length.
  destruct IHnb; auto. { rewrite skipn_length. lia. } lia.
Qed.

Lemma cbc_dec_enc : forall nb k iv p, length p = (16 * nb)%nat -> length iv = 16%nat ->
  cbc_dec D k iv nb (fst (cbc_enc E k iv nb p)) = (p, snd (cbc_enc E k iv nb p)).
Proof using BC.
  induction nb; intros k iv p Hp Hi; cbn [cbc_enc cbc_dec].
  - destruct p; [auto|discriminate].
  - assert (Hf: length (firstn 16 p) = 16%nat) by (rewrite firstn_length; lia).
    assert (Hx: length (xor_octets (firstn 16 p) iv) = 16%nat) by (apply xor_len; auto).
    destruct (BC k _ Hx) as [He Hd].
    specialize (IHnb k (E k (xor_octets (firstn 16 p) iv)) (skipn 16 p)).
    destruct (cbc_enc E k (E k (xor_octets (firstn 16 p) iv)) nb (skipn 16 p)) as [r iv'] eqn:Q.
    cbn [fst snd] in *.
    rewrite firstn_app_len, skipn_app_len by auto. rewrite IHnb; auto. 2:{ rewrite skipn_length. lia. }
    rewrite Hd, xor_inv by (rewrite Hf; auto). now rewrite firstn_skipn.
Qed.

Lemma cbc_enc_app : forall n m k iv p q, length p = (16 * n)%nat ->
  cbc_enc E k iv (n + m) (p ++ q) =
  let (c1, iv1) := cbc_enc E k iv n p in let (c2, iv2) := cbc_enc E k iv1 m q in (c1 ++ c2, iv2).
Proof using.
  induction n; intros m k iv p q Hp; cbn [plus cbc_enc].
  - destruct p; [|discriminate]. cbn [app]. destruct (cbc_enc E k iv m q); auto.
  - assert (Q1: firstn 16 (p ++ q) = firstn 16 p).
    { rewrite firstn_app. replace (16 - length p)%nat with 0%nat by lia. cbn [firstn]. apply app_nil_r. }
    assert (Q2: skipn 16 (p ++ q) = skipn 16 p ++ q).
    { rewrite skipn_app. replace (16 - length p)%nat with 0%nat by lia. reflexivity. }
    rewrite Q1, Q2. rewrite IHn by (rewrite skipn_length; lia).
    destruct (cbc_enc E k _ n (skipn 16 p)) as [c1 iv1]. destruct (cbc_enc E k iv1 m q) as [c2 iv2].
    now rewrite app_assoc.
Qed.

(** the octets that plaintext [p] becomes on the wire *)
Definition wire (ciph : bool) (k iv p : list Z) : list Z * list Z :=
  if ciph then cbc_enc E k iv (length p / 16)%nat p else (p, iv).

Lemma div16 : forall n, (16 * n / 16 = n)%nat.
Proof using. intros. rewrite Nat.mul_comm. apply Nat.div_mul. lia. Qed.

Lemma wire_app : forall b n m k iv p q, length p = (16 * n)%nat -> length q = (16 * m)%nat ->
  wire b k iv (p ++ q) = (fst (wire b k iv p) ++ fst (wire b k (snd (wire b k iv p)) q),
                          snd (wire b k (snd (wire b k iv p)) q)).
Proof using.
  intros b n m k iv p q Hp Hq. unfold wire. destruct b; [|auto].
  rewrite app_length, Hp, Hq. replace (16 * n + 16 * m)%nat with (16 * (n + m))%nat by lia.
  rewrite !div16, cbc_enc_app by auto.
  destruct (cbc_enc E k iv n p) as [c1 iv1]. cbn [fst snd]. destruct (cbc_enc E k iv1 m q); auto.
Qed.

Lemma wire_len : forall b n k iv p, length p = (16 * n)%nat -> length iv = 16%nat ->
  length (fst (wire b k iv p)) = (16 * n)%nat /\ length (snd (wire b k iv p)) = 16%nat.
Proof using BC.
  intros b n k iv p Hp Hi. unfold wire. destruct b; [|cbn; auto]. rewrite Hp, div16. apply cbc_enc_len; auto.
Qed.

(** ** sending *)
Definition after_send (c : ctl) (off nb : nat) : ctl :=
  let p := sub off (16 * nb) (msg c) in
  let w := wire (ciphers c) (key c) (wiv c) p in
  set_outp (set_wiv (set_msg c (put off (fst w) (msg c))) (snd w)) (outp c ++ fst w) (tl (io c)).

Lemma send_ok : forall c off nb c', (off + 16 * nb <= length (msg c))%nat ->
  send_blocks E c off nb = (IODone, c') -> c' = after_send c off nb.
Proof using.
  intros c off nb c' Hl Hs. unfold send_blocks in Hs. unfold after_send, wire. destruct (ciphers c) eqn:C.
  - rewrite sub_length by auto. rewrite div16.
    destruct (cbc_enc E (key c) (wiv c) nb (sub off (16 * nb) (msg c))) as [ct iv].
    cbn [fst snd]. unfold write_raw in Hs. cbn [io set_wiv set_msg] in Hs.
    destruct (io c) as [|[|]]; inversion Hs; subst; reflexivity.
  - cbn [fst snd]. rewrite put_self by auto. unfold write_raw in Hs.
    destruct (io c) as [|[|]]; inversion Hs; subst; destruct c; reflexivity.
Qed.

(** ** receiving *)
Definition after_recv (s : ctl) (off : nat) (p rest : list Z) : ctl :=
  set_riv (set_msg (set_inp s rest (tl (io s))) (put off p (msg s))) (snd (wire (ciphers s) (key s) (riv s) p)).

Lemma recv_wire : forall s off nb p rest,
  quiet s -> length p = (16 * nb)%nat -> length (riv s) = 16%nat -> (off + 16 * nb <= length (msg s))%nat ->
  inp s = fst (wire (ciphers s) (key s) (riv s) p) ++ rest ->
  recv_blocks D s off nb = (IODone, after_recv s off p rest).
Proof using BC.
  intros s off nb p rest Hq Hp Hr Hm Hi.
  destruct (wire_len (ciphers s) nb (key s) (riv s) p Hp Hr) as [Hw _].
  assert (Q: match io s with IOfail _ _ :: _ => False | _ => True end).
  { destruct (io s) as [|[|] r] eqn:I; auto. unfold quiet in Hq. rewrite I in Hq. inversion Hq; discriminate. }
  assert (N: (length (inp s) <? 16 * nb)%nat = false) by (apply Nat.ltb_ge; rewrite Hi, app_length; lia).
  set (s1 := set_msg (set_inp s (skipn (16 * nb) (inp s)) (tl (io s))) (put off (firstn (16 * nb) (inp s)) (msg s))).
  assert (RR: read_raw s off (16 * nb) = (IODone, s1)).
  { unfold read_raw, s1. destruct (io s) as [|[|]]; rewrite ?N; auto; contradiction. }
  unfold recv_blocks.
  rewrite RR. change (ciphers s1) with (ciphers s). unfold after_recv, wire in *.
  subst s1. destruct (ciphers s) eqn:C; cbn [msg set_msg key riv set_inp].
  - rewrite Hp, div16 in *.
    rewrite Hi, firstn_app_len, skipn_app_len by auto.
    rewrite sub_put_same by lia. rewrite cbc_dec_enc by auto.
    rewrite put_put by lia. destruct s; reflexivity.
  - cbn [fst snd] in *. rewrite Hi, firstn_app_len, skipn_app_len by auto. destruct s; reflexivity.
Qed.

(** ** a whole message: text blocks followed by the integrity code *)
Definition same (c c' : ctl) : Prop :=
  mode c' = mode c /\ twoway c' = twoway c /\ key c' = key c /\ hkey c' = hkey c /\
  remote c' = remote c /\ local c' = local c /\ st c' = st c.

Definition tag (ciph : bool) (hk pre text : list Z) : list Z :=
  if ciph then firstn 16 (H hk (pre ++ text)) else zeros 16.

Lemma tag_len : forall b hk pre t, length (tag b hk pre t) = 16%nat.
Proof using HL. intros. unfold tag. destruct b; auto. rewrite firstn_length, HL. auto. Qed.

Definition wrote (c c' : ctl) (P : list Z) : Prop :=
  same c c' /\ outp c' = outp c ++ fst (wire (ciphers c) (key c) (wiv c) P) /\
  wiv c' = snd (wire (ciphers c) (key c) (wiv c) P) /\
  riv c' = riv c /\ rhm c' = rhm c /\ inp c' = inp c /\ io c' = tl (io c) /\ length (msg c') = 400%nat.

Lemma emit : forall c m hb c', length m = 400%nat -> (16 * hb + 16 <= 400)%nat -> length (wiv c) = 16%nat ->
  send_blocks E (shm_digest H (shm_add (set_msg c m) 0 hb) (16 * hb)) 0 (S hb) = (IODone, c') ->
  wrote c c' (sub 0 (16 * hb) m ++ tag (ciphers c) (hkey c) (shm c) (sub 0 (16 * hb) m)) /\
  shm c' = (if ciphers c then [] else shm c).
Proof using BC HL.
  intros c m hb c' Hm Hb Hw Hs.
  set (T := sub 0 (16 * hb) m) in *.
  assert (HT: length T = (16 * hb)%nat) by (apply sub_length; lia).
  pose proof (tag_len (ciphers c) (hkey c) (shm c) T) as Htl.
  set (c1 := shm_digest H (shm_add (set_msg c m) 0 hb) (16 * hb)) in *.
  assert (M1: msg c1 = put (16 * hb) (tag (ciphers c) (hkey c) (shm c) T) m /\
     shm c1 = (if ciphers c then [] else shm c) /\ ciphers c1 = ciphers c /\ key c1 = key c /\ wiv c1 = wiv c /\
     outp c1 = outp c /\ io c1 = io c /\ riv c1 = riv c /\ rhm c1 = rhm c /\ inp c1 = inp c /\ same c c1).
  { unfold c1, shm_add, shm_digest, tag, same. change (ciphers (set_msg c m)) with (ciphers c).
    destruct (ciphers c) eqn:C.
    - change (ciphers (set_shm (set_msg c m) (shm (set_msg c m) ++ sub 0 (16 * hb) (msg (set_msg c m))))) with (ciphers c).
      rewrite C. cbn. tauto.
    - change (ciphers (set_msg c m)) with (ciphers c). rewrite C. cbn. tauto. }
  destruct M1 as (M1 & M2 & M3 & M4 & M5 & M6 & M7 & M8 & M9 & M10 & M11).
  assert (L1: length (msg c1) = 400%nat) by (rewrite M1, put_length; lia).
  apply send_ok in Hs; [|lia].
  assert (P1: sub 0 (16 * S hb) (msg c1) = T ++ tag (ciphers c) (hkey c) (shm c) T).
  { replace (16 * S hb)%nat with (16 * hb + 16)%nat by lia. rewrite sub_app_split, M1. f_equal.
    - rewrite sub_put_disjoint by lia. reflexivity.
    - cbn [plus]. apply sub_put_same; lia. }
  assert (PL: length (T ++ tag (ciphers c) (hkey c) (shm c) T) = (16 * S hb)%nat) by (rewrite app_length; lia).
  destruct (wire_len (ciphers c) (S hb) (key c) (wiv c) _ PL Hw) as [W1 W2].
  unfold after_send in Hs. rewrite P1, M3, M4, M5, M6 in Hs.
  subst c'. unfold wrote, same in *. cproj. rewrite put_length by lia. rewrite M7. tauto.
Qed.

Definition got (s s' : ctl) (P rest : list Z) : Prop :=
  same s s' /\ inp s' = rest /\ riv s' = snd (wire (ciphers s) (key s) (riv s) P) /\
  wiv s' = wiv s /\ shm s' = shm s /\ outp s' = outp s /\ quiet s' /\ length (msg s') = 400%nat /\
  sub 0 (length P) (msg s') = P.

Lemma ciphers_same : forall c c', same c c' -> ciphers c' = ciphers c.
Proof using. intros c c' (H0 & _). unfold ciphers. now rewrite H0. Qed.

Lemma quiet_tl : forall l, Forall (fun r => r = IOok) l -> Forall (fun r => r = IOok) (tl l).
Proof using. intros l H0. destruct H0; cbn; auto. Qed.

(** receive [nb] blocks at the start of the buffer *)
Lemma recv0 : forall s nb P rest, wf s -> quiet s -> length P = (16 * nb)%nat -> (16 * nb <= 400)%nat ->
  inp s = fst (wire (ciphers s) (key s) (riv s) P) ++ rest ->
  exists s', recv_blocks D s 0 nb = (IODone, s') /\ got s s' P rest /\ rhm s' = rhm s.
Proof using BC.
  intros s nb P rest (W1 & W2 & W3) Hq HP Hn Hi.
  exists (after_recv s 0 P rest). split; [apply recv_wire; auto; lia|].
  unfold after_recv, got, same, quiet. cproj.
  rewrite put_length by lia. split; [|auto].
  repeat split; auto. { apply quiet_tl; auto. }
  rewrite sub_put_prefix by lia. apply sub_all; auto.
Qed.

(** receive further blocks behind what has already been received *)
Lemma recv_more : forall s nb P0 P n rest, wf s -> quiet s -> length P = (16 * nb)%nat -> length P0 = n ->
  (n + 16 * nb <= 400)%nat -> sub 0 n (msg s) = P0 ->
  inp s = fst (wire (ciphers s) (key s) (riv s) P) ++ rest ->
  exists s', recv_blocks D s n nb = (IODone, s') /\ same s s' /\ inp s' = rest /\
    riv s' = snd (wire (ciphers s) (key s) (riv s) P) /\ wiv s' = wiv s /\ shm s' = shm s /\ outp s' = outp s /\
    quiet s' /\ length (msg s') = 400%nat /\ sub 0 (n + 16 * nb) (msg s') = P0 ++ P /\ rhm s' = rhm s.
Proof using BC.
  intros s nb P0 P n rest (W1 & W2 & W3) Hq HP HP0 Hn H0 Hi.
  exists (after_recv s n P rest). split; [apply recv_wire; auto; lia|].
  unfold after_recv, same, quiet. cproj. rewrite put_length by lia.
  repeat split; auto. { apply quiet_tl; auto. }
  rewrite sub_app_split. f_equal.
  - rewrite sub_put_disjoint by lia. auto.
  - cbn [plus]. rewrite <- HP. apply sub_put_same; lia.
Qed.

(** the integrity check of a message whose text and code are in the buffer *)
Lemma check_ok : forall s hb T, length (msg s) = 400%nat -> (16 * hb + 16 <= 400)%nat -> length T = (16 * hb)%nat ->
  sub 0 (16 * hb + 16) (msg s) = T ++ tag (ciphers s) (hkey s) (rhm s) T ->
  rhm_check H (rhm_add s 0 hb) (16 * hb) = (true, if ciphers s then set_rhm s [] else s).
Proof using HL.
  intros s hb T Hm Hb HT HS. pose proof (tag_len (ciphers s) (hkey s) (rhm s) T) as Htl.
  rewrite sub_app_split in HS.
  assert (S1: sub 0 (16 * hb) (msg s) = T).
  { apply (f_equal (firstn (16 * hb))) in HS. rewrite !firstn_app_len in HS; auto. apply sub_length; lia. }
  assert (S2: sub (16 * hb) 16 (msg s) = tag (ciphers s) (hkey s) (rhm s) T).
  { apply (f_equal (skipn (16 * hb))) in HS. rewrite !skipn_app_len in HS; auto. apply sub_length; lia. }
  unfold rhm_check, rhm_add. destruct (ciphers s) eqn:C.
  - change (ciphers (set_rhm s (rhm s ++ sub 0 (16 * hb) (msg s)))) with (ciphers s). rewrite C.
    cbn [msg set_rhm hkey rhm]. rewrite S1, S2. unfold tag. rewrite eqb_octets_refl. destruct s; reflexivity.
  - rewrite C. reflexivity.
Qed.

Lemma sub_of_prefix : forall o l n P m, (o + l <= n)%nat -> sub 0 n m = P -> sub o l m = sub o l P.
Proof using. intros. subst P. rewrite sub_sub; auto. Qed.

(** ** round trips *)
Lemma wf_wrote : forall c c' P n, wf c -> wrote c c' P -> length P = (16 * n)%nat -> wf c'.
Proof using BC.
  intros c c' P n (W1 & W2 & W3) (S & O & W & R & _ & _ & _ & M) HP. unfold wf. rewrite M, R, W.
  split; auto. split; auto. apply (wire_len _ n); auto.
Qed.

Lemma wf_got : forall s s' P rest n, wf s -> got s s' P rest -> length P = (16 * n)%nat -> wf s'.
Proof using BC.
  intros s s' P rest n (W1 & W2 & W3) (S & O & R & W & _ & _ & _ & M & _) HP. unfold wf. rewrite M, R, W.
  split; auto. split; auto. apply (wire_len _ n); auto.
Qed.

(** reading back a complete message (text and code) of [hb] text blocks *)
Lemma receive_message : forall c c' s P T hb o rest,
  wf c -> wf s -> quiet s -> linked c s -> wrote c c' P -> sent c c' o -> inp s = o ++ rest ->
  P = T ++ tag (ciphers c) (hkey c) (shm c) T -> length T = (16 * hb)%nat -> (16 * hb + 16 <= 400)%nat ->
  exists s1 s2, recv_blocks D s 0 (S hb) = (IODone, s1) /\
    rhm_check H (rhm_add s1 0 hb) (16 * hb) = (true, s2) /\ got s s2 P rest /\
    rhm s2 = (if ciphers s then [] else rhm s) /\ sub 0 (16 * hb) (msg s2) = T.
Proof using BC HL.
  intros c c' s P T hb o rest Wc Ws Q L W So Hi HP HT Hb.
  destruct L as (L1 & L2 & L3 & L4 & L5 & L6).
  assert (C: ciphers s = ciphers c) by (unfold ciphers; congruence).
  pose proof (tag_len (ciphers c) (hkey c) (shm c) T) as Htl.
  assert (PL: length P = (16 * S hb)%nat) by (rewrite HP, app_length; lia).
  assert (O: o = fst (wire (ciphers c) (key c) (wiv c) P)).
  { destruct W as (_ & O & _). unfold sent in So. rewrite O in So. symmetry. now apply app_inv_head in So. }
  assert (Hi': inp s = fst (wire (ciphers s) (key s) (riv s) P) ++ rest) by (rewrite C, <- L3, <- L5; congruence).
  destruct (recv0 s (S hb) P rest) as (s1 & R1 & G1 & R2); auto; [lia|].
  exists s1. pose proof G1 as (S1 & _ & _ & _ & _ & _ & _ & M1 & P1).
  assert (C1: ciphers s1 = ciphers s) by now apply ciphers_same.
  destruct S1 as (S1a & S1b & S1c & S1d & S1e).
  exists (if ciphers s1 then set_rhm s1 [] else s1).
  rewrite (check_ok s1 hb T); auto; try lia.
  2:{ replace (16 * hb + 16)%nat with (length P) by lia. rewrite P1, HP, C1, C, S1d, R2, <- L4, <- L6. auto. }
  split; auto. split; auto.
  assert (PT: sub 0 (16 * hb) (msg s1) = T).
  { rewrite (sub_of_prefix 0 (16 * hb) (length P) P) by (auto; lia). rewrite HP.
    unfold sub. cbn [skipn]. apply firstn_app_len; auto. }
  unfold got, same, quiet in *. rewrite C1. destruct (ciphers s); cproj; tauto.
Qed.

Lemma linked_after : forall c c' s s' P rest,
  linked c s -> wrote c c' P -> got s s' P rest ->
  shm c' = (if ciphers c then [] else shm c) -> rhm s' = (if ciphers s then [] else rhm s) -> linked c' s'.
Proof using.
  intros c c' s s' P rest (L1 & L2 & L3 & L4 & L5 & L6) (Sc & _ & Wc & _) (Ss & _ & Rs & _) Hc Hs.
  assert (C: ciphers s = ciphers c) by (unfold ciphers; congruence).
  destruct Sc as (A1 & A2 & A3 & A4 & _), Ss as (B1 & B2 & B3 & B4 & _).
  unfold linked. rewrite A1, A2, A3, A4, B1, B2, B3, B4, Wc, Rs, Hc, Hs, C, L3, L5.
  repeat split; auto. destruct (ciphers c); auto.
Qed.

Lemma linked_st : forall c s x y, linked c s -> linked (set_st c x) (set_st s y).
Proof using. intros c s x y L. exact L. Qed.

Lemma land255 : forall a, 0 <= a < 256 -> Z.land a 255 = a.
Proof using. intros. change 255 with (Z.ones 8). rewrite Z.land_ones by lia. apply Z.mod_small. lia. Qed.

Lemma get_accept_ok : forall a, accept_code a -> get_accept a = a.
Proof using. unfold accept_code, get_accept. intros. destruct (Z.leb_spec 0 a), (Z.leb_spec a 5); cbn; lia. Qed.

Lemma byte_of_sub : forall i x m, sub i 1 m = [x] -> byte i m = x.
Proof using.
  intros i x m H0. assert (G: forall l, nth i l 0 = nth 0 (firstn 1 (skipn i l)) 0).
  { clear. induction i; intros l; destruct l; cbn; auto. apply IHi. }
  unfold byte. rewrite G. unfold sub in H0. rewrite H0. reflexivity.
Qed.

Lemma pow16 : 256 ^ Z.of_nat 2 = 2 ^ 16. Proof using. reflexivity. Qed.
Lemma pow32 : 256 ^ Z.of_nat 4 = 2 ^ 32. Proof using. reflexivity. Qed.


(** everything a reader needs to know about a text written by [emit] *)
Definition delivered (c1 s0 s2 : ctl) (m : list Z) (n : nat) (rest : list Z) : Prop :=
  linked c1 s2 /\ inp s2 = rest /\ wf c1 /\ wf s2 /\ quiet s2 /\ same s0 s2 /\ outp s2 = outp s0 /\
  wiv s2 = wiv s0 /\ shm s2 = shm s0 /\ (forall o l, (o + l <= n)%nat -> sub o l (msg s2) = sub o l m).

Lemma exchange : forall c m hb c1 s o rest,
  wf c -> wf s -> quiet s -> linked c s -> length m = 400%nat -> (16 * hb + 16 <= 400)%nat ->
  send_blocks E (shm_digest H (shm_add (set_msg c m) 0 hb) (16 * hb)) 0 (S hb) = (IODone, c1) ->
  sent c c1 o -> inp s = o ++ rest ->
  exists s1 s2, recv_blocks D s 0 (S hb) = (IODone, s1) /\
    rhm_check H (rhm_add s1 0 hb) (16 * hb) = (true, s2) /\ delivered c1 s s2 m (16 * hb) rest /\ same c c1.
Proof using BC HL.
  intros c m hb c1 s o rest Wc Ws Q L M0 Hb SB So Hi.
  assert (Wm := Wc). destruct Wm as (Wm & _ & Ww).
  destruct (emit c m hb c1 M0 Hb Ww SB) as [W1 Sh1].
  set (T := sub 0 (16 * hb) m) in *.
  assert (HT: length T = (16 * hb)%nat) by (apply sub_length; lia).
  destruct (receive_message c c1 s _ T hb o rest Wc Ws Q L W1 So Hi eq_refl HT Hb) as (s1 & s2 & R1 & R2 & G & Rh & PT).
  exists s1, s2. split; auto. split; auto.
  assert (LP: length (T ++ tag (ciphers c) (hkey c) (shm c) T) = (16 * S hb)%nat) by (rewrite app_length, tag_len; lia).
  pose proof (linked_after c c1 s s2 _ rest L W1 G Sh1 Rh).
  pose proof (wf_wrote _ _ _ _ Wc W1 LP). pose proof (wf_got _ _ _ _ _ Ws G LP).
  unfold delivered, got, wrote in *. repeat match goal with |- _ /\ _ => split end; try tauto.
  intros o' l Hl. rewrite (sub_of_prefix o' l (16 * hb) T) by auto. unfold T. rewrite sub_sub by lia. reflexivity.
Qed.

(** the same when the reader takes the first block on its own (OWPReadRequestType) *)
Lemma exchange_request : forall c m hb c1 s o rest,
  wf c -> wf s -> quiet s -> linked c s -> length m = 400%nat -> (1 <= hb)%nat -> (16 * hb + 16 <= 400)%nat ->
  send_blocks E (shm_digest H (shm_add (set_msg c m) 0 hb) (16 * hb)) 0 (S hb) = (IODone, c1) ->
  sent c c1 o -> inp s = o ++ rest ->
  exists s1, recv_blocks D s 0 1 = (IODone, s1) /\ byte 0 (msg s1) = byte 0 m /\ same s s1 /\
    forall x, exists s2 s3, recv_blocks D (set_st s1 x) 16 hb = (IODone, s2) /\
    rhm_check H (rhm_add s2 0 hb) (16 * hb) = (true, s3) /\ delivered c1 (set_st s x) s3 m (16 * hb) rest /\ same c c1.
Proof using BC HL.
  intros c m hb c1 s o rest Wc Ws Q L M0 Hb1 Hb SB So Hi.
  assert (Wm := Wc). destruct Wm as (Wm & _ & Ww).
  destruct (emit c m hb c1 M0 Hb Ww SB) as [W1 Sh1].
  set (T := sub 0 (16 * hb) m) in *.
  assert (HT: length T = (16 * hb)%nat) by (apply sub_length; lia).
  pose proof (tag_len (ciphers c) (hkey c) (shm c) T) as Htl.
  set (P := T ++ tag (ciphers c) (hkey c) (shm c) T) in *.
  assert (PL: length P = (16 * S hb)%nat) by (unfold P; rewrite app_length; lia).
  assert (PP: P = firstn 16 P ++ skipn 16 P) by (symmetry; apply firstn_skipn).
  assert (PA: length (firstn 16 P) = (16 * 1)%nat) by (rewrite firstn_length; lia).
  assert (PB: length (skipn 16 P) = (16 * hb)%nat) by (rewrite skipn_length; lia).
  assert (C: ciphers s = ciphers c) by (destruct L as (L1 & _); unfold ciphers; congruence).
  pose proof L as (L1 & L2 & L3 & L4 & L5 & L6).
  pose proof W1 as (Wa & Wb & Wd & We).
  assert (O: o = fst (wire (ciphers c) (key c) (wiv c) P)).
  { unfold sent in So. rewrite Wb in So. symmetry. now apply app_inv_head in So. }
  pose proof (wire_app (ciphers s) 1 hb (key s) (riv s) (firstn 16 P) (skipn 16 P) PA PB) as WA.
  rewrite <- PP in WA.
  set (iv1 := snd (wire (ciphers s) (key s) (riv s) (firstn 16 P))) in *.
  assert (Hi': inp s = fst (wire (ciphers s) (key s) (riv s) (firstn 16 P)) ++ (fst (wire (ciphers s) (key s) iv1 (skipn 16 P)) ++ rest)).
  { rewrite app_assoc, Hi, O. rewrite C, L3, L5 in *. rewrite WA. reflexivity. }
  destruct (recv0 s 1 _ _ Ws Q PA ltac:(lia) Hi') as (s1 & R1 & G1 & R2).
  assert (Ws1: wf s1) by (eapply wf_got; eauto).
  destruct G1 as (S1 & I1 & V1 & X1 & X2 & X3 & Q1 & M1 & P1).
  assert (FT: firstn 16 P = sub 0 16 m).
  { unfold P. rewrite firstn_app. replace (16 - length T)%nat with 0%nat by lia. rewrite firstn_O, app_nil_r.
    change (firstn 16 T) with (sub 0 16 T). unfold T. rewrite sub_sub by lia. reflexivity. }
  rewrite PA in P1. cbn [Nat.mul Nat.add] in P1.
  exists s1. split; auto. split.
  { apply byte_sub_eq. rewrite (sub_of_prefix 0 1 16 _ _ ltac:(lia) P1), FT, sub_sub by lia. reflexivity. }
  split; auto. intros x.
  assert (Ck: ciphers (set_st s1 x) = ciphers s) by (change (ciphers (set_st s1 x)) with (ciphers s1); now apply ciphers_same).
  destruct S1 as (Sa & Sb & Sc & Sd & Se & Sf & Sg).
  assert (I1': inp (set_st s1 x) = fst (wire (ciphers (set_st s1 x)) (key (set_st s1 x)) (riv (set_st s1 x)) (skipn 16 P)) ++ rest).
  { rewrite Ck. cproj. rewrite I1, Sc, V1. reflexivity. }
  destruct (recv_more (set_st s1 x) hb (firstn 16 P) (skipn 16 P) 16 rest Ws1 Q1 PB PA ltac:(lia) P1 I1')
    as (s2 & R3 & S2 & I2 & V2 & Y1 & Y2 & Y3 & Q2 & M2 & P2 & R4).
  assert (Ck2: ciphers s2 = ciphers s) by (rewrite <- Ck; now apply ciphers_same).
  rewrite Ck in V2. cproj. cbn [set_st key riv] in V2. rewrite Sc, V1 in V2. fold iv1 in V2.
  rewrite <- PP in P2. replace (16 + 16 * hb)%nat with (16 * hb + 16)%nat in P2 by lia.
  destruct S2 as (S2a & S2b & S2c & S2d & S2e & S2f & S2g). cbn [set_st mode twoway key hkey remote local st] in *.
  exists s2, (if ciphers s2 then set_rhm s2 [] else s2). split; auto.
  rewrite (check_ok s2 hb T); auto.
  2:{ rewrite P2. unfold P. rewrite Ck2, C, S2d, Sd, R4. cbn [set_st rhm]. rewrite R2, <- L4, <- L6. reflexivity. }
  split; auto. split; [|exact Wa].
  assert (PT: forall o l, (o + l <= 16 * hb)%nat -> sub o l (msg s2) = sub o l m).
  { intros o' l Hl. rewrite (sub_of_prefix o' l (16 * hb + 16) P) by first [exact P2 | lia]. unfold P.
    unfold sub at 1. rewrite skipn_app, firstn_app, skipn_length.
    replace (l - (length T - o'))%nat with 0%nat by lia. cbn [firstn]. rewrite app_nil_r.
    change (sub o' l T = sub o' l m). unfold T. rewrite sub_sub by lia. reflexivity. }
  assert (RV: riv s2 = snd (wire (ciphers s) (key s) (riv s) P)) by (rewrite V2, WA; reflexivity).
  assert (Wc1: wf c1) by exact (wf_wrote c c1 P (S hb) Wc W1 PL).
  assert (RL: length (riv s2) = 16%nat).
  { rewrite RV. destruct Ws as (_ & Wr & _). now apply (wire_len (ciphers s) (S hb)). }
  destruct Wa as (W01 & W02 & W03 & W04 & W05 & W06 & W07).
  unfold delivered, linked, wf, same, quiet in *. rewrite Ck2, Sh1, <- C.
  cbn [set_st] in *. cproj. destruct (ciphers s) eqn:CS; cproj; rewrite ?RV, ?W01, ?W02, ?W03, ?W04, ?Wd, <- ?C, ?L3, ?L5;
    repeat match goal with |- _ /\ _ => split end; try tauto; try congruence.
  all: rewrite ?RV; try (rewrite <- RV; assumption). 
  all: try (rewrite Y1; cbn [set_st wiv]; rewrite X1; apply Ws).
  all: try (rewrite R4; cbn [set_st rhm]; congruence).
  all: rewrite ?Y1, ?Y2, ?Y3; cbn [set_st wiv shm outp]; congruence.
Qed.

(** turn the buffer [t] into a reified chain of writes whose shape is [sh] *)
Ltac to_writes t sh SH :=
  let r := reify_puts t (@nil (nat * list Z)) in
  match r with (?ws, ?b) =>
    change t with (writes ws b);
    assert (SH: shape ws = sh) by (unfold shape; cbn [map fst snd]; rewrite ?zeros_length, ?be_enc_length; cbn [length]; congruence)
  end.
Ltac wlen n SH :=
  match type of SH with shape ?ws = ?sh =>
    match goal with |- context [length (writes ws ?b)] =>
      rewrite (len_writes n ws sh b SH) by first [vm_compute; reflexivity | lia] end end.

Lemma zeros_sub : forall o l n, (o + l <= n)%nat -> sub o l (zeros n) = zeros l.
Proof using.
  unfold sub, zeros. intros o l n Hn.
  assert (G: forall o n, skipn o (repeat 0 n) = repeat 0 (n - o)).
  { clear. induction o; destruct n; cbn; auto. }
  rewrite G. assert (G2: forall l n, (l <= n)%nat -> firstn l (repeat 0 n) = repeat 0 l).
  { clear. induction l; destruct n; cbn; intros; auto; try lia. f_equal. apply IHl. lia. }
  apply G2. lia.
Qed.

Lemma sub_zeros : forall o l n b, (o + l <= n)%nat -> sub o l (put 0 (zeros n) b) = zeros l.
Proof using. intros. rewrite sub_put_prefix by (rewrite zeros_length; lia). now apply zeros_sub. Qed.

Lemma put_zeros_all : forall n b, length b = n -> put 0 (zeros n) b = zeros n.
Proof using. intros. unfold put. rewrite zeros_length, skipn_all2 by lia. cbn [firstn app]. apply app_nil_r. Qed.

Lemma deliv_agree : forall c1 s0 s2 m n rest, delivered c1 s0 s2 m n rest -> agree c1 s2 rest.
Proof using. intros c1 s0 s2 m n rest Dl. unfold delivered, agree, linked, wf, quiet in *. cproj. tauto. Qed.

Lemma st_eta : forall c, c = set_st c (st c).
Proof using. now destruct c. Qed.

(** Accept-Session *)
Lemma accept_roundtrip : forall c c' s a port sid o rest,
  wf c -> wf s -> quiet s -> linked c s ->
  accept_code a -> 0 <= port < 2^16 -> match sid with Some x => length x = 16%nat | None => True end ->
  is_st StAcceptSession s = true ->
  write_accept E H c a port sid = (ErrOK, c') -> sent c c' o -> inp s = o ++ rest ->
  exists s', read_accept D H s = (ErrOK, (a, port, match sid with Some x => x | None => zeros 16 end), s') /\
    agree c' s' rest /\
    st c' = Z.ldiff (st c) StAcceptSession /\ st s' = Z.ldiff (st s) StAcceptSession.
Proof using BC HL.
  intros c c' s a port sid o rest Wc Ws Q L Ha Hp Hsid Hst HW So Hi.
  unfold write_accept in HW. destruct (negb (is_st StAcceptSession c)); [discriminate|].
  set (m := match sid with Some s0 => put 4 s0 _ | None => _ end) in HW.
  assert (Wm := Wc). destruct Wm as (Wm & _ & Ww).
  assert (M: length m = 400%nat /\ sub 0 1 m = [a] /\ sub 2 2 m = be_enc 2 port /\
             sub 4 16 m = match sid with Some x => x | None => zeros 16 end).
  { subst m. rewrite land255 by (red in Ha; lia). rewrite put_zeros_all by auto.
    assert (Z4: length (zeros 400) = 400%nat) by apply zeros_length.
    destruct sid as [x|];
      match goal with |- length ?t = _ /\ _ => first [to_writes t [(0,1);(2,2);(4,16)]%nat SH | to_writes t [(0,1);(2,2)]%nat SH] end.
    - wlen 400%nat SH. split; [auto|wsub 400%nat SH; auto].
    - wlen 400%nat SH. split; [auto|wsub 400%nat SH; auto]. }
  destruct M as (M0 & M1 & M2 & M3). clearbody m.
  destruct (send_blocks E (shm_digest H (shm_add (set_msg c m) 0 2) 32) 0 3) as [[| |] c1] eqn:SB; try discriminate.
  inversion HW; subst c'; clear HW.
  destruct (exchange c m 2 c1 s o rest Wc Ws Q L M0 ltac:(lia) SB So Hi) as (s1 & s2 & R1 & R2 & Dl & Sm).
  pose proof Dl as (_ & _ & _ & _ & _ & (_ & _ & _ & _ & _ & _ & Gst) & _ & _ & _ & F).
  destruct Sm as (_ & _ & _ & _ & _ & _ & Cst).
  unfold read_accept. rewrite Hst. cbn [negb]. rewrite R1.
  change (32%nat) with (16 * 2)%nat. rewrite R2. cbn [negb].
  rewrite (byte_of_sub 0 a) by (rewrite F by lia; auto).
  rewrite get_accept_ok by auto.
  destruct (Z.eqb_spec a CNTRL_INVALID) as [e|_]; [red in Ha; unfold CNTRL_INVALID in e; lia|].
  rewrite !F by lia. rewrite M2, M3, be_dec_enc by (rewrite pow16; lia).
  exists (clr_st s2 StAcceptSession). split; [reflexivity|].
  split; [exact (deliv_agree _ _ _ _ _ _ Dl)|]. unfold clr_st. cproj. now rewrite Gst, Cst.
Qed.

(** Start-Ack *)
Lemma start_ack_roundtrip : forall c c' s a o rest,
  wf c -> wf s -> quiet s -> linked c s -> accept_code a ->
  is_st StStartAck s = true ->
  write_start_ack E H c a = (ErrOK, c') -> sent c c' o -> inp s = o ++ rest ->
  exists s', read_start_ack D H s = (ErrOK, a, s') /\ agree c' s' rest /\
    st c' = (if a =? 0 then Z.ldiff (st c) StStartAck else Z.ldiff (Z.ldiff (st c) StStartAck) StTest) /\
    st s' = (if a =? 0 then Z.ldiff (st s) StStartAck else Z.lor (Z.ldiff (Z.ldiff (st s) StStartAck) StTest) StRequest).
Proof using BC HL.
  intros c c' s a o rest Wc Ws Q L Ha Hst HW So Hi.
  unfold write_start_ack in HW. destruct (negb (is_st StStartAck c)); [discriminate|].
  set (m := put 1 _ _) in HW.
  assert (Wm := Wc). destruct Wm as (Wm & _ & Ww).
  assert (M: length m = 400%nat /\ sub 0 1 m = [a]).
  { subst m. rewrite land255 by (red in Ha; lia).
    match goal with |- length ?t = _ /\ _ => to_writes t [(0,1);(1,15)]%nat SH end.
    wlen 400%nat SH. split; [auto|wsub 400%nat SH; auto]. }
  destruct M as (M0 & M1). clearbody m.
  destruct (send_blocks E (shm_digest H (shm_add (set_msg c m) 0 1) 16) 0 2) as [[| |[]] c1] eqn:SB; try discriminate.
  inversion HW; subst c'; clear HW.
  assert (So': sent c c1 o) by (unfold sent in *; destruct (a =? CNTRL_ACCEPT); exact So).
  destruct (exchange c m 1 c1 s o rest Wc Ws Q L M0 ltac:(lia) SB So' Hi) as (s1 & s2 & R1 & R2 & Dl & Sm).
  pose proof Dl as (_ & _ & _ & _ & _ & (_ & _ & _ & _ & _ & _ & Gst) & _ & _ & _ & F).
  destruct Sm as (_ & _ & _ & _ & _ & _ & Cst).
  unfold read_start_ack. rewrite Hst. cbn [negb]. rewrite R1.
  change (16%nat) with (16 * 1)%nat. rewrite R2. cbn [negb].
  rewrite (byte_of_sub 0 a) by (rewrite F by lia; auto).
  rewrite get_accept_ok by auto.
  destruct (Z.eqb_spec a CNTRL_INVALID) as [e|_]; [red in Ha; unfold CNTRL_INVALID in e; lia|].
  eexists. split; [reflexivity|]. change CNTRL_ACCEPT with 0.
  unfold clr_st, or_st. destruct (a =? 0); (split; [exact (deliv_agree _ _ _ _ _ _ Dl)|]); cproj; now rewrite ?Gst, ?Cst.
Qed.

(** Fetch-Ack *)
Lemma fetch_ack_roundtrip : forall c c' s a fin next nsk ndata o rest,
  wf c -> wf s -> quiet s -> linked c s -> accept_code a -> 0 <= fin < 2^8 ->
  0 <= next < 2^32 -> 0 <= nsk < 2^32 -> 0 <= ndata < 2^32 ->
  is_st StFetchAck s = true ->
  write_fetch_ack E H c a fin next nsk ndata = (ErrOK, c') -> sent c c' o -> inp s = o ++ rest ->
  exists s', read_fetch_ack D H s =
      (ErrOK, (a, fin, if fin =? 0 then 0 else next, if fin =? 0 then 0 else nsk, ndata), s') /\
    agree c' s' rest /\
    st c' = (if a =? 0 then Z.ldiff (st c) StFetchAck else Z.lor (Z.ldiff (Z.ldiff (st c) StFetchAck) StFetching) StRequest) /\
    st s' = Z.lor (Z.ldiff (Z.ldiff (st s) StFetchAck) StFetchSession)
      (if a =? 0 then if twoway s then StTestRequestTW else StTestRequest else StRequest).
Proof using BC HL.
  intros c c' s a fin next nsk ndata o rest Wc Ws Q L Ha Hf Hn Hk Hd Hst HW So Hi.
  unfold write_fetch_ack in HW. destruct (negb (is_st StFetchAck c)); [discriminate|].
  set (m := put 12 _ _) in HW.
  assert (Wm := Wc). destruct Wm as (Wm & _ & Ww).
  assert (M: length m = 400%nat /\ sub 0 1 m = [a] /\ sub 1 1 m = [fin] /\
    sub 4 4 m = be_enc 4 (if fin =? 0 then 0 else next) /\ sub 8 4 m = be_enc 4 (if fin =? 0 then 0 else nsk) /\
    sub 12 4 m = be_enc 4 ndata).
  { subst m. rewrite !land255 by (red in Ha; lia).
    set (b := put 0 (zeros 32) (msg c)).
    assert (B: length b = 400%nat) by (unfold b; rewrite put_length; auto; rewrite zeros_length; lia).
    assert (Z0: forall o, (o + 4 <= 32)%nat -> sub o 4 b = be_enc 4 0).
    { intros o0 Ho. unfold b. rewrite sub_zeros by lia. reflexivity. }
    clearbody b.
    destruct (fin =? 0).
    - match goal with |- length ?t = _ /\ _ => to_writes t [(0,1);(1,1);(12,4)]%nat SH end.
      wlen 400%nat SH. split; auto. wsub 400%nat SH. rewrite !Z0 by lia. auto.
    - match goal with |- length ?t = _ /\ _ => to_writes t [(0,1);(1,1);(4,4);(8,4);(12,4)]%nat SH end.
      wlen 400%nat SH. split; [auto|wsub 400%nat SH; auto]. }
  destruct M as (M0 & M1 & M2 & M3 & M4 & M5). clearbody m.
  destruct (send_blocks E (shm_digest H (shm_add (set_msg c m) 0 1) 16) 0 2) as [[| |[]] c1] eqn:SB; try discriminate.
  inversion HW; subst c'; clear HW.
  assert (So': sent c c1 o) by (unfold sent in *; destruct (a =? CNTRL_ACCEPT); exact So).
  destruct (exchange c m 1 c1 s o rest Wc Ws Q L M0 ltac:(lia) SB So' Hi) as (s1 & s2 & R1 & R2 & Dl & Sm).
  pose proof Dl as (_ & _ & _ & _ & _ & (_ & Gtw & _ & _ & _ & _ & Gst) & _ & _ & _ & F).
  destruct Sm as (_ & _ & _ & _ & _ & _ & Cst).
  unfold read_fetch_ack. rewrite Hst. cbn [negb]. rewrite R1.
  change (16%nat) with (16 * 1)%nat. rewrite R2. cbn [negb].
  rewrite (byte_of_sub 0 a) by (rewrite F by lia; auto).
  rewrite (byte_of_sub 1 fin) by (rewrite F by lia; auto).
  rewrite get_accept_ok by auto.
  destruct (Z.eqb_spec a CNTRL_INVALID) as [e|_]; [red in Ha; unfold CNTRL_INVALID in e; lia|].
  rewrite !F by lia. rewrite M3, M4, M5, !be_dec_enc by (rewrite pow32; destruct (fin =? 0); lia).
  eexists. split; [reflexivity|]. change CNTRL_ACCEPT with 0.
  unfold clr_st, or_st. change (twoway (set_st (set_st ?x ?y) ?z)) with (twoway x). cbn [set_st twoway]. rewrite Gtw.
  destruct (a =? 0); (split; [exact (deliv_agree _ _ _ _ _ _ Dl)|]); cproj; now rewrite Gst, Cst.
Qed.

(** The command octet of a request is recognised. *)
Lemma request_type_of : forall s s1 t, wf s -> st s = StRequest \/ (st s = StRequest + StTest /\ t = 3) ->
  recv_blocks D s 0 1 = (IODone, s1) -> byte 0 (msg s1) = t -> same s s1 ->
  (t = 3 -> st s <> StRequest) -> 1 <= t <= 5 ->
  read_request_type D s = (t, or_st s1 (nth (Z.to_nat t) [0; StTestRequest; StStartSessions; StStopSessions; StFetchSession; StTestRequestTW] 0)).
Proof using.
  intros s s1 t W Hs R B Sm T3 Ht. unfold read_request_type.
  assert (A1: is_st StRequest s = true /\ is_st StReading s = false).
  { unfold is_st. destruct Hs as [Hs|[Hs _]]; rewrite Hs; vm_compute; auto. }
  destruct A1 as [-> ->]. cbn [negb orb]. rewrite R, B.
  destruct Sm as (_ & _ & _ & _ & _ & _ & Sm).
  assert (A2: is_st StTest s1 = (t =? 3)).
  { unfold is_st. rewrite Sm. destruct Hs as [Hs|[Hs Ht3]]; rewrite Hs.
    - destruct (Z.eqb_spec t 3) as [e|e]; [destruct (T3 e Hs)|reflexivity].
    - subst t. reflexivity. }
  rewrite A2. assert (t = 1 \/ t = 2 \/ t = 3 \/ t = 4 \/ t = 5) as [->|[->|[->|[->| ->]]]] by lia; reflexivity.
Qed.

(** Start-Sessions *)
Lemma start_roundtrip : forall c c' s o rest,
  wf c -> wf s -> quiet s -> linked c s -> st s = StRequest ->
  write_start E H c = (ErrOK, c') -> sent c c' o -> inp s = o ++ rest ->
  exists s1 s', read_request_type D s = (2, s1) /\ read_start D H s1 = (ErrOK, s') /\ agree c' s' rest /\
    st c' = Z.lor (Z.lor (st c) StStartAck) StTest /\ st s' = StRequest + StStartAck + StTest.
Proof using BC HL.
  intros c c' s o rest Wc Ws Q L Hst HW So Hi.
  unfold write_start in HW. destruct (negb (is_st StRequest c) || is_st StPending c); [discriminate|].
  set (m := put 1 _ _) in HW.
  assert (Wm := Wc). destruct Wm as (Wm & _ & Ww).
  assert (M: length m = 400%nat /\ sub 0 1 m = [2]).
  { subst m. match goal with |- length ?t = _ /\ _ => to_writes t [(0,1);(1,31)]%nat SH end.
    wlen 400%nat SH. split; [auto|wsub 400%nat SH; auto]. }
  destruct M as (M0 & M1). clearbody m.
  destruct (send_blocks E (shm_digest H (shm_add (set_msg c m) 0 1) 16) 0 2) as [[| |] c1] eqn:SB; try discriminate.
  inversion HW; subst c'; clear HW.
  destruct (exchange_request c m 1 c1 s o rest Wc Ws Q L M0 ltac:(lia) ltac:(lia) SB So Hi) as (s1 & R1 & B1 & S1 & K).
  rewrite (byte_of_sub 0 2 m M1) in B1.
  rewrite (request_type_of s s1 2) by (auto; lia). cbn [Z.to_nat Pos.to_nat Pos.iter_op nth Nat.add].
  exists (or_st s1 StStartSessions).
  assert (Ss: st s1 = StRequest) by (rewrite <- Hst; apply S1).
  destruct (K (Z.lor (st s1) StStartSessions)) as (s2 & s3 & R2 & R3 & Dl & Sm).
  pose proof Dl as (_ & _ & _ & _ & _ & (_ & _ & _ & _ & _ & _ & Gst) & _ & _ & _ & F).
  destruct Sm as (_ & _ & _ & _ & _ & _ & Cst).
  unfold read_start. assert (I: is_st StStartSessions (or_st s1 StStartSessions) = true) by (unfold is_st, or_st; cproj; rewrite Ss; reflexivity).
  rewrite I. cbn [negb].
  change (or_st s1 StStartSessions) with (set_st s1 (Z.lor (st s1) StStartSessions)). rewrite R2.
  change 16%nat with (16 * 1)%nat. rewrite R3. cbn [negb].
  rewrite (byte_of_sub 0 2) by (rewrite F by lia; auto). cbn [Z.eqb Pos.eqb negb].
  eexists. split; [reflexivity|]. split; [reflexivity|].
  unfold or_st, clr_st. split; [exact (deliv_agree _ _ _ _ _ _ Dl)|]. cproj. cbn [set_st st] in Gst. rewrite Gst, Cst, Ss. auto.
Qed.

(** Fetch-Session *)
Lemma fetch_roundtrip : forall c c' s b e sid o rest,
  wf c -> wf s -> quiet s -> linked c s -> st s = StRequest ->
  0 <= b < 2^32 -> 0 <= e < 2^32 -> length sid = 16%nat ->
  write_fetch E H c b e sid = (ErrOK, c') -> sent c c' o -> inp s = o ++ rest ->
  exists s1 s', read_request_type D s = (4, s1) /\ read_fetch D H s1 = (ErrOK, (b, e, sid), s') /\ agree c' s' rest /\
    st s' = StFetchAck + StFetching.
Proof using BC HL.
  intros c c' s b e sid o rest Wc Ws Q L Hst Hb He Hsid HW So Hi.
  unfold write_fetch in HW. destruct (negb (is_st StRequest c) || is_st StTest c); [discriminate|].
  destruct (twoway c) eqn:Tw; [discriminate|].
  set (m := put 16 _ _) in HW.
  assert (Wm := Wc). destruct Wm as (Wm & _ & Ww).
  assert (M: length m = 400%nat /\ sub 0 1 m = [4] /\ sub 8 4 m = be_enc 4 b /\ sub 12 4 m = be_enc 4 e /\ sub 16 16 m = sid).
  { subst m. match goal with |- length ?t = _ /\ _ => to_writes t [(0,1);(1,7);(8,4);(12,4);(16,16)]%nat SH end.
    wlen 400%nat SH. split; [auto|wsub 400%nat SH; auto]. }
  destruct M as (M0 & M1 & M2 & M3 & M4). clearbody m.
  destruct (send_blocks E (shm_digest H (shm_add (set_msg c m) 0 2) 32) 0 3) as [[| |] c1] eqn:SB; try discriminate.
  inversion HW; subst c'; clear HW.
  destruct (exchange_request c m 2 c1 s o rest Wc Ws Q L M0 ltac:(lia) ltac:(lia) SB So Hi) as (s1 & R1 & B1 & S1 & K).
  rewrite (byte_of_sub 0 4 m M1) in B1.
  rewrite (request_type_of s s1 4) by (auto; lia). cbn [Z.to_nat Pos.to_nat Pos.iter_op nth Nat.add].
  exists (or_st s1 StFetchSession).
  assert (Ss: st s1 = StRequest) by (rewrite <- Hst; apply S1).
  destruct (K (Z.lor (st s1) StFetchSession)) as (s2 & s3 & R2 & R3 & Dl & Sm).
  pose proof Dl as (_ & _ & _ & _ & _ & (_ & _ & _ & _ & _ & _ & Gst) & _ & _ & _ & F).
  unfold read_fetch. assert (I: is_st StFetchSession (or_st s1 StFetchSession) = true) by (unfold is_st, or_st; cproj; rewrite Ss; reflexivity).
  rewrite I. cbn [negb].
  assert (Tw1: twoway s1 = false).
  { destruct S1 as (_ & -> & _). destruct L as (_ & <- & _). auto. }
  change (twoway (or_st s1 StFetchSession)) with (twoway s1). rewrite Tw1.
  change (or_st s1 StFetchSession) with (set_st s1 (Z.lor (st s1) StFetchSession)). rewrite R2.
  change 32%nat with (16 * 2)%nat. rewrite R3. cbn [negb].
  rewrite (byte_of_sub 0 4) by (rewrite F by lia; auto). cbn [Z.eqb Pos.eqb negb].
  rewrite !F by lia. rewrite M2, M3, M4, !be_dec_enc by (rewrite pow32; lia).
  eexists. split; [reflexivity|]. split; [reflexivity|].
  unfold or_st, clr_st. split; [exact (deliv_agree _ _ _ _ _ _ Dl)|]. cproj. cbn [set_st st] in Gst. rewrite Gst, Ss. auto.
Qed.

(** ** Request-Session with its slots *)
Lemma decode_preamble_ext : forall request a b len tw l1 l2,
  (forall o l, (o + l <= 96)%nat -> sub o l a = sub o l b) -> 28 <= l1 -> 28 <= l2 ->
  decode_preamble request a len tw l1 = decode_preamble request b len tw l2.
Proof using.
  intros request a b len tw l1 l2 Hs H1 H2. unfold decode_preamble.
  rewrite (byte_sub_eq 1 a b), (byte_sub_eq 2 a b), (byte_sub_eq 3 a b) by (apply Hs; lia).
  rewrite !Hs by lia.
  replace (l1 <? 28) with false by lia. replace (l2 <? 28) with false by lia.
  replace (l1 <? 16) with false by lia. replace (l2 <? 16) with false by lia. reflexivity.
Qed.

Lemma encode_slot_len : forall x b, encode_slot x = Some b -> length b = 16%nat.
Proof using. intros x b Hx. destruct x; cbn in Hx; inversion Hx; reflexivity. Qed.

Lemma same_refl : forall c, same c c. Proof using. intros. unfold same. tauto. Qed.
Lemma same_trans : forall a b c, same a b -> same b c -> same a c.
Proof using. unfold same. intros a b c (A1 & A2 & A3 & A4 & A5 & A6 & A7) (B1 & B2 & B3 & B4 & B5 & B6 & B7). repeat split; congruence. Qed.

Lemma slot_step : forall c b c1, wf c -> length b = 16%nat ->
  send_blocks E (shm_add (set_msg c (put 0 b (msg c))) 0 1) 0 1 = (IODone, c1) ->
  exists o, sent c c1 o /\ same c c1 /\ wf c1 /\
    forall s rest, wf s -> quiet s -> linked c s -> inp s = o ++ rest ->
    exists s1, recv_blocks D s 0 1 = (IODone, s1) /\ sub 0 16 (msg (rhm_add s1 0 1)) = b /\
      agree c1 (rhm_add s1 0 1) rest /\ same s (rhm_add s1 0 1).
Proof using BC.
  intros c b c1 (W1 & W2 & W3) Hb HS.
  set (c0 := shm_add (set_msg c (put 0 b (msg c))) 0 1) in *.
  assert (LM: length (put 0 b (msg c)) = 400%nat) by (rewrite put_length; lia).
  assert (SB: sub 0 16 (put 0 b (msg c)) = b) by (apply sub_put_same; lia).
  assert (C0: msg c0 = put 0 b (msg c) /\ shm c0 = (if ciphers c then shm c ++ b else shm c) /\ ciphers c0 = ciphers c /\
    key c0 = key c /\ wiv c0 = wiv c /\ riv c0 = riv c /\ outp c0 = outp c /\ same c c0).
  { unfold c0, shm_add, same. change (ciphers (set_msg c (put 0 b (msg c)))) with (ciphers c). destruct (ciphers c) eqn:C.
    - change (ciphers (set_shm ?x ?y)) with (ciphers c). cproj. change (16 * 1)%nat with 16%nat. rewrite SB. tauto.
    - cproj. tauto. }
  destruct C0 as (C1 & C2 & C3 & C4 & C5 & C6 & C7 & C8). clearbody c0.
  apply send_ok in HS; [|rewrite C1; lia].
  unfold after_send in HS. rewrite C1, C3, C4, C5, C7 in HS. change (16 * 1)%nat with 16%nat in HS. rewrite SB in HS.
  destruct (wire_len (ciphers c) 1 (key c) (wiv c) b Hb W3) as [L1 L2].
  exists (fst (wire (ciphers c) (key c) (wiv c) b)). subst c1.
  split; [reflexivity|]. split; [exact C8|]. split.
  { unfold wf. cproj. rewrite put_length by lia. rewrite C6. auto. }
  intros s rest Ws Q (K1 & K2 & K3 & K4 & K5 & K6) Hi.
  assert (C: ciphers s = ciphers c) by (unfold ciphers; congruence).
  destruct (recv0 s 1 b rest Ws Q Hb ltac:(lia)) as (s1 & R1 & G & R2). { rewrite Hi, C, K3, K5. reflexivity. }
  pose proof (wf_got _ _ _ _ 1%nat Ws G Hb) as Ws1.
  destruct G as (G1 & G2 & G3 & G4 & G5 & G6 & G7 & G8 & G9).
  assert (Cs1: ciphers s1 = ciphers c) by (rewrite <- C; now apply ciphers_same).
  exists s1. split; auto. rewrite Hb in G9.
  destruct C8 as (C81 & C82 & C83 & C84 & C85 & C86 & C87), G1 as (G11 & G12 & G13 & G14 & G15 & G16 & G17).
  unfold rhm_add. rewrite Cs1. unfold agree, linked, wf, quiet, same in *. change (16 * 1)%nat with 16%nat. rewrite G9.
  rewrite G3, C, K3, K5 in *.
  destruct (ciphers c); cproj; repeat match goal with |- _ /\ _ => split end; try tauto; try congruence; try reflexivity; try exact (proj1 Ws1); rewrite ?put_length by lia; auto; try lia.
  all: rewrite ?C6; auto.
Qed.

Lemma tag_step : forall c c1, wf c ->
  send_blocks E (shm_digest H c 0) 0 1 = (IODone, c1) ->
  exists o, sent c c1 o /\ same c c1 /\ wf c1 /\
    forall s rest, wf s -> quiet s -> linked c s -> inp s = o ++ rest ->
    exists s1 s2, recv_blocks D s 0 1 = (IODone, s1) /\ rhm_check H s1 0 = (true, s2) /\
      agree c1 s2 rest /\ same s s2.
Proof using BC HL.
  intros c c1 (W1 & W2 & W3) HS.
  pose proof (tag_len (ciphers c) (hkey c) (shm c) []) as TL.
  set (t := tag (ciphers c) (hkey c) (shm c) []) in *.
  set (c0 := shm_digest H c 0) in *.
  assert (C0: msg c0 = put 0 t (msg c) /\ shm c0 = (if ciphers c then [] else shm c) /\ ciphers c0 = ciphers c /\
    key c0 = key c /\ wiv c0 = wiv c /\ riv c0 = riv c /\ outp c0 = outp c /\ same c c0).
  { unfold c0, shm_digest, same, t, tag. rewrite app_nil_r. destruct (ciphers c) eqn:C; cproj; tauto. }
  destruct C0 as (C1 & C2 & C3 & C4 & C5 & C6 & C7 & C8). clearbody c0.
  assert (LM: length (put 0 t (msg c)) = 400%nat) by (rewrite put_length; lia).
  assert (SB: sub 0 16 (put 0 t (msg c)) = t) by (apply sub_put_same; lia).
  apply send_ok in HS; [|rewrite C1; lia].
  unfold after_send in HS. rewrite C1, C3, C4, C5, C7 in HS. change (16 * 1)%nat with 16%nat in HS. rewrite SB in HS.
  destruct (wire_len (ciphers c) 1 (key c) (wiv c) t TL W3) as [L1 L2].
  exists (fst (wire (ciphers c) (key c) (wiv c) t)). subst c1.
  split; [reflexivity|]. split; [exact C8|]. split.
  { unfold wf. cproj. rewrite put_length by lia. rewrite C6. auto. }
  intros s rest Ws Q (K1 & K2 & K3 & K4 & K5 & K6) Hi.
  assert (C: ciphers s = ciphers c) by (unfold ciphers; congruence).
  destruct (recv0 s 1 t rest Ws Q TL ltac:(lia)) as (s1 & R1 & G & R2). { rewrite Hi, C, K3, K5. reflexivity. }
  pose proof (wf_got _ _ _ _ 1%nat Ws G TL) as Ws1.
  destruct G as (G1 & G2 & G3 & G4 & G5 & G6 & G7 & G8 & G9).
  assert (Cs1: ciphers s1 = ciphers c) by (rewrite <- C; now apply ciphers_same).
  rewrite TL in G9.
  destruct C8 as (C81 & C82 & C83 & C84 & C85 & C86 & C87), G1 as (G11 & G12 & G13 & G14 & G15 & G16 & G17).
  exists s1, (if ciphers c then set_rhm s1 [] else s1). split; auto. split.
  { unfold rhm_check. rewrite Cs1. destruct (ciphers c) eqn:CC; auto. f_equal.
    rewrite G9, G14, R2, <- K4, <- K6. unfold t, tag. rewrite app_nil_r. apply eqb_octets_refl. }
  unfold agree, linked, wf, quiet, same in *.
  rewrite G3, C, K3, K5 in *.
  destruct (ciphers c); cproj; repeat match goal with |- _ /\ _ => split end; try tauto; try congruence; try reflexivity; try exact (proj1 Ws1); rewrite ?put_length by lia; auto; try lia.
  all: rewrite ?C6; auto.
Qed.

Lemma slots_stream : forall l c c', wf c -> Forall slot_ok l -> write_slots E c l = (true, c') ->
  exists o, sent c c' o /\ same c c' /\ wf c' /\
    forall s rest, wf s -> quiet s -> linked c s -> inp s = o ++ rest ->
    exists s', read_slots_loop D s (length l) true = (Some l, s') /\ agree c' s' rest /\ same s s'.
Proof using BC.
  induction l as [|x l IH]; intros c c' W F HW; cbn [write_slots] in HW.
  - inversion HW; subst c'. exists []. split; [unfold sent; now rewrite app_nil_r|]. split; [apply same_refl|]. split; auto.
    intros s rest Ws Q L Hi. exists s. cbn [length read_slots_loop]. split; auto. split; [|apply same_refl].
    unfold agree. cbn in Hi. tauto.
  - inversion F; subst. destruct (encode_slot x) as [b|] eqn:Eb; [|discriminate].
    destruct (send_blocks E _ 0 1) as [[| |] c1] eqn:SB; try discriminate.
    pose proof (encode_slot_len _ _ Eb) as Lb.
    destruct (slot_step c b c1 W Lb SB) as (o1 & S1 & Sm1 & W1 & K1).
    destruct (IH c1 c' W1 H3 HW) as (o2 & S2 & Sm2 & W2 & K2).
    exists (o1 ++ o2). split; [unfold sent in *; rewrite S2, S1, app_assoc; auto|].
    split; [eapply same_trans; eauto|]. split; auto.
    intros s rest Ws Q L Hi. rewrite <- app_assoc in Hi.
    destruct (K1 s _ Ws Q L Hi) as (s1 & R1 & B1 & (A1 & A2 & A3 & A4 & A5) & M1).
    destruct (K2 _ rest A4 A5 A1 A2) as (s' & R2 & A6 & M2).
    exists s'. cbn [length read_slots_loop]. rewrite R1, B1.
    destruct (slot_roundtrip x H2) as (b' & Eb' & _ & Db). rewrite Eb in Eb'. inversion Eb'; subst b'.
    rewrite Db, R2. split; auto. split; auto. eapply same_trans; eauto.
Qed.

Lemma slots_count : forall x, Z.to_nat (Z.of_nat x) = x.
Proof using. intros; lia. Qed.

(** what travels when zero addresses are asked for *)
Definition zaddr (za : bool) (a : saddr) : saddr :=
  if za then mkSA (sa_family a) (sa_port a) (repeat 0 (match sa_family a with AF_INET6 => 16%nat | _ => 4%nat end)) else a.

Lemma encode_preamble_za : forall msg len s r cs cr tw za sid t,
  encode_preamble msg len s r cs cr tw za sid t =
  encode_preamble msg len (zaddr za s) (zaddr za r) cs cr tw false sid t.
Proof using.
  intros. destruct za; [|reflexivity]. unfold encode_preamble, zaddr. cbn [sa_family sa_port sa_addr].
  destruct (sa_family s) eqn:Fs, (sa_family r) eqn:Fr; reflexivity.
Qed.

Lemma zaddr_ok : forall za a, sa_ok a -> sa_family a <> AF_OTHER -> sa_ok (zaddr za a).
Proof using.
  intros [] a Ha Hf; [|exact Ha]. destruct Ha as (A1 & A2 & A3). unfold sa_ok, zaddr. cbn [sa_family sa_port sa_addr].
  split; auto. split.
  - destruct (sa_family a); repeat (apply Forall_cons; [lia|]); apply Forall_nil.
  - destruct (sa_family a); auto; contradiction.
Qed.

Lemma write_test_request_za : forall c s r cs cr za sid t,
  write_test_request E H c s r cs cr za sid t = write_test_request E H c (zaddr za s) (zaddr za r) cs cr false sid t.
Proof using.
  intros. unfold write_test_request. now rewrite encode_preamble_za.
Qed.

(** Request-Session, one-way *)
Lemma request_roundtrip : forall c c' s snd rcv cs cr sid t slots o rest,
  wf c -> wf s -> quiet s -> linked c s -> twoway c = false -> octets (msg c) -> st s = StRequest ->
  sa_ok snd -> sa_ok rcv -> tspec_ok t -> octet_string 16 sid ->
  ts_slots t = Some slots -> ts_nslots t = Z.of_nat (length slots) -> Forall slot_ok slots ->
  (link_local snd = true -> link_local (remote s) = true) ->
  (link_local rcv = true -> link_local (remote s) = true) ->
  write_test_request E H c snd rcv cs cr false (Some sid) t = (ErrOK, c') -> sent c c' o -> inp s = o ++ rest ->
  exists s1 s', read_request_type D s = (1, s1) /\
    read_test_request D H s1 true true true =
      (ErrOK, Some (mkReq (mkSA (sa_family snd) (if cs then 0 else sa_port snd) (sa_addr snd))
                          (mkSA (sa_family rcv) (if cr then 0 else sa_port rcv) (sa_addr rcv)) cs cr sid t),
       CNTRL_ACCEPT, s') /\
    agree c' s' rest /\ st c' = Z.lor (st c) StAcceptSession /\ st s' = StRequest + StAcceptSession.
Proof using BC HL.
  intros c c' s sa ra cs cr sid t slots o rest Wc Ws Q L Tw Om Hst Hsa Hra Ht Hsid Hsl Hns Fsl Ls Lr HW So Hi.
  unfold write_test_request in HW. destruct (negb (is_st StRequest c) || is_st StPending c); [discriminate|].
  assert (Wm := Wc). destruct Wm as (Wm & _ & Ww).
  destruct (encode_preamble (msg c) 400 sa ra cs cr (twoway c) false (Some sid) t) as [m|] eqn:EP; [|discriminate].
  assert (L112: (112 <= length (msg c))%nat) by lia.
  destruct (encode_preamble_layout _ _ _ _ _ _ _ _ _ _ _ L112 Hsa Hra Ht (proj1 Hsid) EP) as (Lm & _ & LY).
  pose proof (preamble_roundtrip _ _ _ _ _ _ _ _ _ _ true L112 Om Hsid Hsa Hra Ht EP) as RT.
  assert (M0: length m = 400%nat) by lia.
  destruct (send_blocks E (shm_digest H (shm_add (set_msg c m) 0 6) 96) 0 7) as [[| |] c1] eqn:SB; try discriminate.
  destruct (emit c m 6 c1 M0 ltac:(lia) Ww SB) as [W1 _].
  set (o1 := fst (wire (ciphers c) (key c) (wiv c) (sub 0 (16 * 6) m ++ tag (ciphers c) (hkey c) (shm c) (sub 0 (16 * 6) m)))) in *.
  assert (S1: sent c c1 o1) by apply W1.
  assert (Tw1: twoway c1 = false) by (rewrite <- Tw; apply W1).
  rewrite Tw1, Hsl in HW.
  assert (Wc1: wf c1) by (eapply wf_wrote; [exact Wc|exact W1|rewrite app_length, tag_len, sub_length by lia; instantiate (1 := 7%nat); lia]).
  destruct (write_slots E c1 slots) as [[|] c2] eqn:WSl; [|discriminate].
  destruct (slots_stream slots c1 c2 Wc1 Fsl WSl) as (o2 & S2 & Sm2 & Wc2 & K2).
  destruct (send_blocks E (shm_digest H c2 0) 0 1) as [[| |] c3] eqn:SB3; try discriminate.
  destruct (tag_step c2 c3 Wc2 SB3) as (o3 & S3 & Sm3 & Wc3 & K3).
  inversion HW; subst c'; clear HW.
  assert (Oo: o = o1 ++ o2 ++ o3).
  { unfold sent in *. unfold or_st in So. cbn [outp set_st] in So. rewrite S3, S2, S1 in So.
    rewrite <- !app_assoc in So. apply app_inv_head in So. auto. }
  rewrite Oo, <- !app_assoc in Hi.
  destruct (exchange_request c m 6 c1 s o1 _ Wc Ws Q L M0 ltac:(lia) ltac:(lia) SB S1 Hi) as (s1 & R1 & B1 & Sm1 & K).
  assert (Bm: byte 0 m = 1).
  { destruct LY as (F0 & _). rewrite Tw in F0. apply byte_of_sub.
    change (sub 0 1 m) with (octs_at m 0 1). unfold field in F0.
    destruct m as [|z m']; [discriminate|]. change (octs_at (z :: m') 0 1) with [z] in *. rewrite number_be, byte1_be in F0. now rewrite F0. }
  rewrite Bm in B1.
  rewrite (request_type_of s s1 1) by (auto; lia). cbn [Z.to_nat Pos.to_nat Pos.iter_op nth Nat.add].
  exists (or_st s1 StTestRequest).
  assert (Ss: st s1 = StRequest) by (rewrite <- Hst; apply Sm1).
  destruct (K (Z.lor (st s1) StTestRequest)) as (s2 & s3 & R2 & R3 & Dl & Sm).
  pose proof Dl as (Dlk & Dinp & _ & Dwf & Dq & (Dmode & Dtw & Dkey & Dhk & Drem & Dloc & Dst) & _ & _ & _ & F).
  assert (Tws: twoway s = false) by (destruct L as (_ & <- & _); auto).
  unfold read_test_request.
  change (twoway (or_st s1 StTestRequest)) with (twoway s1).
  assert (Tws1: twoway s1 = false) by (destruct Sm1 as (_ & -> & _); auto). rewrite Tws1.
  assert (I: is_st StTestRequest (or_st s1 StTestRequest) = true) by (unfold is_st, or_st; cproj; rewrite Ss; reflexivity).
  rewrite I. cbn [negb]. cbv iota beta.
  change (or_st s1 StTestRequest) with (set_st s1 (Z.lor (st s1) StTestRequest)). rewrite R2.
  change 96%nat with (16 * 6)%nat at 1. rewrite R3. cbn [negb].
  cbn [set_st twoway] in Dtw. rewrite Dtw, Tws.
  rewrite (decode_preamble_ext true (sub 0 112 (msg s3)) (firstn 112 m) 112 false 128 28); try lia.
  2:{ intros o0 l Hl. change (firstn 112 m) with (sub 0 112 m). rewrite !sub_sub by lia. cbn [plus]. apply F. lia. }
  rewrite Tw in RT. rewrite RT. cbn [p_sender p_receiver p_conf_sender p_conf_receiver p_sid p_nslots p_npackets p_padding p_start p_timeout p_typeP negb andb].
  rewrite !andb_true_r.
  assert (LLs: forall a p, (link_local a = true -> link_local (remote s) = true) ->
     ll_scope_ok (remote s3) (mkSA (sa_family a) p (sa_addr a)) = true).
  { intros a p Ha. unfold ll_scope_ok. change (link_local (mkSA (sa_family a) p (sa_addr a))) with (link_local a).
    cbn [set_st remote] in Drem. rewrite Drem. destruct (link_local a); [rewrite Ha by auto|]; reflexivity. }
  rewrite (LLs sa _ Ls), (LLs ra _ Lr). cbn [negb orb].
  set (s4 := or_st (clr_st s3 StTestRequest) StTestRequestSlots).
  assert (St4: st s4 = StRequest + StTestRequestSlots).
  { unfold s4, or_st, clr_st. cproj. cbn [set_st st] in Dst. rewrite Dst, Ss. reflexivity. }
  change (twoway s4) with (twoway s3). rewrite Dtw, Tws.
  unfold read_slots. assert (I4: is_st StTestRequestSlots s4 = true) by (unfold is_st; rewrite St4; reflexivity).
  rewrite I4. cbn [negb]. rewrite Hns, slots_count.
  destruct (K2 s4 (o3 ++ rest)) as (s5 & R5 & (A51 & A52 & A53 & A54 & A55) & Sm5); auto.
  rewrite R5.
  destruct (K3 s5 rest A54 A55 A51 A52) as (s6 & s7 & R6 & R7 & A7 & Sm7).
  rewrite R6, R7. 
  eexists. split; [reflexivity|]. split.
  { f_equal. f_equal. f_equal. f_equal. destruct t; cbn in Hsl, Hns |- *. subst. reflexivity. }
  split; [exact A7|]. unfold or_st, clr_st. cproj.
  assert (St7: st s7 = StRequest + StTestRequestSlots).
  { destruct Sm7 as (_ & _ & _ & _ & _ & _ & ->). destruct Sm5 as (_ & _ & _ & _ & _ & _ & ->). auto. }
  rewrite St7. split; [|reflexivity]. f_equal.
  destruct Sm3 as (_ & _ & _ & _ & _ & _ & ->). destruct Sm2 as (_ & _ & _ & _ & _ & _ & ->). apply W1.
Qed.

(** Request-Session, two-way: no schedule; addresses left unspecified are those of the control
    connection *)
Lemma request_tw_roundtrip : forall c c' s snd rcv cs cr sid t o rest,
  wf c -> wf s -> quiet s -> linked c s -> twoway c = true -> octets (msg c) -> st s = StRequest ->
  sa_ok snd -> sa_ok rcv -> tspec_ok t -> octet_string 16 sid ->
  (link_local snd = true -> link_local (remote s) = true) ->
  (link_local rcv = true -> link_local (remote s) = true) ->
  write_test_request E H c snd rcv cs cr false (Some sid) t = (ErrOK, c') -> sent c c' o -> inp s = o ++ rest ->
  exists s1 s', read_request_type D s = (5, s1) /\
    read_test_request D H s1 true true true =
      (ErrOK, Some (mkReq (set_if_unspec (remote s) snd) (set_if_unspec (local s) rcv) false false (zeros 16)
                          (mkTSpec (ts_start t) (ts_timeout t) (ts_typeP t) (ts_padding t) 0 0 None)),
       CNTRL_ACCEPT, s') /\
    agree c' s' rest /\ st c' = Z.lor (st c) StAcceptSession.
Proof using BC HL.
  intros c c' s sa ra cs cr sid t o rest Wc Ws Q L Tw Om Hst Hsa Hra Ht Hsid Ls Lr HW So Hi.
  unfold write_test_request in HW. destruct (negb (is_st StRequest c) || is_st StPending c); [discriminate|].
  assert (Wm := Wc). destruct Wm as (Wm & _ & Ww).
  destruct (encode_preamble (msg c) 400 sa ra cs cr (twoway c) false (Some sid) t) as [m|] eqn:EP; [|discriminate].
  assert (L112: (112 <= length (msg c))%nat) by lia.
  destruct (encode_preamble_layout _ _ _ _ _ _ _ _ _ _ _ L112 Hsa Hra Ht (proj1 Hsid) EP) as (Lm & _ & LY).
  pose proof (preamble_roundtrip _ _ _ _ _ _ _ _ _ _ true L112 Om Hsid Hsa Hra Ht EP) as RT.
  assert (M0: length m = 400%nat) by lia.
  destruct (send_blocks E (shm_digest H (shm_add (set_msg c m) 0 6) 96) 0 7) as [[| |] c1] eqn:SB; try discriminate.
  destruct (emit c m 6 c1 M0 ltac:(lia) Ww SB) as [W1 _].
  assert (Tw1: twoway c1 = true) by (rewrite <- Tw; apply W1).
  rewrite Tw1 in HW. inversion HW; subst c'; clear HW.
  destruct (exchange_request c m 6 c1 s o rest Wc Ws Q L M0 ltac:(lia) ltac:(lia) SB So Hi) as (s1 & R1 & B1 & Sm1 & K).
  assert (Bm: byte 0 m = 5).
  { destruct LY as (F0 & _). rewrite Tw in F0. apply byte_of_sub.
    change (sub 0 1 m) with (octs_at m 0 1). unfold field in F0.
    destruct m as [|z m']; [discriminate|]. change (octs_at (z :: m') 0 1) with [z] in *. rewrite number_be, byte1_be in F0. now rewrite F0. }
  rewrite Bm in B1.
  rewrite (request_type_of s s1 5) by (auto; lia). cbn [Z.to_nat Pos.to_nat Pos.iter_op nth Nat.add].
  exists (or_st s1 StTestRequestTW).
  assert (Ss: st s1 = StRequest) by (rewrite <- Hst; apply Sm1).
  destruct (K (Z.lor (st s1) StTestRequestTW)) as (s2 & s3 & R2 & R3 & Dl & Sm).
  pose proof Dl as (Dlk & Dinp & _ & Dwf & Dq & (Dmode & Dtw & Dkey & Dhk & Drem & Dloc & Dst) & _ & _ & _ & F).
  assert (Tws: twoway s = true) by (destruct L as (_ & <- & _); auto).
  unfold read_test_request.
  change (twoway (or_st s1 StTestRequestTW)) with (twoway s1).
  assert (Tws1: twoway s1 = true) by (destruct Sm1 as (_ & -> & _); auto). rewrite Tws1.
  assert (I: is_st StTestRequestTW (or_st s1 StTestRequestTW) = true) by (unfold is_st, or_st; cproj; rewrite Ss; reflexivity).
  rewrite I. cbn [negb]. cbv iota beta.
  change (or_st s1 StTestRequestTW) with (set_st s1 (Z.lor (st s1) StTestRequestTW)). rewrite R2.
  change 96%nat with (16 * 6)%nat at 1. rewrite R3. cbn [negb].
  cbn [set_st twoway] in Dtw. rewrite Dtw, Tws.
  rewrite (decode_preamble_ext true (sub 0 112 (msg s3)) (firstn 112 m) 112 true 128 28); try lia.
  2:{ intros o0 l Hl. change (firstn 112 m) with (sub 0 112 m). rewrite !sub_sub by lia. cbn [plus]. apply F. lia. }
  rewrite Tw in RT. rewrite RT. cbn [p_sender p_receiver p_conf_sender p_conf_receiver p_sid p_nslots p_npackets p_padding p_start p_timeout p_typeP negb andb].
  rewrite !andb_false_r. cbn [andb].
  assert (LLs: forall a, (link_local a = true -> link_local (remote s) = true) ->
     ll_scope_ok (remote s3) (mkSA (sa_family a) (sa_port a) (sa_addr a)) = true).
  { intros a Ha. unfold ll_scope_ok. change (link_local (mkSA (sa_family a) (sa_port a) (sa_addr a))) with (link_local a).
    cbn [set_st remote] in Drem. rewrite Drem. destruct (link_local a); [rewrite Ha by auto|]; reflexivity. }
  rewrite (LLs sa Ls), (LLs ra Lr). cbn [negb orb].
  change (twoway (or_st (clr_st s3 StTestRequest) StTestRequestSlots)) with (twoway s3). rewrite Dtw, Tws.
  cbn [set_st remote local] in Drem, Dloc. rewrite Drem, Dloc.
  replace (mkSA (sa_family sa) (sa_port sa) (sa_addr sa)) with sa by (destruct sa; auto).
  replace (mkSA (sa_family ra) (sa_port ra) (sa_addr ra)) with ra by (destruct ra; auto).
  eexists. split; [reflexivity|]. split; [reflexivity|].
  split; [exact (deliv_agree _ _ _ _ _ _ Dl)|]. unfold or_st. cproj. f_equal. apply W1.
Qed.

(** ** Set-up messages (always in the clear) *)
Definition sent_raw (c c1 : ctl) (bs : list Z) : Prop := c1 = set_outp c (outp c ++ bs) (tl (io c)).

Lemma write_raw_ok : forall c bs c1, write_raw c bs = (IODone, c1) -> sent_raw c c1 bs.
Proof using. intros c bs c1 Hw. unfold write_raw in Hw. unfold sent_raw. destruct (io c) as [|[|]]; inversion Hw; auto. Qed.

Lemma read_raw_ok : forall s n bs rest, quiet s -> inp s = bs ++ rest -> length bs = n ->
  read_raw s 0 n = (IODone, set_msg (set_inp s rest (tl (io s))) (put 0 bs (msg s))).
Proof using.
  intros s n bs rest Q Hi Hn.
  assert (N: (length (inp s) <? n)%nat = false) by (apply Nat.ltb_ge; rewrite Hi, app_length; lia).
  unfold read_raw, quiet in *. destruct (io s) as [|[|] r] eqn:I; try (inversion Q; discriminate);
    rewrite N, Hi, firstn_app_len, skipn_app_len by auto; reflexivity.
Qed.

Lemma greeting_roundtrip : forall c c' s modes chal salt count o rest,
  wf c -> wf s -> quiet s -> st s = 0 ->
  0 <= modes < 2^32 -> length chal = 16%nat -> length salt = 16%nat -> 0 <= count < 2^32 ->
  write_greeting c modes chal salt count = (ErrOK, c') -> sent c c' o -> inp s = o ++ rest ->
  exists s', read_greeting s = (ErrOK, (modes, chal, salt, count), s') /\ inp s' = rest /\
    st c' = StSetup /\ st s' = StSetup /\ wf c' /\ wf s' /\ quiet s'.
Proof using.
  intros c c' s modes chal salt count o rest (W1 & W2 & W3) (V1 & V2 & V3) Q Hst Hm Hc Hs Hn HW So Hi.
  unfold write_greeting in HW. destruct (negb (st c =? 0)); [discriminate|].
  set (m := put 48 _ _) in HW. cbn [set_msg msg] in HW.
  destruct (write_raw (set_msg c m) (sub 0 64 m)) as [[| |] c1] eqn:WR; try discriminate.
  inversion HW; subst c'. apply write_raw_ok in WR. unfold sent_raw in WR.
  assert (M: length m = 400%nat /\ sub 12 4 m = be_enc 4 modes /\ sub 16 16 m = chal /\ sub 32 16 m = salt /\ sub 48 4 m = be_enc 4 count).
  { subst m. match goal with |- length ?t = _ /\ _ => to_writes t [(0,64);(12,4);(16,16);(32,16);(48,4)]%nat SH end.
    wlen 400%nat SH. split; [auto|wsub 400%nat SH; auto]. }
  destruct M as (M0 & M1 & M2 & M3 & M4). clearbody m.
  assert (O: o = sub 0 64 m).
  { unfold sent in So. rewrite WR in So. cbn [outp set_st set_outp set_msg] in So. now apply app_inv_head in So. }
  assert (Lo: length (sub 0 64 m) = 64%nat) by (apply sub_length; lia).
  unfold read_greeting. rewrite Hst. cbn [Z.eqb negb]. rewrite O in Hi.
  rewrite (read_raw_ok s 64 _ rest Q Hi) by auto.
  cproj. rewrite !sub_put_prefix by lia. rewrite !sub_sub by lia. cbn [plus].
  rewrite M1, M2, M3, M4, !be_dec_enc by (rewrite pow32; lia).
  eexists. split; [reflexivity|]. cproj. repeat match goal with |- _ /\ _ => split end; auto.
  - unfold wf. rewrite WR. cproj. auto.
  - unfold wf. cproj. rewrite put_length; auto. lia.
  - unfold quiet in *. cproj. now apply quiet_tl.
Qed.

Lemma setup_roundtrip : forall c c' s userid token o rest,
  wf c -> wf s -> quiet s -> st s = StSetup -> 0 <= mode c < 2^32 -> length userid = 80%nat -> length token = 64%nat ->
  write_setup c userid token = (ErrOK, c') -> sent c c' o -> inp s = o ++ rest ->
  exists s', read_setup s =
    (ErrOK, (mode c, (if ciphers c then userid else zeros 80), (if ciphers c then token else zeros 64),
             (if ciphers c then wiv c else zeros 16)), s') /\
    inp s' = rest /\ st c' = st c /\ st s' = StSetup /\ wf c' /\ wf s' /\ quiet s'.
Proof using.
  intros c c' s userid token o rest (W1 & W2 & W3) (V1 & V2 & V3) Q Hst Hm Hu Ht HW So Hi.
  unfold write_setup in HW. destruct (negb (st c =? StSetup)); [discriminate|].
  set (m := if ciphers c then _ else _) in HW.
  destruct (write_raw (set_msg c m) (sub 0 164 m)) as [[| |] c1] eqn:WR; try discriminate.
  inversion HW; subst c'. apply write_raw_ok in WR. unfold sent_raw in WR.
  assert (M: length m = 400%nat /\ sub 0 4 m = be_enc 4 (mode c) /\ sub 4 80 m = (if ciphers c then userid else zeros 80)
     /\ sub 84 64 m = (if ciphers c then token else zeros 64) /\ sub 148 16 m = (if ciphers c then wiv c else zeros 16)).
  { subst m. set (b := put 0 (zeros 164) (msg c)).
    assert (B: length b = 400%nat) by (unfold b; rewrite put_length; auto; rewrite zeros_length; lia).
    assert (Z0: forall o l, (o + l <= 164)%nat -> sub o l b = zeros l).
    { intros o0 l Ho. unfold b. rewrite sub_zeros by lia. reflexivity. }
    clearbody b. destruct (ciphers c).
    - match goal with |- length ?t = _ /\ _ => to_writes t [(0,4);(4,80);(84,64);(148,16)]%nat SH end.
      wlen 400%nat SH. split; [auto|wsub 400%nat SH; auto].
    - match goal with |- length ?t = _ /\ _ => to_writes t [(0,4)]%nat SH end.
      wlen 400%nat SH. split; [auto|]. wsub 400%nat SH. rewrite !Z0 by lia. auto. }
  destruct M as (M0 & M1 & M2 & M3 & M4). clearbody m.
  assert (O: o = sub 0 164 m).
  { unfold sent in So. rewrite WR in So. cbn [outp set_st set_outp set_msg] in So. now apply app_inv_head in So. }
  assert (Lo: length (sub 0 164 m) = 164%nat) by (apply sub_length; lia).
  unfold read_setup. rewrite Hst. rewrite Z.eqb_refl. cbn [negb]. rewrite O in Hi.
  rewrite (read_raw_ok s 164 _ rest Q Hi) by auto.
  cproj. rewrite !sub_put_prefix by lia. rewrite !sub_sub by lia. cbn [plus].
  rewrite M1, M2, M3, M4, !be_dec_enc by (rewrite pow32; lia).
  eexists. split; [reflexivity|]. cproj. repeat match goal with |- _ /\ _ => split end; auto.
  - rewrite WR. reflexivity.
  - unfold wf. rewrite WR. cproj. auto.
  - unfold wf. cproj. rewrite put_length; auto. lia.
  - unfold quiet in *. cproj. now apply quiet_tl.
Qed.

(** An accepting Server-Start makes the two ends ready for encrypted traffic: afterwards they are
    linked in this direction, with the server's IV taken from the message. *)
Lemma server_start_roundtrip : forall c c' s uptime o rest,
  wf c -> wf s -> quiet s -> st s = StSetup -> 0 <= uptime < 2^64 ->
  mode c = mode s -> twoway c = twoway s -> key c = key s -> hkey c = hkey s -> shm c = rhm s ->
  write_server_start E c CNTRL_ACCEPT uptime = (ErrOK, c') -> sent c c' o -> inp s = o ++ rest ->
  exists s', read_server_start D s = (ErrOK, (CNTRL_ACCEPT, uptime), s') /\ agree c' s' rest /\
    st c' = StRequest /\ st s' = StRequest.
Proof using BC.
  intros c c' s uptime o rest (W1 & W2 & W3) (V1 & V2 & V3) Q Hst Hup Em Et Ek Eh Es HW So Hi.
  unfold write_server_start in HW. destruct (negb (st c =? StSetup)); [discriminate|].
  change (CNTRL_ACCEPT =? CNTRL_ACCEPT) with true in HW. cbv iota in HW.
  set (m := put 40 (zeros 8) _) in HW.
  assert (M: length m = 400%nat /\ sub 15 1 m = [0] /\ sub 16 16 m = wiv c /\ sub 32 8 m = enc_num64 uptime).
  { subst m. match goal with |- length ?t = _ /\ _ =>
      let r := reify_puts t (@nil (nat * list Z)) in match r with (?ws, ?b) => change t with (writes ws b);
       assert (SH: shape ws = [(0,15);(15,1);(16,16);(32,8);(40,8)]%nat) by (unfold shape; cbn [map fst snd]; rewrite ?zeros_length, enc_num64_length, W3; reflexivity) end end.
    wlen 400%nat SH. split; [auto|wsub 400%nat SH; auto]. }
  destruct M as (M0 & M1 & M2 & M3). clearbody m.
  set (P := sub 32 16 m).
  assert (LP: length P = (16 * 1)%nat) by (apply sub_length; lia).
  destruct (wire_len (ciphers c) 1 (key c) (wiv c) P LP W3) as [LW1 LW2].
  set (c2 := shm_add (set_st (set_msg c m) StRequest) 32 1) in HW.
  assert (C2: msg c2 = m /\ ciphers c2 = ciphers c /\ key c2 = key c /\ wiv c2 = wiv c /\ outp c2 = outp c /\ io c2 = io c /\
    riv c2 = riv c /\ shm c2 = (if ciphers c then shm c ++ P else shm c) /\ st c2 = StRequest /\ mode c2 = mode c /\ twoway c2 = twoway c /\ hkey c2 = hkey c).
  { unfold c2, shm_add. change (ciphers (set_st (set_msg c m) StRequest)) with (ciphers c). destruct (ciphers c) eqn:C.
    - change (ciphers (set_shm ?x ?y)) with (ciphers c). cproj. rewrite C. unfold P. tauto.
    - change (ciphers (set_st (set_msg c m) StRequest)) with (ciphers c). rewrite C. cproj. tauto. }
  destruct C2 as (C21 & C22 & C23 & C24 & C25 & C26 & C27 & C28 & C29 & C2a & C2b & C2c). clearbody c2.
  match type of HW with context [write_raw ?x _] => set (c3 := x) in HW end.
  assert (C3: sub 0 48 (msg c3) = sub 0 32 m ++ fst (wire (ciphers c) (key c) (wiv c) P) /\
    wiv c3 = snd (wire (ciphers c) (key c) (wiv c) P) /\ length (msg c3) = 400%nat /\
    mode c3 = mode c /\ twoway c3 = twoway c /\ key c3 = key c /\ hkey c3 = hkey c /\ shm c3 = shm c2 /\ riv c3 = riv c /\
    outp c3 = outp c /\ st c3 = StRequest).
  { unfold c3, wire in *. rewrite C22, C23, C24, C21. fold P. destruct (ciphers c).
    - rewrite LP, div16 in *. destruct (cbc_enc E (key c) (wiv c) 1 P) as [ct iv]. cbn [fst snd] in *. cproj.
      rewrite put_length by lia. split; [|intuition congruence].
      change 48%nat with (32 + 16)%nat. rewrite sub_app_split, sub_put_disjoint by lia. f_equal. apply sub_put_same; lia.
    - cbn [fst snd]. rewrite C21. split; [|intuition congruence]. change 48%nat with (32 + 16)%nat. apply sub_app_split. }
  clearbody c3. destruct C3 as (C31 & C32 & C33 & C34 & C35 & C36 & C37 & C38 & C39 & C3a & C3b).
  destruct (write_raw c3 (sub 0 48 (msg c3))) as [[| |] c4] eqn:WR; try discriminate.
  inversion HW; subst c'. apply write_raw_ok in WR. unfold sent_raw in WR. clear HW.
  assert (O: o = sub 0 32 m ++ fst (wire (ciphers c) (key c) (wiv c) P)).
  { unfold sent in So. rewrite WR in So. cbn [outp set_outp] in So. rewrite C3a, C31 in So. now apply app_inv_head in So. }
  assert (Lo: length (sub 0 32 m) = 32%nat) by (apply sub_length; lia).
  rewrite O, <- app_assoc in Hi.
  unfold read_server_start. rewrite Hst, Z.eqb_refl. cbn [negb].
  rewrite (read_raw_ok s 32 _ _ Q Hi) by auto.
  set (s1 := set_msg _ _). 
  assert (S1: length (msg s1) = 400%nat /\ sub 15 1 (msg s1) = [0] /\ sub 16 16 (msg s1) = wiv c).
  { unfold s1. cproj. rewrite put_length by lia. split; [auto|]. rewrite !sub_put_prefix by lia. rewrite !sub_sub by lia. auto. }
  destruct S1 as (S11 & S12 & S13).
  rewrite (byte_of_sub 15 0) by auto. change (get_accept 0) with 0.
  change (0 =? CNTRL_INVALID) with false. change (0 =? CNTRL_ACCEPT) with true. cbv iota. rewrite S13.
  set (s2 := set_riv s1 (wiv c)).
  assert (Ws2: wf s2) by (unfold wf, s2, s1 in *; cproj; auto).
  assert (Qs2: quiet s2) by (unfold quiet, s2, s1 in *; cproj; now apply quiet_tl).
  assert (Cs2: ciphers s2 = ciphers c) by (unfold ciphers, s2, s1; cproj; now rewrite Em).
  destruct (recv0 s2 1 P rest Ws2 Qs2 LP ltac:(lia)) as (s3 & R3 & G & R4).
  { rewrite Cs2. unfold s2, s1. cproj. rewrite <- Ek. reflexivity. }
  cbn [CNTRL_ACCEPT]. rewrite R3.
  pose proof (wf_got _ _ _ _ 1%nat Ws2 G LP) as Ws3.
  destruct G as (G1 & G2 & G3 & G4 & G5 & G6 & G7 & G8 & G9).
  assert (Cs3: ciphers s3 = ciphers c) by (rewrite <- Cs2; now apply ciphers_same).
  rewrite LP in G9. change (16 * 1)%nat with 16%nat in G9.
  assert (U: sub 0 8 (msg (rhm_add s3 0 1)) = enc_num64 uptime).
  { unfold rhm_add. destruct (ciphers s3); cproj; rewrite (sub_of_prefix 0 8 16 P) by (auto; lia);
    unfold P; rewrite sub_sub by lia; exact M3. }
  rewrite U, dec_enc_num64 by (unfold is_u64; lia).
  eexists. split; [reflexivity|].
  destruct G1 as (G11 & G12 & G13 & G14 & G15 & G16 & G17).
  unfold s2, s1 in *. cproj. cbn [set_riv set_msg set_inp mode twoway key hkey rhm riv] in *.
  split; [|split; [rewrite WR; cproj; auto|reflexivity]].
  rewrite Cs2 in G3.
  unfold agree, linked, wf, quiet, rhm_add in *. rewrite Cs3, WR. change (16 * 1)%nat with 16%nat. rewrite G9. cproj.
  rewrite C34, C35, C36, C37, C32, C38, C28, C33, C39.
  destruct (ciphers c); cproj; repeat match goal with |- _ /\ _ => split end; try tauto; try congruence.
Qed.

End P.
