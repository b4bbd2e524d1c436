(** Property theorems C11-C15: octet formats of requests, slots and data records.
    [field m o n] is the number in octets o..o+n-1 of m (Wire_Spec.v). *)
From Coq Require Import ZArith List Bool Lia.
From Verif Require Import Base Time_Model Sched_Model Wire_Model Wire_Spec Wire_Proofs.
Import ListNotations.
Open Scope Z_scope.

(** ** C11 *)

(** The encoder accepts exactly the sensible requests ... *)
Theorem C11_encoder_accepts : forall msg len s r cs cr tw za sid t,
  (exists m, encode_preamble msg len s r cs cr tw za sid t = Some m) <->
  112 <= len /\ sa_family s = sa_family r /\ sa_family s <> AF_OTHER /\
  (tw = false -> (cs = true \/ cr = true) /\ 1 <= ts_npackets t /\ 1 <= ts_nslots t /\ ts_slots t <> None).
Proof. exact encode_preamble_accepts. Qed.
Print Assumptions C11_encoder_accepts.

(** ... produces the published layout whatever the message buffer contained before ... *)
Theorem C11_layout : forall msg len s r cs cr tw za sid t m,
  (112 <= length msg)%nat -> sa_ok s -> sa_ok r -> tspec_ok t -> length sid = 16%nat ->
  encode_preamble msg len s r cs cr tw za (Some sid) t = Some m ->
  length m = length msg /\
  (Forall (fun b => 0 <= b < 256) msg -> Forall (fun b => 0 <= b < 256) sid ->
   Forall (fun b => 0 <= b < 256) m) /\
  layout m s r cs cr tw za sid t.
Proof. exact encode_preamble_layout. Qed.
Print Assumptions C11_layout.

(** ... and decoding the 112 octets gives every parameter back (a server ignores the port of the
    endpoint it configures itself; a two-way request carries no roles and no schedule). *)
Theorem C11_roundtrip : forall msg len s r cs cr tw sid t m request,
  (112 <= length msg)%nat -> Forall (fun b => 0 <= b < 256) msg -> octet_string 16 sid ->
  sa_ok s -> sa_ok r -> tspec_ok t ->
  encode_preamble msg len s r cs cr tw false (Some sid) t = Some m ->
  decode_preamble request (firstn 112 m) 112 tw 28 =
  PreOK (mkPre (match sa_family s with AF_INET6 => 6 | _ => 4 end)
     (mkSA (sa_family s) (if request && cs && negb tw then 0 else sa_port s) (sa_addr s))
     (mkSA (sa_family r) (if request && cr && negb tw then 0 else sa_port r) (sa_addr r))
     (cs && negb tw) (cr && negb tw) sid
     (if tw then 0 else ts_nslots t) (if tw then 0 else ts_npackets t)
     (ts_padding t) (ts_start t) (ts_timeout t) (ts_typeP t)).
Proof. exact preamble_roundtrip. Qed.
Print Assumptions C11_roundtrip.

(** A request without a SID (the usual request for a server-side receiver) carries in its SID
    field whatever the connection's message buffer held before. *)
Theorem C11_unset_sid_is_stale_buffer : forall msg len s r cs cr tw za t m,
  (112 <= length msg)%nat -> sa_ok s -> sa_ok r ->
  encode_preamble msg len s r cs cr tw za None t = Some m ->
  encode_preamble msg len s r cs cr tw za (Some (octs_at msg 48 16)) t = Some m.
Proof. exact encode_preamble_null_sid. Qed.
Print Assumptions C11_unset_sid_is_stale_buffer.

Example C11_example :
  let s := mkSA AF_INET 8760 [192;0;2;1] in let r := mkSA AF_INET 8761 [192;0;2;2] in
  let t := mkTSpec (3 * 2^60 + 5) (2^33) 184 100 1000 2 (Some [SlotExp (2^32); SlotLit 7]) in
  let sid := [1;2;3;4;5;6;7;8;9;10;11;12;13;14;15;16] in
  sa_ok s /\ sa_ok r /\ tspec_ok t /\ octet_string 16 sid /\
  exists m, encode_preamble (repeat 85 400) 400 s r false true false false (Some sid) t = Some m /\
    decode_preamble true (firstn 112 m) 112 false 28 =
    PreOK (mkPre 4 s (mkSA AF_INET 0 [192;0;2;2]) false true sid 2 1000 100 (3 * 2^60 + 5) (2^33) 184).
Proof.
  cbv zeta. unfold sa_ok, tspec_ok, octet_string. cbn [sa_port sa_addr sa_family ts_start ts_timeout ts_typeP ts_padding ts_npackets ts_nslots].
  split; [|split; [|split; [|split]]].
  - split; [lia|]. split; [|reflexivity]. repeat (apply Forall_cons; [lia|]); apply Forall_nil.
  - split; [lia|]. split; [|reflexivity]. repeat (apply Forall_cons; [lia|]); apply Forall_nil.
  - lia.
  - split; [reflexivity|]. repeat (apply Forall_cons; [lia|]); apply Forall_nil.
  - eexists; split; [vm_compute; reflexivity|vm_compute; reflexivity].
Qed.

(** ** C12: exact acceptance condition of the decoder; everything else is refused. *)
Theorem C12_decoder_exact : forall request m len tw socklen p,
  octet_string 112 m -> 28 <= socklen ->
  (decode_preamble request m len tw socklen = PreOK p <->
   len = 112 /\ pre_legal tw m /\ pre_fields request m p).
Proof. exact decode_preamble_iff. Qed.
Print Assumptions C12_decoder_exact.

(** Refusals: a message of the wrong length is fatal (the connection is dropped), any other illegal
    request gets the "cannot honour" result. *)
Theorem C12_refusal_kind : forall request m len tw socklen,
  28 <= socklen -> octet_string 112 m ->
  (decode_preamble request m len tw socklen = PreFatal <-> len <> 112) /\
  (decode_preamble request m len tw socklen = PreWarning <-> len = 112 /\ ~ pre_legal tw m).
Proof.
  intros request m len tw socklen Hs Hm.
  assert (F: decode_preamble request m len tw socklen = PreFatal <-> len <> 112).
  { unfold decode_preamble. destruct (Z.eqb_spec len 112); cbn [negb]; [|tauto]. subst.
    split; [|congruence].
    destruct (_ && _ && _); [discriminate|]. destruct (_ && (_ || _)); [discriminate|].
    destruct (_ && (negb _ || negb _)); [discriminate|]. cbv zeta.
    destruct (_ =? 6); [destruct (Z.ltb_spec socklen 28); [lia|discriminate]|].
    destruct (_ =? 4); [destruct (Z.ltb_spec socklen 16); [lia|discriminate]|discriminate]. }
  split; [exact F|].
  destruct (decode_preamble request m len tw socklen) eqn:E.
  - split; [discriminate|]. intros [_ K]. apply (C12_decoder_exact request m len tw socklen p Hm Hs) in E. tauto.
  - split; auto. intros _. destruct (Z.eq_dec len 112) as [e|n]; [|apply F in n; discriminate].
    split; auto. intros L. subst len.
    (* a legal request would have been accepted *)
    set (six := field m 1 1 mod 16 =? 6).
    pose (p := mkPre (field m 1 1 mod 16)
      (mkSA (if six then AF_INET6 else AF_INET) (if request && negb (field m 2 1 =? 0) then 0 else field m 12 2) (octs_at m 16 (if six then 16%nat else 4%nat)))
      (mkSA (if six then AF_INET6 else AF_INET) (if request && negb (field m 3 1 =? 0) then 0 else field m 14 2) (octs_at m 32 (if six then 16%nat else 4%nat)))
      (negb (field m 2 1 =? 0)) (negb (field m 3 1 =? 0)) (octs_at m 48 16) (field m 4 4) (field m 8 4) (field m 64 4) (field m 68 8) (field m 76 8) (field m 84 4)).
    assert (E': decode_preamble request m 112 tw socklen = PreOK p).
    { apply C12_decoder_exact; auto. split; auto. split; auto. unfold pre_fields, p.
      cbn [p_ipvn p_sender p_receiver p_conf_sender p_conf_receiver p_sid p_nslots p_npackets p_padding p_start p_timeout p_typeP].
      assert (N: forall x, negb (x =? 0) = true <-> x <> 0).
      { intros x. destruct (Z.eqb_spec x 0); cbn; intuition congruence. }
      rewrite !N. fold six. repeat split; auto. }
    congruence.
  - split; [discriminate|]. intros [K _]. destruct F as [F _]. specialize (F eq_refl). contradiction.
Qed.
Print Assumptions C12_refusal_kind.

Example C12_example : (* IPv7, no role, two-way with a role, two-way with packets: all refused *)
  let m v cs cr np := put 8 (be_enc 4 np) (put 0 [1;v;cs;cr] (zeros 112)) in
  octet_string 112 (m 7 1 0 0) /\
  decode_preamble true (m 7 1 0 0) 112 false 28 = PreWarning /\
  decode_preamble true (m 4 0 0 0) 112 false 28 = PreWarning /\
  decode_preamble true (m 4 1 0 0) 112 true 28 = PreWarning /\
  decode_preamble true (m 4 0 0 9) 112 true 28 = PreWarning /\
  exists p, decode_preamble true (m 4 1 0 9) 112 false 28 = PreOK p /\ p_npackets p = 9.
Proof.
  split. { split; [reflexivity|]. vm_compute. repeat (apply Forall_cons; [split; congruence|]). apply Forall_nil. }
  repeat (split; [vm_compute; reflexivity|]). eexists. split; [vm_compute; reflexivity|reflexivity].
Qed.

(** ** C13 *)
Theorem C13_slot_roundtrip : forall s, slot_ok s ->
  exists b, encode_slot s = Some b /\ octet_string 16 b /\ decode_slot b = Some s.
Proof. exact slot_roundtrip. Qed.
Print Assumptions C13_slot_roundtrip.

Theorem C13_slot_layout : forall s b, slot_ok s -> encode_slot s = Some b ->
  field b 0 1 = (match s with SlotExp _ => 0 | _ => 1 end) /\ octs_at b 1 7 = repeat 0 7%nat /\
  field b 8 8 = match s with SlotExp m => m | SlotLit o => o | SlotOther => 0 end.
Proof.
  intros s b H E. destruct (slot_roundtrip s H) as (b' & E' & O & D).
  assert (b' = b) by congruence. subst b'.
  apply decode_slot_iff in D; auto.
  split; [|split].
  - destruct D as [[D1 ->]|[D1 ->]]; auto.
  - destruct s; inversion E; subst; reflexivity.
  - destruct D as [[D1 D2]|[D1 D2]]; rewrite D2 at 1; destruct s; inversion D2; congruence.
Qed.
Print Assumptions C13_slot_layout.

Theorem C13_decode_exact : forall b s, octet_string 16 b ->
  (decode_slot b = Some s <->
   (field b 0 1 = 0 /\ s = SlotExp (field b 8 8)) \/ (field b 0 1 = 1 /\ s = SlotLit (field b 8 8))).
Proof. exact decode_slot_iff. Qed.
Print Assumptions C13_decode_exact.

Theorem C13_unknown_type_refused : forall b, octet_string 16 b -> field b 0 1 <> 0 -> field b 0 1 <> 1 ->
  decode_slot b = None.
Proof.
  intros b H H0 H1. destruct (decode_slot b) eqn:E; auto.
  apply decode_slot_iff in E; auto. destruct E as [[]|[]]; contradiction.
Qed.
Print Assumptions C13_unknown_type_refused.

Example C13_example :
  slot_ok (SlotLit (2^63 + 12345)) /\
  decode_slot (2 :: zeros 15) = None /\
  encode_slot (SlotExp 258) = Some [0;0;0;0;0;0;0;0;0;0;0;0;0;0;1;2] /\ encode_slot SlotOther = None.
Proof. split; [cbn; lia|]. vm_compute. auto. Qed.

(** ** C14 *)
Theorem C14_record_roundtrip : forall r, rec_ok r ->
  exists b, encode_datarec r = Some b /\ octet_string 25 b /\ decode_datarec 3 b = Some r.
Proof. exact datarec_roundtrip. Qed.
Print Assumptions C14_record_roundtrip.

(** every octet of the file format: accepted strings and their meaning, current version ... *)
Theorem C14_decode_v3_exact : forall b r, octet_string 25 b ->
  (decode_datarec 3 b = Some r <->
   field b 5 1 <> 0 /\ field b 7 1 <> 0 /\
   r = mkRec (field b 0 4) (spec_ts b 8 4) (spec_ts b 16 6) (field b 24 1)).
Proof. exact decode_v3_iff. Qed.
Print Assumptions C14_decode_v3_exact.

(** ... and the 24-octet form of versions 0 and 2 (no TTL: 255). *)
Theorem C14_decode_v2_exact : forall v b r, v = 0 \/ v = 2 -> octet_string 24 b ->
  (decode_datarec v b = Some r <->
   field b 13 1 <> 0 /\ field b 23 1 <> 0 /\
   r = mkRec (field b 0 4) (spec_ts b 4 12) (spec_ts b 14 22) 255).
Proof. exact decode_v2_iff. Qed.
Print Assumptions C14_decode_v2_exact.

Theorem C14_other_versions_refused : forall v b, v <> 0 -> v <> 2 -> v <> 3 -> decode_datarec v b = None.
Proof. exact decode_datarec_version. Qed.
Print Assumptions C14_other_versions_refused.

Theorem C14_zero_multiplier_refused : forall r,
  encode_datarec r = None <-> (multiplier (r_send r) = 0 \/ multiplier (r_recv r) = 0).
Proof. exact encode_datarec_none. Qed.
Print Assumptions C14_zero_multiplier_refused.

Example C14_example :
  let r := mkRec 70000 (mkTS (2^63+1) 1 200 20) (mkTS (2^63+99) 0 1 63) 254 in
  rec_ok r /\
  encode_datarec r = Some [0;1;17;112; 148;200; 63;1; 128;0;0;0;0;0;0;1; 128;0;0;0;0;0;0;99; 254].
Proof.
  split; [|vm_compute; reflexivity].
  unfold rec_ok, ts_ok. cbn. repeat split; try lia; auto.
Qed.

(** ** C15 *)
Theorem C15_two_way_roundtrip : forall r, rec_ok (tw_sent r) -> rec_ok (tw_refl r) ->
  exists b, encode_twrec r = Some b /\ octet_string 50 b /\ decode_twrec 131 b = Some r.
Proof. exact twrec_roundtrip. Qed.
Print Assumptions C15_two_way_roundtrip.

(** the two halves are two one-way records side by side, and nothing else is accepted *)
Theorem C15_two_way_layout : forall v b r, decode_twrec v b = Some r <->
  v = 128 + 3 /\ decode_datarec 3 (octs_at b 0 25) = Some (tw_sent r) /\
  decode_datarec 3 (octs_at b 25 25) = Some (tw_refl r).
Proof.
  intros v b r. unfold decode_twrec. change (sub 0 25 b) with (octs_at b 0 25). change (sub 25 25 b) with (octs_at b 25 25).
  destruct (Z.eqb_spec v 131); [|split; [discriminate|intros [K _]; lia]].
  destruct (decode_datarec 3 (octs_at b 0 25)) as [x|]; [|split; [discriminate|intros (_&K&_); discriminate]].
  destruct (decode_datarec 3 (octs_at b 25 25)) as [y|]; [|split; [discriminate|intros (_&_&K); discriminate]].
  split.
  - intros K; inversion K; auto.
  - intros (_ & K1 & K2). inversion K1; inversion K2. now destruct r.
Qed.
Print Assumptions C15_two_way_layout.

Theorem C15_zero_multiplier_refused : forall r,
  encode_twrec r = None <-> (multiplier (r_send (tw_sent r)) = 0 \/ multiplier (r_recv (tw_sent r)) = 0
    \/ multiplier (r_send (tw_refl r)) = 0 \/ multiplier (r_recv (tw_refl r)) = 0).
Proof. exact encode_twrec_none. Qed.
Print Assumptions C15_zero_multiplier_refused.

Example C15_example :
  let a := mkRec 1 (mkTS 5 1 2 3) (mkTS 6 0 7 8) 9 in let b := mkRec 4 (mkTS 10 0 11 12) (mkTS 13 1 14 15) 16 in
  rec_ok a /\ rec_ok b /\
  exists w, encode_twrec (mkTW a b) = Some w /\ decode_twrec 131 w = Some (mkTW a b) /\ decode_twrec 3 w = None.
Proof.
  cbv zeta. unfold rec_ok, ts_ok. cbn [r_seq r_send r_recv r_ttl owptime sync multiplier scale].
  split; [repeat split; try lia; auto|]. split; [repeat split; try lia; auto|].
  eexists. split; [vm_compute; reflexivity|]. vm_compute. auto.
Qed.
