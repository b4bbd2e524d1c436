From Coq Require Import ZArith List Bool Lia ZifyBool ZifyNat.
From Verif Require Import Base BaseLemmas Arith_Model Arith_Proofs Time_Model Time_Proofs Wire_Model Wire_Spec Wire_Proofs
  Control_Model Control_Spec Packet_Model Packet_Proofs Sender_Model Sender_Spec Sender_Proofs Receiver_Model Receiver_Spec Receiver_Proofs Receiver_Run
  Reflector_Model Reflector_Spec Reflector_Proofs Twoway_Model Twoway_Spec Twoway_Proofs Twoway_Inv Twoway_Run.
Import ListNotations.
Open Scope Z_scope.
Ltac Zify.zify_post_hook ::= Z.div_mod_to_equations.

Lemma NoDup_app_single : forall (l : list Z) x, NoDup l -> ~ In x l -> NoDup (l ++ [x]).
Proof.
  intros l x N I. pose proof (Add_app x l []) as A. rewrite app_nil_r in A. apply (NoDup_Add A). auto.
Qed.

Section R.
Variable E D : list Z -> list Z -> list Z.
Variable H : list Z -> list Z -> list Z.
Variable mode : Z.
Variable ak rk hk : list Z.
Variable start timeout npackets : Z.
Variable delta : nat -> Z.
Variable len : nat.
Variable p : protection.
Hypothesis BC : block_cipher E D.
Hypothesis DG : digest20 H.
Hypothesis DL : blocks16 D.
Hypothesis DO : forall k b, octets b -> octets (D k b).
Hypothesis PM : protection_of mode = Some p.
Hypothesis LN : (req_pad p <= len)%nat.
Hypothesis OK : rsession_ok start timeout npackets delta.
Local Notation tnext := (tnext start delta).
Local Notation tget := (tget start delta).
Local Notation lost := (tw_lost start).
Local Notation tw_ok := (tw_ok npackets delta).
Local Notation fresh := (fresh start).
Local Notation tn_ok := (tn_ok npackets delta).
Local Notation core := (core start npackets delta).
Local Notation send1 := (t_send E H mode ak hk start timeout npackets delta len).
Local Notation receive1 := (t_receive D H mode rk hk start timeout npackets delta len).
Local Notation next1 := (t_next start npackets delta).
Local Notation pass1 := (t_pass E D H mode ak rk hk start timeout npackets delta len).

Definition rok (cls : list (option (tspec * Z * Z))) (us : list (option nat)) (es : list tenv) (out : list sent) (skip : list Z) (r : twrec) : Prop :=
  (tw_is_lost r = true /\ lost_good start timeout delta out cls us r) \/ (tw_is_lost r = false /\ reply_good D H p rk hk out skip es r).

Record good (NI : Prop) (cls : list (option (tspec * Z * Z))) (us : list (option nat)) (es : list tenv)
  (b f : Z) (w : list tnode) (recs : list twrec) (out : list sent) (skip : list (Z * tspec)) : Prop := mkGood {
  g_core : core b f w recs out skip;
  g_recs : Forall (rok cls us es out (map fst skip)) recs;
  g_out : Forall (request_good D H p ak hk start timeout npackets delta len) out;
  g_all : forall q, 0 <= q < f -> In q (map s_seq out) \/ In q (map fst skip);
  g_once : NoDup (map s_seq (filter (fun s => was_sent (s_res s)) out));
  g_sent : NI -> forall n, In n w -> x_seq n < f -> x_sent n = true;
  g_disj : forall s, In s out -> was_sent (s_res s) = true -> ~ In (s_seq s) (map fst skip) }.

Lemma rok_mono : forall cls cls' us us' es es' out out' skip skip' r, incl cls cls' -> incl us us' -> incl es es' -> incl out out' -> incl skip skip' ->
  rok cls us es out skip r -> rok cls' us' es' out' skip' r.
Proof.
  clear. intros cls cls' us us' es es' out out' skip skip' r A B C F G [[L (T & s & S1 & S2 & S3 & S4)]|[L (e & data & ttl & c & er & sy & I1 & I2 & I3 & I4 & I5 & I6 & I7)]].
  - left. split; [exact L|]. split; [exact T|]. exists s. split; [apply F, S1|]. split; [exact S2|]. split; [exact S3|].
    destruct S4 as [(c & er & sy & J & K)|(j & J)]; [left; exists c, er, sy; split; [apply A, J|exact K]|right; exists j; apply B, J].
  - right. split; [exact L|]. exists e, data, ttl, c, er, sy. split; [apply C, I1|]. do 5 (split; [assumption|]).
    destruct I7 as [I7|I7]; [left|right; apply G, I7]. apply in_map_iff in I7 as (s & <- & I7). apply in_map, F, I7.
Qed.
Lemma roks_mono : forall cls cls' us us' es es' out out' skip skip' l, incl cls cls' -> incl us us' -> incl es es' -> incl out out' -> incl skip skip' ->
  Forall (rok cls us es out skip) l -> Forall (rok cls' us' es' out' skip') l.
Proof. intros. eapply Forall_impl; [|eassumption]. intros r. now apply rok_mono. Qed.

Lemma good_mono : forall (NI NI' : Prop) cls cls' us us' es es' b f w recs out skip, (NI' -> NI) -> incl cls cls' -> incl us us' -> incl es es' ->
  good NI cls us es b f w recs out skip -> good NI' cls' us' es' b f w recs out skip.
Proof.
  intros NI NI' cls cls' us us' es es' b f w recs out skip X A B C [G1 G2 G3 G4 G5 G6 G7]. split; auto.
  eapply roks_mono; [..|exact G2]; auto using incl_refl.
Qed.

Lemma good_extend : forall NI cls us es b f w ext recs out skip, good NI cls us es b f w recs out skip -> tw_ok b (w ++ ext) -> Forall fresh ext ->
  good NI cls us es b f (w ++ ext) recs out skip.
Proof.
  intros NI cls us es b f w ext recs out skip [G1 G2 G3 G4 G5 G6 G7] W F. split; auto; [now apply core_extend|].
  intros N n I L. apply in_app_or in I as [I|I]; [auto|]. apply (tw_app npackets delta) in W as [_ W]. destruct (tw_in npackets delta _ _ _ W I). pose proof (c_f _ _ _ _ _ _ _ _ _ G1). lia.
Qed.

Lemma texpect_ns : forall n, norm (x_abs n) -> norm (tw_expect timeout n) /\ ns (tw_expect timeout n) = ns (x_abs n) + ns_of timeout.
Proof using OK.
  clear -OK. intros n Hn. unfold tw_expect, tw_timeout. destruct OK as (_ & Ht & _). destruct (num64_ns timeout Ht) as [A B].
  assert (Z0: norm (0, 0)) by (red; cbn; lia). destruct (ts_add_ns _ _ Z0 Hn) as [B1 B2]. destruct (ts_add_ns _ _ B1 A) as [C1 C2]. split; [exact C1|].
  rewrite C2, B2, B. unfold ns at 1. cbn [fst snd]. lia.
Qed.

Lemma lost_tells : forall n er, tn_ok n -> tells_lost start delta (x_seq n) (lost n er).
Proof.
  intros n er (A & B & C). unfold tells_lost, Twoway_Model.tw_lost. cbn [tw_sent tw_refl r_seq r_send r_recv r_ttl owptime]. split; [reflexivity|].
  split; [|split; [reflexivity|auto]]. rewrite B. unfold sched_stamp, OWPNum64Add, u64. rewrite Z.add_mod_idemp_r by lia. reflexivity.
Qed.

Lemma norm_clock : forall c, clock_ok c -> norm c.
Proof using. clear. intros [a b] [X Y]. red. cbn [fst snd] in *. lia. Qed.

(** a flush *)
Lemma lost_rok : forall cls us es out skip recs u cur er0 sy0 er n, In (Some (cur, er0, sy0)) cls -> In u us -> clock_ok cur ->
  tn_ok n -> ninv start recs out skip n -> past_due timeout u cur n -> x_hit n = false -> rok cls us es out (map fst skip) (lost n er).
Proof.
  intros cls us es out skip recs u cur er0 sy0 er n IC IU CK T (N1 & N2 & N3 & N4) (P1 & P2) HN. left. split; [reflexivity|].
  split; [exact (lost_tells n er T)|]. destruct (N4 P1) as [(_ & X & _)|(s & S1 & S2 & S3 & S4)]; [congruence|].
  exists s. split; [exact S1|]. split; [exact S2|]. split; [exact S3|].
  destruct P2 as [P2|P2].
  - left. exists cur, er0, sy0. split; [exact IC|]. destruct (texpect_ns n (proj2 (proj2 T))) as [X Y]. rewrite ts_lt_ns in P2 by auto using norm_clock. rewrite S4. lia.
  - right. destruct u as [j|]; [|congruence]. eauto.
Qed.

Lemma good_flush : forall NI cls us es u er cur er0 sy0 b f w recs out skip, good NI cls us es b f w recs out skip -> w <> [] ->
  In (Some (cur, er0, sy0)) cls -> In u us -> clock_ok cur ->
  match tflush_lost start timeout npackets delta u er cur w recs with
  | TFGo w' recs' => exists b', w' <> [] /\ good NI cls us es b' f w' recs' out skip /\ b <= b'
  | TFOver recs' => exists b', good NI cls us es b' f [] recs' out skip
  | TFErr recs' => exists b' w', good NI cls us es b' f w' recs' out skip
  end.
Proof.
  intros NI cls us es u er cur er0 sy0 b f w recs out skip [G1 G2 G3 G4 G5 G6 G7] N IC IU CK.
  destruct (flush_core start timeout npackets delta u er cur b f w recs out skip G1 N) as (k & K1 & K2 & K3).
  assert (LR: Forall (rok cls us es out (map fst skip)) (recs ++ lost_recs start er (firstn k w))).
  { apply Forall_app. split; [exact G2|]. unfold lost_recs. apply Forall_forall. intros r I. apply in_map_iff in I as (n & <- & I). apply filter_In in I as [I HN].
    assert (IW: In n w) by (rewrite <- (firstn_skipn k w); apply in_or_app; now left).
    rewrite Forall_forall in K2. eapply lost_rok; [exact IC|exact IU|exact CK|apply (tw_in npackets delta _ _ _ (c_w _ _ _ _ _ _ _ _ _ G1) IW)|exact (c_n _ _ _ _ _ _ _ _ _ G1 n IW)|exact (K2 n I)|].
    now apply negb_true_iff. }
  assert (SK: NI -> forall n, In n (skipn k w) -> x_seq n < f -> x_sent n = true).
  { intros X n I. apply G6; [exact X|]. rewrite <- (firstn_skipn k w). apply in_or_app. now right. }
  destruct (tflush_lost start timeout npackets delta u er cur w recs) as [w' recs'|recs'|recs'].
  - destruct K3 as (R & N' & C' & B' & _). exists (b + Z.of_nat k). split; [exact N'|]. split; [|lia]. split; auto; [now rewrite R|].
    intros X n I L. destruct B' as [[_ ->]|[_ ->]]; [auto|]. destruct I as [<-|[]].
    destruct (tw_last npackets delta w b (c_w _ _ _ _ _ _ _ _ _ G1) N) as (_ & L2 & _). pose proof (c_f _ _ _ _ _ _ _ _ _ G1). cbn [Twoway_Model.tnext x_seq] in L. lia.
  - destruct K3 as (R & C' & _). exists (b + Z.of_nat k). split; auto. now rewrite R.
  - destruct K3 as (R & C'). exists (b + Z.of_nat k), (skipn k w). split; auto. now rewrite R.
Qed.

Lemma good_hit : forall NI cls us es b f w recs out skip r, good NI cls us es b f w recs out skip -> tw_is_lost r = false -> b <= r_seq (tw_sent r) < f ->
  rok cls us es out (map fst skip) r -> good NI cls us es b f (set_node (r_seq (tw_sent r)) mark_hit w) (recs ++ [r]) out skip.
Proof.
  intros NI cls us es b f w recs out skip r [G1 G2 G3 G4 G5 G6 G7] L Q R. split; auto.
  - now apply core_hit.
  - apply Forall_app. auto.
  - intros X n I F. apply set_node_in in I as (m & I & ->). destruct (x_seq m =? r_seq (tw_sent r)); cbn [mark_hit x_seq x_sent] in *; auto.
Qed.

Lemma good_send : forall NI cls us es b f w recs out skip s, good NI cls us es b f w recs out skip -> f < b + Z.of_nat (length w) -> s_seq s = f -> was_sent (s_res s) = true ->
  norm (s_time s) -> request_good D H p ak hk start timeout npackets delta len s ->
  good NI cls us es b (f + 1) (set_node f (mark_sent (s_time s)) w) recs (out ++ [s]) skip.
Proof.
  intros NI cls us es b f w recs out skip s [G1 G2 G3 G4 G5 G6 G7] L Q W Nc R. split.
  - now apply core_send.
  - eapply roks_mono; [..|exact G2]; auto using incl_refl, incl_appl.
  - apply Forall_app. auto.
  - intros q Hq. rewrite map_app, in_app_iff. cbn [map In]. rewrite Q. destruct (Z.eq_dec q f) as [->|]; [auto|]. destruct (G4 q ltac:(lia)); auto.
  - rewrite filter_app, map_app. cbn [filter]. rewrite W. cbn [map]. rewrite Q. apply NoDup_app_single; [exact G5|].
    intros I. apply in_map_iff in I as (s' & S1 & S2). apply filter_In in S2 as [S2 S3]. destruct (c_out _ _ _ _ _ _ _ _ _ G1 s' S2 S3). lia.
  - intros X n I F. apply set_node_in in I as (m & I & ->). destruct (Z.eqb_spec (x_seq m) f); cbn [mark_sent x_seq x_sent] in *; [reflexivity|]. apply G6; [exact X|exact I|lia].
  - intros s' I W'. apply in_app_or in I as [I|[<-|[]]]; [auto|]. rewrite Q. intros I. apply in_map_iff in I as (x & X1 & X2). pose proof (c_skip _ _ _ _ _ _ _ _ _ G1 x X2). lia.
Qed.

Lemma good_attempt : forall NI cls us es b f w recs out skip s, good NI cls us es b f w recs out skip -> was_sent (s_res s) = false ->
  request_good D H p ak hk start timeout npackets delta len s -> good NI cls us es b f w recs (out ++ [s]) skip.
Proof.
  intros NI cls us es b f w recs out skip s [G1 G2 G3 G4 G5 G6 G7] W R. split; auto.
  - now apply core_attempt.
  - eapply roks_mono; [..|exact G2]; auto using incl_refl, incl_appl.
  - apply Forall_app. auto.
  - intros q Hq. rewrite map_app, in_app_iff. destruct (G4 q Hq); auto.
  - rewrite filter_app. cbn [filter]. rewrite W, app_nil_r. exact G5.
  - intros s' I W'. apply in_app_or in I as [I|[<-|[]]]; [auto|congruence].
Qed.

Lemma good_skip : forall NI cls us es b f w recs out skip cur, good NI cls us es b f w recs out skip -> f < b + Z.of_nat (length w) ->
  good NI cls us es b (f + 1) (set_node f mark_skipped w) recs out (skip ++ [(f, cur)]).
Proof.
  intros NI cls us es b f w recs out skip cur [G1 G2 G3 G4 G5 G6 G7] L. split; auto.
  - now apply core_skip.
  - eapply roks_mono; [..|exact G2]; auto using incl_refl. rewrite map_app. apply incl_appl, incl_refl.
  - intros q Hq. rewrite map_app, in_app_iff. cbn [map fst In]. destruct (Z.eq_dec q f) as [->|]; [auto|]. destruct (G4 q ltac:(lia)); auto.
  - intros X n I F. apply set_node_in in I as (m & I & ->). destruct (Z.eqb_spec (x_seq m) f); cbn [mark_skipped x_seq x_sent] in *; [reflexivity|]. apply G6; [exact X|exact I|lia].
  - intros s' I W'. rewrite map_app, in_app_iff. cbn [map fst In]. intros [J|[J|[]]]; [exact (G7 s' I W' J)|]. destruct (c_out _ _ _ _ _ _ _ _ _ G1 s' I W'). lia.
Qed.

(** sending was interrupted *)
Lemma good_on : forall (NI : Prop) cls us es b f w recs out skip, good NI cls us es b f w recs out skip -> f + 1 <= b + Z.of_nat (length w) -> ~ NI ->
  In f (map s_seq out) -> good NI cls us es b (f + 1) w recs out skip.
Proof.
  intros NI cls us es b f w recs out skip [G1 G2 G3 G4 G5 G6 G7] L X I. split; auto.
  - now apply core_on.
  - intros q Hq. destruct (Z.eq_dec q f) as [->|]; [auto|]. destruct (G4 q ltac:(lia)); auto.
Qed.

(** ** passages *)
Definition noint (es : list tenv) : Prop := Forall (fun e => te_send e <> TSIntr) es.
Definition goode (es : list tenv) := good (noint es) (map te_clock es) (map te_usr2 es) es.
Definition tpost (es : list tenv) (o : tout) : Prop :=
  match o with
  | TGo st => exists b, goode es b (if t_recv st then t_i st + 1 else t_i st) (t_win st) (t_recs st) (t_out st) (t_skip st) /\
      0 <= t_i st < npackets /\ t_win st <> [] /\ t_rc st <> Some true
  | TEnd st => exists b f, goode es b f (t_win st) (t_recs st) (t_out st) (t_skip st) /\
      ((t_win st <> [] /\ t_rc st <> Some true) \/ (t_win st = [] /\ t_rc st = Some true))
  | TErr st recs => exists b f w, goode es b f w recs (t_out st) (t_skip st)
  | TExit st => exists b f, goode es b f (t_win st) (t_recs st) (t_out st) (t_skip st)
  end.

Lemma goode_snoc : forall es e b f w recs out skip, goode es b f w recs out skip -> goode (es ++ [e]) b f w recs out skip.
Proof.
  intros es e b f w recs out skip. unfold goode. rewrite !map_app. apply good_mono; try (apply incl_appl, incl_refl).
  unfold noint. intros X. apply Forall_app in X. tauto.
Qed.

Lemma next_ok : forall es b st, goode es b (t_i st + 1) (t_win st) (t_recs st) (t_out st) (t_skip st) -> 0 <= t_i st < npackets -> t_win st <> [] -> t_rc st <> Some true ->
  tpost es (next1 st).
Proof.
  intros es b st G Hi N R. unfold t_next. cbv zeta. destruct (Z.ltb_spec (t_i st + 1) npackets) as [l|l].
  - pose proof (g_core _ _ _ _ _ _ _ _ _ _ G) as C. pose proof (c_b _ _ _ _ _ _ _ _ _ C).
    destruct (tget_ok start npackets delta (t_win st) b (t_i st + 1) (c_w _ _ _ _ _ _ _ _ _ C) N ltac:(lia)) as (ext & n & T1 & T2 & T3 & T4 & T5 & T6).
    rewrite T1. cbn [tpost t_recv t_i t_win t_recs t_out t_skip t_rc]. exists b. split; [now apply good_extend|]. split; [lia|]. split; [|exact R].
    destruct (t_win st); [congruence|discriminate].
  - cbn [tpost t_win t_recs t_out t_skip t_rc]. exists b, (t_i st + 1). auto.
Qed.

Lemma due_ns : forall n, tn_ok n -> norm (tw_due start n) /\ ns (tw_due start n) = tw_sched start delta (x_seq n).
Proof.
  intros n (A & B & C). unfold tw_due, tw_start, OWPTimestampToTimespec. cbn [owptime]. destruct OK as (Hs & _).
  assert (H1: 0 <= x_rel n < M64) by (rewrite B; apply Z.mod_pos_bound; lia). destruct (num64_ns _ H1) as [N1 V1].
  match goal with |- context [ts_add _ (OWPNum64ToTimespec ?y)] => assert (H2: 0 <= y < M64) by (apply Z.mod_pos_bound; lia) end.
  destruct (num64_ns _ H2) as [N2 V2]. destruct (ts_add_ns _ _ N1 N2) as [N3 V3]. split; [exact N3|]. rewrite V3, V1, V2, B. unfold tw_sched.
  unfold OWPNum64Sub, u64. rewrite JAN_eq. unfold JAN_1970. apply Z.add_comm.
Qed.

Lemma send_ok : forall es b st e, goode es b (t_i st) (t_win st) (t_recs st) (t_out st) (t_skip st) -> 0 <= t_i st < npackets -> t_win st <> [] -> t_rc st <> Some true ->
  t_recv st = false -> tenv_ok p len e -> tpost (es ++ [e]) (send1 st e).
Proof.
  intros es b st e G Hi N R RV (EC & EX & EP). pose proof (goode_snoc es e _ _ _ _ _ _ G) as G1. unfold t_send.
  destruct (te_stop1 e); [cbn [tpost]; exists b, (t_i st); auto|].
  destruct (te_clock e) as [[[cur err] sy]|] eqn:CK; [|cbn [tpost]; exists b, (t_i st); auto].
  pose proof (g_core _ _ _ _ _ _ _ _ _ _ G) as C. pose proof (c_b _ _ _ _ _ _ _ _ _ C).
  destruct (tget_ok start npackets delta (t_win st) b (t_i st) (c_w _ _ _ _ _ _ _ _ _ C) N ltac:(lia)) as (ext & n & T1 & T2 & T3 & T4 & T5 & T6).
  rewrite T1. cbv zeta. assert (G2: goode (es ++ [e]) b (t_i st) (t_win st ++ ext) (t_recs st) (t_out st) (t_skip st)) by now apply good_extend.
  assert (N2: t_win st ++ ext <> []) by (destruct (t_win st); [congruence|discriminate]).
  set (w := t_win st ++ ext) in *. clearbody w. destruct EC as (EC & _).
  destruct (tw_in npackets delta _ _ _ T2 T4) as [_ NK]. destruct (due_ns n NK) as [D1 D2]. rewrite T5 in D2.
  destruct OK as (Hst & Hto & Hnp & _). destruct (num64_ns timeout Hto) as [O1 O2]. fold (tw_timeout timeout) in O1, O2.
  destruct (ts_add_ns _ _ O1 D1) as [A1 A2]. rewrite !ts_gt_ns by auto using norm_clock. rewrite A2, O2, D2.
  assert (NW: forall q g, set_node q g w <> []) by (intros q g; destruct w; [congruence|discriminate]).
  destruct (Z.ltb_spec (tw_sched start delta (t_i st)) (ns cur)) as [l1|l1].
  - destruct (Z.ltb_spec (ns_of timeout + tw_sched start delta (t_i st)) (ns cur)) as [l2|l2].
    + apply (next_ok _ b); cbn [t_i t_win t_recs t_out t_skip t_rc]; auto. now apply good_skip.
    + destruct (tw_request E H mode ak hk (te_pad e) (t_i st) (stamp (t_ts st) (t_last st) cur err sy)) as [pkt|] eqn:RQ.
      2: { cbn [tpost]. exists b, (t_i st). auto. }
      destruct (te_stop2 e). { cbn [tpost t_win t_recs t_out t_skip t_rc]. exists b, (t_i st). auto. }
      destruct (request_spec E D H mode p BC DG PM ak hk (te_pad e) (t_i st) _ pkt len LN EP RQ ltac:(lia)) as (Q1 & Q2 & Q3 & Q4 & Q5).
      rewrite (firstn_all2 pkt) by lia. set (s := mkSent (t_i st) pkt cur (te_send e)).
      assert (RG: request_good D H p ak hk start timeout npackets delta len s).
      { unfold request_good. cbv zeta. cbn [s s_seq s_pkt s_time]. rewrite (stamp_value _ _ _ _ _ EC) in Q4. auto 10 with zarith. }
      destruct (te_send e) eqn:ES.
      * cbn [tpost t_recv t_i t_win t_recs t_out t_skip t_rc]. exists b. split; [|auto]. apply (good_send _ _ _ _ _ _ _ _ _ _ s G2 T6 eq_refl eq_refl (norm_clock _ EC) RG).
      * cbn [tpost t_recv t_i t_win t_recs t_out t_skip t_rc]. exists b. split; [|auto]. now apply good_attempt.
      * cbn [tpost t_recv t_i t_win t_recs t_out t_skip t_rc]. exists b, (t_i st). now apply good_attempt.
      * apply (next_ok _ b); cbn [t_i t_win t_recs t_out t_skip t_rc]; auto. apply good_on; [now apply good_attempt|lia| |].
        -- unfold noint. intros X. apply Forall_app in X as [_ X]. apply Forall_cons_iff in X as [X _]. congruence.
        -- rewrite map_app, in_app_iff. right. now left.
      * cbn [tpost t_recv t_i t_win t_recs t_out t_skip t_rc]. exists b. split; [|auto]. apply (good_send _ _ _ _ _ _ _ _ _ _ s G2 T6 eq_refl eq_refl (norm_clock _ EC) RG).
  - destruct (te_sleep e); cbn [tpost t_recv t_i t_win t_recs t_out t_skip t_rc]; [exists b; auto|exists b, (t_i st); auto].
Qed.

Lemma receive_ok : forall es b st e, goode es b (t_i st + 1) (t_win st) (t_recs st) (t_out st) (t_skip st) -> 0 <= t_i st < npackets -> t_win st <> [] -> t_rc st <> Some true ->
  t_recv st = true -> tenv_ok p len e -> tpost (es ++ [e]) (receive1 st e).
Proof.
  intros es b st e G Hi N R RV (EC & EX & EP). pose proof (goode_snoc es e _ _ _ _ _ _ G) as G1. unfold t_receive.
  destruct (te_stop1 e); [cbn [tpost]; exists b, (t_i st + 1); auto|].
  pose proof (g_core _ _ _ _ _ _ _ _ _ _ G) as C. pose proof (c_b _ _ _ _ _ _ _ _ _ C).
  assert (HW: forall w, t_hurry start npackets delta st = Some w -> w <> [] /\ goode (es ++ [e]) b (t_i st + 1) w (t_recs st) (t_out st) (t_skip st)).
  { intros w. unfold t_hurry. destruct (Z.ltb_spec (t_i st) (npackets - 1)).
    - destruct (tget_ok start npackets delta (t_win st) b (t_i st + 1) (c_w _ _ _ _ _ _ _ _ _ C) N ltac:(lia)) as (ext & n & T1 & T2 & T3 & T4 & T5 & T6).
      rewrite T1. cbv zeta. destruct (_ || _); [discriminate|]. intros X. injection X as <-. split; [destruct (t_win st); [congruence|discriminate]|now apply good_extend].
    - intros X. injection X as <-. auto. }
  destruct (t_hurry start npackets delta st) as [w|]; [|now apply (next_ok _ b)]. destruct (HW w eq_refl) as [NW GW]. clear HW.
  cbv zeta. destruct (negb (rx_len mode len (te_rx e) =? Z.of_nat (resp_len mode len)) && negb (te_eintr e)).
  { cbn [tpost t_win t_recs t_out t_skip t_rc]. exists b, (t_i st + 1). auto. }
  destruct (te_stop2 e). { cbn [tpost t_win t_recs t_out t_skip t_rc]. exists b, (t_i st + 1). auto. }
  destruct (te_clock e) as [[[cur err] sy]|] eqn:CK. 2: { cbn [tpost t_win t_recs t_out t_skip t_rc]. exists b, (t_i st + 1). auto. }
  set (rts := mkTS (owptime (OWPTimespecToTimestamp (mkTS 0 0 0 0) cur (Some err) None)) sy
    (multiplier (OWPTimespecToTimestamp (mkTS 0 0 0 0) cur (Some err) None)) (scale (OWPTimespecToTimestamp (mkTS 0 0 0 0) cur (Some err) None))).
  destruct EC as (EC & NZ & _).
  assert (RT: owptime rts = time_of cur) by (unfold rts; cbn [owptime]; destruct cur as [c0 c1]; destruct EC as [X1 X2]; cbn [fst snd] in *; now rewrite epoch_value).
  assert (IC: In (Some (cur, err, sy)) (map te_clock (es ++ [e]))) by (rewrite map_app, in_app_iff; right; left; exact CK).
  assert (IU: In (te_usr2 e) (map te_usr2 (es ++ [e]))) by (rewrite map_app, in_app_iff; right; left; reflexivity).
  pose proof (good_flush _ _ _ _ (te_usr2 e) rts cur err sy b _ w _ _ _ GW NW IC IU EC) as GF.
  destruct (tflush_lost start timeout npackets delta (te_usr2 e) rts cur w (t_recs st)) as [w' recs'|recs'|recs'].
  3: { destruct GF as (b' & w' & GF). cbn [tpost]. eauto. }
  2: { destruct GF as (b' & GF). cbn [tpost t_win t_recs t_out t_skip t_rc]. exists b', (t_i st + 1). auto. }
  destruct GF as (b' & NW' & GF & LB).
  set (st' := mkT (t_i st) true w' recs' (t_ts st) (t_last st) cur (Some false) (t_out st) (t_skip st)).
  assert (END: tpost (es ++ [e]) (TEnd st')) by (cbn [tpost st' t_win t_recs t_out t_skip t_rc]; exists b', (t_i st + 1); split; [exact GF|]; left; split; [exact NW'|discriminate]).
  assert (GO: tpost (es ++ [e]) (TGo st')) by (cbn [tpost st' t_recv t_i t_win t_recs t_out t_skip t_rc]; exists b'; split; [exact GF|]; split; [exact Hi|]; split; [exact NW'|discriminate]).
  assert (NXT: tpost (es ++ [e]) (next1 st')) by (apply (next_ok _ b'); cbn [st' t_i t_win t_recs t_out t_skip t_rc]; auto; discriminate).
  destruct (Z.ltb_spec (rx_len mode len (te_rx e)) (tw_payload_size mode 0)) as [l|l]; [exact NXT|].
  rewrite (proj1 (tw_size mode p PM)) in l.
  assert (RX: exists data ttl, te_rx e = TxData true data ttl /\ (at_pad (reply_pos p) <= resp_len mode len)%nat /\ (at_pad (reply_pos p) <= length data)%nat).
  { destruct (te_rx e) as [|[] data ttl]; cbn [rx_len] in l; try (exfalso; clear - l; destruct p; cbn [reply_pos at_pad] in l; lia).
    exists data, ttl. split; [reflexivity|]. rewrite firstn_length in l. lia. }
  destruct RX as (data & ttl & RX & LR & LD). rewrite RX in *. cbn [rx_data rx_ttl].
  destruct (open_reply D H mode rk hk (firstn (resp_len mode len) data)) as [buf|] eqn:OP; [|exact NXT].
  apply (open_reply_spec D H mode p DL PM) in OP; [|rewrite firstn_length; lia]. destruct OP as [-> AU].
  set (clear := reply_clear D p rk (firstn (resp_len mode len) data)) in *.
  destruct w' as [|h tl]; [congruence|]. set (w' := h :: tl) in *. cbn [st' t_i].
  set (seq := be_dec (sub (p_sseq (rep_at mode)) 4 clear)).
  destruct (Z.ltb_spec (t_i st) seq) as [l2|l2]; [exact END|]. destruct (Z.ltb_spec seq (x_seq h)) as [l3|l3]; [exact GO|].
  destruct (read_reply mode clear rts ttl) as [r|] eqn:RR; [|exact END].
  assert (LC: length (firstn (resp_len mode len) data) = Nat.min (resp_len mode len) (length data)) by apply firstn_length.
  assert (OS: octet_string (length (firstn (resp_len mode len) data)) clear) by (apply (reply_clear_octets D p DL DO); [apply firstn_octets; exact EX|lia]).
  destruct (read_reply_spec mode p PM clear rts ttl r _ cur OS ltac:(lia) RT RR) as (TE & TR & TS). fold seq in TS.
  destruct (write_tw recs' r) as [recs2|] eqn:WR; [|exact END]. apply write_tw_some in WR. subst recs2.
  pose proof (g_core _ _ _ _ _ _ _ _ _ _ GF) as CF.
  assert (XH: x_seq h = b') by exact (proj1 (c_w _ _ _ _ _ _ _ _ _ CF)).
  destruct (tget_ok start npackets delta w' b' seq (c_w _ _ _ _ _ _ _ _ _ CF) NW' ltac:(lia)) as (ext & n & T1 & T2 & T3 & T4 & T5 & T6).
  rewrite T1. cbn [tpost t_recv t_i t_win t_recs t_out t_skip t_rc]. exists b'. split; [|split; [exact Hi|split; [intros X; apply (f_equal (@length _)) in X; rewrite set_node_length, app_length in X; cbn [w' length] in X; lia|discriminate]]].
  rewrite <- TS. apply good_hit.
  - now apply good_extend.
  - unfold tw_is_lost. rewrite TR, RT. apply Z.eqb_neq. exact NZ.
  - rewrite TS. lia.
  - right. split; [unfold tw_is_lost; rewrite TR, RT; apply Z.eqb_neq; exact NZ|].
    exists e, data, ttl, cur, err, sy. split; [apply in_or_app; right; now left|]. split; [exact RX|]. split; [exact CK|]. split; [exact LD|].
    unfold clear in AU, TE. rewrite (reply_clear_firstn D p DL) in AU, TE by auto. apply (authentic_firstn H p) in AU; [|exact LR]. apply (tells_firstn p) in TE; [|exact LR].
    split; [exact AU|]. split; [exact TE|]. rewrite TS. apply (g_all _ _ _ _ _ _ _ _ _ _ GF). pose proof (c_b _ _ _ _ _ _ _ _ _ CF). lia.
Qed.

Lemma pass_ok : forall es st e, tpost es (TGo st) -> tenv_ok p len e -> tpost (es ++ [e]) (pass1 st e).
Proof.
  intros es st e (b & G & Hi & N & R) EO. unfold t_pass. destruct (t_recv st) eqn:RV; [eapply receive_ok; eauto|eapply send_ok; eauto].
Qed.

Lemma tpost_more : forall es e o, (forall st, o <> TGo st) -> tpost es o -> tpost (es ++ [e]) o.
Proof.
  intros es e o NG. destruct o as [st|st|st recs|st]; cbn [tpost].
  - now destruct (NG st).
  - intros (b & f & G & X). exists b, f. split; [now apply goode_snoc|exact X].
  - intros (b & f & w & G). exists b, f, w. now apply goode_snoc.
  - intros (b & f & G). exists b, f. now apply goode_snoc.
Qed.

Lemma loop_ok : forall es2 es1 st, tpost es1 (TGo st) -> Forall (tenv_ok p len) es2 ->
  tpost (es1 ++ es2) (t_loop E D H mode ak rk hk start timeout npackets delta len st es2).
Proof.
  induction es2 as [|e es2 IH]; intros es1 st P F; cbn [t_loop]; [rewrite app_nil_r; exact P|]. apply Forall_cons_iff in F as [F1 F2].
  pose proof (pass_ok es1 st e P F1) as PP. replace (es1 ++ e :: es2) with ((es1 ++ [e]) ++ es2) by (rewrite <- app_assoc; reflexivity).
  destruct (pass1 st e) as [st'|st'|st' recs|st'] eqn:EQ; [now apply IH|..].
  all: clear - PP; revert PP; generalize (es1 ++ [e]); induction es2 as [|e2 es2 IH]; intros l PP; [now rewrite app_nil_r|].
  all: replace (l ++ e2 :: es2) with ((l ++ [e2]) ++ es2) by (rewrite <- app_assoc; reflexivity); apply IH; apply tpost_more; [discriminate|exact PP].
Qed.

Lemma init_ok : 0 < npackets -> tpost [] (TGo (t_init start delta)).
Proof.
  intros NP. cbn [tpost t_init t_recv t_i t_win t_recs t_out t_skip t_rc]. exists 0. split; [|split; [lia|split; discriminate]].
  destruct OK as (_ & _ & _ & HD). unfold goode. set (n0 := mkTN 0 (delta 0%nat) (abs_of start (delta 0%nat)) false false).
  assert (FR: fresh n0) by (split; [reflexivity|split; reflexivity]).
  assert (TN: tn_ok n0).
  { split; [cbn [n0 x_seq]; lia|]. split; [|apply abs_norm]. cbn [n0 x_seq x_rel]. change (Z.to_nat 0) with 0%nat. cbn [total]. rewrite Z.mod_small; [reflexivity|apply HD]. }
  split.
  - split.
    + lia.
    + cbn [length]. lia.
    + split; [reflexivity|]. split; [exact TN|exact I].
    + intros n [<-|[]]. split; [reflexivity|]. split; [discriminate|]. split; [reflexivity|discriminate].
    + intros n [<-|[]] _. exact FR.
    + intros q Hq. lia.
    + intros q _. split; reflexivity.
    + intros s [].
    + intros x [].
  - constructor.
  - constructor.
  - intros q Hq. lia.
  - constructor.
  - intros _ n [<-|[]] X. cbn [n0 x_seq] in X. lia.
  - intros s [].
Qed.

Lemma run_ok : forall es, 0 < npackets -> Forall (tenv_ok p len) es -> tpost es (run_tw E D H mode ak rk hk start timeout npackets delta len es).
Proof.
  intros es NP F. unfold run_tw. destruct (Z.leb_spec npackets 0); [lia|]. exact (loop_ok es [] _ (init_ok NP) F).
Qed.

(** at the end *)
Lemma finish_ok : forall es rc0 cl u int o, tpost es o -> reading_ok cl ->
  exists b f w, good (noint es) (map te_clock es ++ [cl]) (map te_usr2 es ++ [u]) es b f w
    (fst (t_finish start timeout npackets delta rc0 cl u int o)) (tw_sentlog o) (match o with TGo st | TEnd st | TExit st | TErr st _ => t_skip st end).
Proof.
  intros es rc0 cl u int o P RO.
  assert (MONO: forall b f w recs out skip, goode es b f w recs out skip -> good (noint es) (map te_clock es ++ [cl]) (map te_usr2 es ++ [u]) es b f w recs out skip).
  { intros b f w recs out skip. apply good_mono; auto using incl_refl; apply incl_appl, incl_refl. }
  destruct o as [st|st|st recs|st]; cbn [tpost t_finish fst tw_sentlog] in *.
  - destruct P as (b & G & _). eexists b, _, _. apply MONO, G.
  - destruct P as (b & f & G & W). destruct (match t_rc st with None => rc0 | Some over => negb over end) eqn:ER; [|exists b, f, (t_win st); apply MONO, G].
    destruct cl as [[[cur err] sy]|]; [|exists b, f, (t_win st); apply MONO, G].
    destruct W as [[W _]|[_ W]]; [|rewrite W in ER; discriminate]. cbv zeta. apply MONO in G. destruct RO as [RO _].
    match goal with |- context [tflush_lost _ _ _ _ u ?r cur _ _] => pose proof (good_flush _ _ _ _ u r cur err sy b f _ _ _ _ G W ltac:(apply in_or_app; right; now left) ltac:(apply in_or_app; right; now left) RO) as GF; destruct (tflush_lost start timeout npackets delta u r cur (t_win st) (t_recs st)) end.
    + destruct GF as (b' & _ & GF & _). eauto.
    + destruct GF as (b' & GF). eauto.
    + destruct GF as (b' & w' & GF). eauto.
  - destruct P as (b & f & w & G). exists b, f, w. apply MONO, G.
  - destruct P as (b & f & G). eexists b, f, _. apply MONO, G.
Qed.
End R.
