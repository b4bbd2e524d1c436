(** Property theorems about fetching sessions: C42 (what the server sends), C43 (what the client
    gets) and C81 (what the client believes).  Vocabulary: Fetch_Spec.v.  [tries i] is what the server finds in the file at its passage
    [i] over it: the octets before and, if it gets the lock, the octets under the lock; they are
    arbitrary, so they cover every way a receiver may be writing the file meanwhile. *)
From Coq Require Import ZArith List Bool Lia.
From Verif Require Import Base BaseLemmas Time_Model Sched_Model Wire_Model Wire_Spec Control_Model Control_Spec Stop_Model Stop_Proofs File_Model File_Spec
  Server_Model Fetch_Model Fetch_Spec Fetch_Proofs Fetch_Whole Fetch_Integrity Toy Props_File.
Import ListNotations.
Open Scope Z_scope.

(** ** C42 *)

(** What is sent is what one of the states of the file contains: the test request, its slots, the
    ranges of packets not sent, and the wanted records, in file order; never in pieces larger than the
    buffer.  The complete session is only sent if it has finished normally.
    Missing from the full claim: a session which has finished normally without any record must not
    have 25 octets of other contents behind its header, see [C42_refuted]. *)
Theorem C42_transfer_partial : forall tries b e fin' next' nsk nrec pre body,
  look (Some tries) b e = FSend fin' next' nsk nrec pre body ->
  exists k f, (fst (tries k) = f \/ snd (tries k) = Locked f) /\
    (b = 0 -> e = 4294967295 -> fin' = 1) /\
    forall fin next p slots skips recs, session_file f fin next p slots skips recs ->
      (fin = 1 -> recs = [] -> Z.of_nat (length f) < 152 + 16 * (Z.of_nat (length slots) + 1) + 25) ->
      fin' = fin /\ next' = next /\ nsk = Z.of_nat (length skips) /\ nrec = Z.of_nat (length (wanted fin b e recs)) /\
      pre = Some (octs_at f 40 112) /\ Forall chunk_ok body /\
      exists sl sk rc p1 p2, sections body = Some [concat sl; concat sk ++ zeros p1; concat rc ++ zeros p2] /\
        Forall2 slot_octets slots sl /\ Forall2 skip_octets skips sk /\ Forall2 record_octets (wanted fin b e recs) rc /\
        (p1 < 16)%nat /\ (p2 < 17)%nat.
Proof.
  intros tries b e fin' next' nsk nrec pre body L. unfold look in L.
  destruct (settle 11 0 0 0 tries b e) as [f h| | |] eqn:ST; try discriminate L.
  destruct (settle_ok _ _ _ _ _ _ _ _ _ ST) as (k & _ & Hk). exists k, f.
  split. { destruct Hk as [(A & _)|(A & _)]; auto. }
  split.
  { intros B1 E1. assert (FN: ih_finished h = FIN_NORMAL).
    { destruct Hk as [(_ & _ & _ & A)|(_ & h0 & _ & -> & A)]; [exact A|]. unfold adjusted. cbn [ih_finished]. auto. }
    unfold transfer in L. destruct (count_records f h b e) as [[[? ?] ?]|]; [|discriminate L].
    apply (f_equal (fun x => match x with FSend a _ _ _ _ _ => a | _ => fin' end)) in L. cbv beta zeta iota in L. rewrite <- L. exact FN. }
  intros fin next p slots skips recs SF SH. rewrite (sf_settled SF tries b e h SH ST) in L.
  destruct (sf_sections SF b e) as (pre0 & body0 & sl & sk & rc & p1 & p2 & T & P & S1 & S2 & S3 & S4 & S5 & S6 & S7).
  rewrite T in L. rewrite P in L.
  assert (E1: fin' = fin /\ next' = next /\ nsk = Z.of_nat (length skips) /\ nrec = Z.of_nat (length (wanted fin b e recs)) /\ pre = Some (octs_at f 40 112) /\ body = body0)
    by (repeat split; congruence).
  destruct E1 as (-> & -> & -> & -> & -> & ->). do 5 (split; [reflexivity|]). split; [exact S5|].
  exists sl, sk, rc, p1, p2. auto 10.
Qed.
Print Assumptions C42_transfer_partial.

(** A session whose file does not change meanwhile is sent, unless it is unfinished and all of it is
    asked for ... *)
Theorem C42_served : forall tries f fin next p slots skips recs b e,
  session_file f fin next p slots skips recs ->
  (fin = 1 -> recs = [] -> Z.of_nat (length f) < 152 + 16 * (Z.of_nat (length slots) + 1) + 25) ->
  (forall i, fst (tries i) = f /\ (fin = 1 \/ snd (tries i) = Locked f)) ->
  ~ (fin = 2 /\ b = 0 /\ e = 4294967295) ->
  exists pre body, look (Some tries) b e =
    FSend fin next (Z.of_nat (length skips)) (Z.of_nat (length (wanted fin b e recs))) pre body.
Proof.
  intros tries f fin next p slots skips recs b e SF SH ST N. unfold look. rewrite (sf_stable SF tries b e SH ST N).
  destruct (sf_sections SF b e) as (pre0 & body0 & sl & sk & rc & p1 & p2 & T & _). rewrite T. eauto.
Qed.
Print Assumptions C42_served.

(** ... and then, as long as the file says so, it is never sent. *)
Theorem C42_unfinished : forall tries,
  (forall k f h, f = fst (tries k) \/ Locked f = snd (tries k) -> read_initial f = Some h -> ih_finished h <> 1) ->
  look (Some tries) 0 4294967295 = FReject \/ look (Some tries) 0 4294967295 = FFailed.
Proof.
  intros tries N. unfold look. destruct (settle 11 0 0 0 tries 0 4294967295) as [f h| | |] eqn:ST; auto.
  exfalso. exact (settle_unfinished 11 0 0 0 tries 0 4294967295 eq_refl eq_refl N f h ST).
Qed.
Print Assumptions C42_unfinished.

(** A file that was marked as failed between the first look and the lock is sent nevertheless
    (sapi.c 1113 is not asked again), but then without a next number and without skip records:
    what is announced is what follows. *)
Theorem C42_marked_failed : forall tries b e next' nsk nrec pre body,
  look (Some tries) b e = FSend 0 next' nsk nrec pre body ->
  next' = 0 /\ nsk = 0 /\ exists a c, body = a ++ [Seal; Seal] ++ c /\ ~ In Seal a.
Proof.
  intros tries b e next' nsk nrec pre body L. unfold look in L.
  destruct (settle 11 0 0 0 tries b e) as [f h| | |]; try discriminate L. unfold transfer in L.
  destruct (count_records f h b e) as [[[n e'] s]|]; [|discriminate L]. cbv zeta in L.
  injection L as F N K _ _ B. unfold skip_outs in B. rewrite F in N, K, B. cbn [Z.eqb negb andb] in N, K, B.
  split; [now symmetry|]. split; [now symmetry|].
  match type of B with copy_blocks ?m ?q ?g ++ _ = _ => exists (copy_blocks m q g) end.
  eexists. split. { rewrite <- B. cbn [app]. reflexivity. }
  generalize 152%nat. match goal with |- forall _, ~ In _ (copy_blocks ?m _ _) => generalize m end.
  induction n0 as [|m IH]; intros q I; cbn [copy_blocks] in I; [exact I|].
  destruct (fread q 16 f); cbn [In] in I; destruct I as [I|I]; try discriminate I; try exact (IH _ I); exact I.
Qed.
Print Assumptions C42_marked_failed.

(** *** Concrete cases *)

(** three records (one of them lost) and a range of packets not sent, session finished normally *)
Definition served_file : list Z :=
  match write_ndata 3 (sample_file ++ sample_data) with
  | Some f => match complete_session 1000 [mkSkip 7 9] f with Some f => f | None => [] end
  | None => []
  end.
Definition served_preamble : preamble :=
  mkPre 4 (mkSA AF_INET 8760 [192;0;2;1]) (mkSA AF_INET 8761 [192;0;2;2]) false true sample_sid 2 1000 100 (3 * 2^60 + 5) (2^33) 184.

(** for concrete lists, one case for every element *)
Fixpoint each {A} (P : nat -> A -> Prop) (n : nat) (l : list A) : Prop :=
  match l with [] => True | x :: r => P n x /\ each P (S n) r end.
Lemma each_nth : forall A (P : nat -> A -> Prop) l n, each P n l -> forall i x, nth_error l i = Some x -> P (n + i)%nat x.
Proof.
  intros A P. induction l as [|y l IH]; intros n E i x N; [destruct i; discriminate|]. destruct E as (E1 & E2). destruct i as [|i]; cbn [nth_error] in N.
  - rewrite Nat.add_0_r. congruence.
  - replace (n + S i)%nat with (S n + i)%nat by lia. now apply IH.
Qed.
Ltac by_each := match goal with |- forall i x, nth_error ?l i = Some x -> @?P i x =>
  let G := fresh in assert (G: each P 0 l); [cbn [each]; cbv beta zeta; repeat match goal with |- _ /\ _ => split end; try exact I; vm_compute; reflexivity
    | exact (each_nth _ P l 0 G)] end.
Ltac octets_ok := let A := fresh in match goal with |- Forall _ ?f =>
  assert (A: forallb (fun b => (0 <=? b) && (b <? 256)) f = true) by (vm_compute; reflexivity);
  apply Forall_forall; let x := fresh in let I := fresh in intros x I; rewrite forallb_forall in A; specialize (A x I); lia end.
Ltac concrete_file := unfold session_file; repeat match goal with |- _ /\ _ => split end;
  first [by_each | octets_ok | vm_compute; reflexivity | left; vm_compute; reflexivity | vm_compute; discriminate
    | right; vm_compute; first [reflexivity | split; [discriminate|reflexivity]] | idtac].

Lemma served_ok : session_file served_file 1 1000 served_preamble sample_slots [mkSkip 7 9] sample_recs.
Proof. unfold sample_slots, sample_recs. concrete_file. Qed.

(** the records wanted of it *)
Example C42_example :
  map r_seq (wanted 1 4 5 sample_recs) = [5; 4] /\
  match look (Some (fun _ => (served_file, Busy))) 4 5 with
  | FSend 1 1000 1 2 (Some pre) body => pre = octs_at served_file 40 112 /\ length body = 7%nat
  | _ => False
  end /\
  look (Some (fun _ => (sample_file ++ sample_data, Locked (sample_file ++ sample_data)))) 0 4294967295 = FReject.
Proof. split; [vm_compute; reflexivity|]. split; [vm_compute; auto|]. vm_compute. reflexivity. Qed.

(** *** The session is finished between the first look at the file and the lock: no packet has been
    received or recorded, four ranges of packets were not sent.  The number of records, zero, is taken
    for "not yet known" and computed from the size of the file, so that what is behind the header, the
    ranges, is sent as a record too. *)
Definition empty_file : list Z :=
  match write_ndata 0 sample_file with Some f => f | None => [] end.
Definition empty_skips : list skiprec := [mkSkip 10 65537; mkSkip 70000 70000; mkSkip 80000 80001; mkSkip (2^17) (2^18)].
Definition emptied_file : list Z :=
  match complete_session 1000 empty_skips empty_file with Some f => f | None => [] end.
Lemma emptied_ok : session_file emptied_file 1 1000 served_preamble sample_slots empty_skips [].
Proof. unfold sample_slots, empty_skips. concrete_file. Qed.

Lemma empty_ok : session_file empty_file 2 0 served_preamble sample_slots [] [].
Proof. unfold sample_slots. concrete_file. intros X. now contradiction X. Qed.

Theorem C42_refuted : exists tries f next p slots skips recs b e next' nsk nrec pre body,
  snd (tries 0%nat) = Locked f /\ session_file f 1 next p slots skips recs /\
  session_file (fst (tries 0%nat)) 2 0 p slots [] recs /\
  look (Some tries) b e = FSend 1 next' nsk nrec pre body /\ nrec > Z.of_nat (length recs) /\
  (* and octets of a record follow *)
  exists a c r z, sections body = Some [a; c; r ++ z] /\ length r = 25%nat /\ decode_datarec 3 r <> None.
Proof.
  assert (A: match look (Some (fun _ => (empty_file, Locked emptied_file))) 0 4294967295 with
    | FSend 1 n k r pre body => r = 1 /\ match sections body with
        | Some [a; c; d] => length (firstn 25 d) = 25%nat /\ match decode_datarec 3 (firstn 25 d) with Some _ => True | None => False end
        | _ => False end
    | _ => False end) by (vm_compute; auto).
  destruct (look (Some (fun _ => (empty_file, Locked emptied_file))) 0 4294967295) as [?| | |fin n k r pre body] eqn:L; try contradiction.
  assert (F: fin = 1) by (destruct fin as [|[]|]; try contradiction; reflexivity). rewrite F in A. destruct A as (R & A). subst fin.
  destruct (sections body) as [[|a [|c [|d [|]]]]|] eqn:SB; try contradiction. destruct A as (A1 & A2).
  exists (fun _ => (empty_file, Locked emptied_file)), emptied_file, 1000, served_preamble, sample_slots, empty_skips, [], 0, 4294967295, n, k, r, pre, body.
  split; [reflexivity|]. split; [exact emptied_ok|]. split; [exact empty_ok|]. split; [exact L|].
  split; [rewrite R; reflexivity|]. exists a, c, (firstn 25 d), (skipn 25 d). rewrite firstn_skipn. split; [exact SB|]. split; [exact A1|].
  intros X. now rewrite X in A2.
Qed.
Print Assumptions C42_refuted.

(** the file of a session under way, marked as failed while its lock is awaited, is sent *)
Example C42_marked_failed_case :
  match look (Some (fun _ => (empty_file, match write_finished 0 77 emptied_file with Some f => Locked f | None => LockError end))) 0 5 with
  | FSend 0 next nsk nrec pre body => next = 0 /\ nsk = 0 /\ pre <> None /\ In Seal body
  | _ => False
  end.
Proof. vm_compute. repeat split; try discriminate. tauto. Qed.

(** ** C43: over a connection whose two ends agree, the client ends up with a file which says the same
    as the file of the server about the request, its slots and the packets not sent, and contains the
    wanted records, in the same order; the connection can be used again.  [files]: the session files of
    the server. *)
Theorem C43_exchange : forall E D H, block_cipher E D -> digest20 H ->
  forall f fin next p slots skips recs files tries junk c s b e sid rc n g c' t s1 tests sess rs sv oc os,
  session_file f fin next p slots skips recs ->
  (fin = 1 -> recs = [] -> Z.of_nat (length f) < 152 + 16 * (Z.of_nat (length slots) + 1) + 25) ->
  files sid = Some tries -> (forall i, fst (tries i) = f /\ (fin = 1 \/ snd (tries i) = Locked f)) ->
  ~ (fin = 2 /\ b = 0 /\ e = 4294967295) ->
  octet_string 112 junk -> wf c -> wf s -> quiet c -> quiet s -> linked c s -> linked s c -> twoway c = false ->
  st c = StRequest -> st s = StRequest -> 0 <= b < 2^32 -> 0 <= e < 2^32 -> length sid = 16%nat ->
  (link_local (p_sender p) = true -> link_local (remote c) = true) ->
  (link_local (p_receiver p) = true -> link_local (remote c) = true) ->
  fetch_session E D H junk true true c b e sid = (rc, n, g, c') ->
  read_request_type D s = (t, s1) ->
  process_fetch E D H (mkSrv s1 tests sess) (fun b e sid => look (files sid) b e) = (rs, sv) ->
  sent c c' oc -> sent s (s_c sv) os -> inp s = oc -> inp c = os ->
  t = 4 /\ rs = ErrOK /\ rc = ErrOK /\ n = Z.of_nat (length (wanted fin b e recs)) /\
  reads_as g fin next p slots skips (wanted fin b e recs) /\
  st c' = StRequest /\ st (s_c sv) = StRequest /\ linked c' (s_c sv) /\ linked (s_c sv) c' /\ wf c' /\ wf (s_c sv) /\
  s_tests sv = tests /\ s_sessions sv = sess.
Proof. intros E D H BC HL. exact (fetch_whole E D H BC HL). Qed.
Print Assumptions C43_exchange.

(** records 4 and 5 of the session above over a connection with the toy cipher *)
Definition toy_files (sid : list Z) : option (nat -> list Z * lock) := if eqb_octets sid sample_sid then Some (fun _ => (served_file, Busy)) else None.
Definition toy_client_sends : list Z := outp (snd (write_fetch toyE toyH (toy StRequest 4 false []) 4 5 sample_sid)).
Definition toy_served : Z * srv :=
  process_fetch toyE toyE toyH (mkSrv (snd (read_request_type toyE (toy StRequest 4 false toy_client_sends))) [] []) (fun b e sid => look (toy_files sid) b e).
Definition toy_fetched := fetch_session toyE toyE toyH (repeat 170 112) true true (toy StRequest 4 false (outp (s_c (snd toy_served)))) 4 5 sample_sid.
Example C43_example :
  exists rc n g c' t s1 rs sv oc os,
    octet_string 112 (repeat 170 112) /\ linked (toy StRequest 4 false os) (toy StRequest 4 false oc) /\
    fetch_session toyE toyE toyH (repeat 170 112) true true (toy StRequest 4 false os) 4 5 sample_sid = (rc, n, g, c') /\
    read_request_type toyE (toy StRequest 4 false oc) = (t, s1) /\
    process_fetch toyE toyE toyH (mkSrv s1 [] []) (fun b e sid => look (toy_files sid) b e) = (rs, sv) /\
    sent (toy StRequest 4 false os) c' oc /\ sent (toy StRequest 4 false oc) (s_c sv) os /\
    link_local (p_sender served_preamble) = false /\ link_local (p_receiver served_preamble) = false /\
    n = 2 /\ length g = 258%nat /\ length oc = 48%nat /\ length os = 304%nat.
Proof.
  exists (fst (fst (fst toy_fetched))), (snd (fst (fst toy_fetched))), (snd (fst toy_fetched)), (snd toy_fetched).
  exists (fst (read_request_type toyE (toy StRequest 4 false toy_client_sends))), (snd (read_request_type toyE (toy StRequest 4 false toy_client_sends))).
  exists (fst toy_served), (snd toy_served), toy_client_sends, (outp (s_c (snd toy_served))).
  split. { split; [reflexivity|]. apply Forall_forall. intros x I. apply repeat_spec in I. lia. }
  split; [repeat split|]. split; [unfold toy_fetched; rewrite <- !surjective_pairing; reflexivity|]. split; [vm_compute; reflexivity|]. split; [unfold toy_served; apply surjective_pairing|].
  repeat match goal with |- _ /\ _ => split end; vm_compute; reflexivity.
Qed.

(** ** C81: with authentication or encryption, whatever arrives, a fetch that yields a file consisted of
    five parts, each followed by its code; the file consists of these parts and nothing else.  [ack],
    [nsk]: the answer and the number of ranges not sent it announces. *)
Theorem C81_authentic : forall E D H, block_cipher E D -> blocks16 D -> (forall k b, octets b -> octets (D k b)) ->
  forall junk al sl c b e sid n g c',
  wf c -> ciphers c = true -> octets (inp c) -> octets (riv c) -> (length sid <= 16)%nat ->
  fetch_session E D H junk al sl c b e sid = (ErrOK, n, g, c') -> g <> [] ->
  let ack := piece D c 0 2 in
  let nsk := field ack 8 4 in
  coded H (hkey c) (rhm c) ack 16 /\ field ack 0 1 = 0 /\ n = field ack 12 4 /\
  exists p slots hd k1 k2,
    (* the request, then its slots *)
    coded H (hkey c) [] (piece D c 2 7) 96 /\ decode_preamble false (piece D c 2 7) 112 false 128 = PreOK p /\
    length slots = Z.to_nat (p_nslots p) /\ coded H (hkey c) [] (piece D c 9 (length slots + 1)) (16 * length slots) /\
    (forall i x, nth_error slots i = Some x -> decode_slot (octs_at (piece D c 9 (length slots + 1)) (16 * i) 16) = Some x) /\
    (* the packets not sent, then the records *)
    let i1 := (10 + length slots)%nat in let i2 := (i1 + k1 + 1)%nat in
    coded H (hkey c) [] (piece D c i1 (k1 + 1)) (16 * k1) /\
    coded H (hkey c) [] (piece D c i2 (k2 + 1)) (16 * k2) /\
    (* what the file consists of *)
    write_header junk (mkHdr 0 0 false (field ack 1 1) (field ack 4 4) nsk n 0 0 (p_sender p) (p_receiver p) (p_conf_sender p) (p_conf_receiver p) (p_sid p)
       (mkTSpec (p_start p) (p_timeout p) (p_typeP p) (p_padding p) (p_npackets p) (p_nslots p) (Some slots))) = Some hd /\
    (Z.to_nat (u32 (nsk * 8)) <= 16 * k1)%nat /\ (25 * Z.to_nat n <= 16 * k2)%nat /\
    g = hd ++ octs_at (piece D c i1 k1) 0 (Z.to_nat (u32 (nsk * 8))) ++ octs_at (piece D c i2 k2) 0 (25 * Z.to_nat n) /\
    inp c' = skipn (16 * (i2 + k2 + 1)) (inp c).
Proof. intros E D H BC BD OD. exact (fetch_authentic E D H BC BD OD). Qed.
Print Assumptions C81_authentic.

(** If anything is wrong the connection cannot be used any more; only a header that cannot be written
    leaves it usable. *)
Theorem C81_failed : forall E D H junk al sl c b e sid rc n g c',
  twoway c = false -> fetch_session E D H junk al sl c b e sid = (rc, n, g, c') -> rc <> ErrOK ->
  n = 0 /\ g = [] /\ (st c' = 0 \/ rc = ErrWARNING).
Proof.
  intros E D H junk al sl c b e sid rc n g c' TW R NE. unfold fetch_session in R. rewrite TW in R.
  destruct (write_fetch E H c b e sid) as [r1 c1]. destruct (r1 <? ErrWARNING). { inversion R; subst; auto. }
  destruct (read_fetch_ack D H c1) as [[r2 [[[[a fin] next] nskips] ndata]] c2] eqn:RA.
  destruct (r2 <? ErrWARNING) eqn:Q2. { inversion R; subst; auto. }
  assert (R2: r2 = ErrOK).
  { clear R. unfold read_fetch_ack in RA. destruct (negb (is_st StFetchAck c1)). { inversion RA; subst. discriminate. }
    destruct (recv_blocks D c1 0 2) as [[| |] x]; try (inversion RA; subst; discriminate).
    destruct (rhm_check H (rhm_add x 0 1) 16) as [ok y]. destruct (negb ok). { inversion RA; subst. discriminate. }
    destruct (get_accept (byte 0 (msg y)) =? CNTRL_INVALID); inversion RA; subst; [discriminate|reflexivity]. }
  destruct (negb (a =? CNTRL_ACCEPT)). { inversion R; subst. contradiction. }
  destruct (read_test_request D H c2 false al sl) as [[[r3 [q|]] a3] c3]; [|inversion R; subst; auto].
  destruct (negb (r3 =? ErrOK)). { inversion R; subst; auto. } cbv zeta in R.
  destruct (take_skips D c3 nskips) as [[skips|] c4]; [|inversion R; subst; auto].
  destruct (take_code D H c4) as [[|] c5]; [|inversion R; subst; auto].
  destruct (take_records D c5 ndata) as [[recs|] c6]; [|inversion R; subst; auto].
  destruct (take_code D H c6) as [[|] c7]; [|inversion R; subst; auto].
  match type of R with context [write_header junk ?hh] => destruct (write_header junk hh) end; inversion R; subst; [contradiction|auto].
Qed.
Print Assumptions C81_failed.

Lemma octets_check : forall l, forallb (fun x => (0 <=? x) && (x <? 256)) l = true -> octets l.
Proof.
  intros l A. apply Forall_forall. intros x I. rewrite forallb_forall in A. specialize (A x I). apply andb_prop in A. destruct A as (A1 & A2).
  apply Z.leb_le in A1. apply Z.ltb_lt in A2. split; assumption.
Qed.
(** the exchange above meets the hypotheses; if one octet of the record block is changed, the fetch fails *)
Definition toy_answer : list Z := outp (s_c (snd toy_served)).
Definition toy_fetch (os : list Z) := fetch_session toyE toyE toyH (repeat 170 112) true true (toy StRequest 4 false os) 4 5 sample_sid.
Example C81_case :
  wf (toy StRequest 4 false toy_answer) /\ ciphers (toy StRequest 4 false toy_answer) = true /\
  forallb (fun x => (0 <=? x) && (x <? 256)) toy_answer = true /\
  match toy_fetch toy_answer with (rc, n, g, c') => rc = ErrOK /\ n = 2 /\ length g = 258%nat end.
Proof. split; [apply toy_wf|]. vm_compute. repeat split. Qed.
Example C81_failed_case :
  match toy_fetch (upd 260 1 toy_answer) with (rc, n, g, c') => rc = ErrFATAL /\ st c' = 0 end.
Proof. vm_compute. split; reflexivity. Qed.
