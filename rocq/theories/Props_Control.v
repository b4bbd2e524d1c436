(** Property theorems C16-C19: the control connection.
    [wf], [quiet], [linked], [sent], [agree], [incoming], [coded], [chained] are in Control_Spec.v,
    the histories of C19 ([serve], [worked], [allowed], [obeys]) in Server_Spec.v.  In every theorem
    E, D and H stand for AES encryption, AES decryption and HMAC-SHA1, about which nothing else than
    the stated hypotheses is used. *)
From Coq Require Import ZArith List Bool Lia.
From Verif Require Import Base BaseLemmas Sched_Model Wire_Model Wire_Spec Wire_Proofs Control_Model Control_Spec Control_Proofs
  Control_State Control_Integrity Stop_Model Setup_Model Server_Model Server_Spec Server_State Toy.
Import ListNotations.
Open Scope Z_scope.

(** ** C16: what one side writes is what the other side reads *)

Theorem C16_accept_session : forall E D H, block_cipher E D -> digest20 H -> forall c c' s a port sid o rest,
  wf c -> wf s -> quiet s -> linked c s ->
  accept_code a -> 0 <= port < 2^16 -> match sid with Some x => length x = 16%nat | None => True end ->
  is_st StAcceptSession s = true ->
  write_accept E H c a port sid = (ErrOK, c') -> sent c c' o -> inp s = o ++ rest ->
  exists s', read_accept D H s = (ErrOK, (a, port, match sid with Some x => x | None => zeros 16 end), s') /\
    agree c' s' rest /\
    st c' = Z.ldiff (st c) StAcceptSession /\ st s' = Z.ldiff (st s) StAcceptSession.
Proof. intros E D H BC HL. exact (accept_roundtrip E D H BC HL). Qed.
Print Assumptions C16_accept_session.

Theorem C16_start_ack : forall E D H, block_cipher E D -> digest20 H -> forall c c' s a o rest,
  wf c -> wf s -> quiet s -> linked c s -> accept_code a ->
  is_st StStartAck s = true ->
  write_start_ack E H c a = (ErrOK, c') -> sent c c' o -> inp s = o ++ rest ->
  exists s', read_start_ack D H s = (ErrOK, a, s') /\ agree c' s' rest /\
    st c' = (if a =? 0 then Z.ldiff (st c) StStartAck else Z.ldiff (Z.ldiff (st c) StStartAck) StTest) /\
    st s' = (if a =? 0 then Z.ldiff (st s) StStartAck else Z.lor (Z.ldiff (Z.ldiff (st s) StStartAck) StTest) StRequest).
Proof. intros E D H BC HL. exact (start_ack_roundtrip E D H BC HL). Qed.
Print Assumptions C16_start_ack.

Theorem C16_fetch_ack : forall E D H, block_cipher E D -> digest20 H -> forall c c' s a fin next nsk ndata o rest,
  wf c -> wf s -> quiet s -> linked c s -> accept_code a -> 0 <= fin < 2^8 ->
  0 <= next < 2^32 -> 0 <= nsk < 2^32 -> 0 <= ndata < 2^32 ->
  is_st StFetchAck s = true ->
  write_fetch_ack E H c a fin next nsk ndata = (ErrOK, c') -> sent c c' o -> inp s = o ++ rest ->
  exists s', read_fetch_ack D H s =
      (ErrOK, (a, fin, if fin =? 0 then 0 else next, if fin =? 0 then 0 else nsk, ndata), s') /\
    agree c' s' rest /\
    st c' = (if a =? 0 then Z.ldiff (st c) StFetchAck else Z.lor (Z.ldiff (Z.ldiff (st c) StFetchAck) StFetching) StRequest) /\
    st s' = Z.lor (Z.ldiff (Z.ldiff (st s) StFetchAck) StFetchSession)
      (if a =? 0 then if twoway s then StTestRequestTW else StTestRequest else StRequest).
Proof. intros E D H BC HL. exact (fetch_ack_roundtrip E D H BC HL). Qed.
Print Assumptions C16_fetch_ack.

Theorem C16_start_sessions : forall E D H, block_cipher E D -> digest20 H -> forall c c' s o rest,
  wf c -> wf s -> quiet s -> linked c s -> st s = StRequest ->
  write_start E H c = (ErrOK, c') -> sent c c' o -> inp s = o ++ rest ->
  exists s1 s', read_request_type D s = (2, s1) /\ read_start D H s1 = (ErrOK, s') /\ agree c' s' rest /\
    st c' = Z.lor (Z.lor (st c) StStartAck) StTest /\ st s' = StRequest + StStartAck + StTest.
Proof. intros E D H BC HL. exact (start_roundtrip E D H BC HL). Qed.
Print Assumptions C16_start_sessions.

Theorem C16_fetch_session : forall E D H, block_cipher E D -> digest20 H -> forall c c' s b e sid o rest,
  wf c -> wf s -> quiet s -> linked c s -> st s = StRequest ->
  0 <= b < 2^32 -> 0 <= e < 2^32 -> length sid = 16%nat ->
  write_fetch E H c b e sid = (ErrOK, c') -> sent c c' o -> inp s = o ++ rest ->
  exists s1 s', read_request_type D s = (4, s1) /\ read_fetch D H s1 = (ErrOK, (b, e, sid), s') /\ agree c' s' rest /\
    st s' = StFetchAck + StFetching.
Proof. intros E D H BC HL. exact (fetch_roundtrip E D H BC HL). Qed.
Print Assumptions C16_fetch_session.

Theorem C16_test_request : forall E D H, block_cipher E D -> digest20 H -> forall c c' s snd rcv cs cr sid t slots o rest,
  wf c -> wf s -> quiet s -> linked c s -> twoway c = false -> octets (msg c) -> st s = StRequest ->
  sa_ok snd -> sa_ok rcv -> tspec_ok t -> octet_string 16 sid ->
  ts_slots t = Some slots -> ts_nslots t = Z.of_nat (length slots) -> Forall slot_ok slots ->
  (link_local snd = true -> link_local (remote s) = true) ->
  (link_local rcv = true -> link_local (remote s) = true) ->
  write_test_request E H c snd rcv cs cr false (Some sid) t = (ErrOK, c') -> sent c c' o -> inp s = o ++ rest ->
  exists s1 s', read_request_type D s = (1, s1) /\
    read_test_request D H s1 true true true =
      (ErrOK, Some (mkReq (mkSA (sa_family snd) (if cs then 0 else sa_port snd) (sa_addr snd))
                          (mkSA (sa_family rcv) (if cr then 0 else sa_port rcv) (sa_addr rcv)) cs cr sid t),
       CNTRL_ACCEPT, s') /\
    agree c' s' rest /\ st c' = Z.lor (st c) StAcceptSession /\ st s' = StRequest + StAcceptSession.
Proof. intros E D H BC HL. exact (request_roundtrip E D H BC HL). Qed.
Print Assumptions C16_test_request.

Theorem C16_test_request_two_way : forall E D H, block_cipher E D -> digest20 H -> forall c c' s snd rcv cs cr sid t o rest,
  wf c -> wf s -> quiet s -> linked c s -> twoway c = true -> octets (msg c) -> st s = StRequest ->
  sa_ok snd -> sa_ok rcv -> tspec_ok t -> octet_string 16 sid ->
  (link_local snd = true -> link_local (remote s) = true) ->
  (link_local rcv = true -> link_local (remote s) = true) ->
  write_test_request E H c snd rcv cs cr false (Some sid) t = (ErrOK, c') -> sent c c' o -> inp s = o ++ rest ->
  exists s1 s', read_request_type D s = (5, s1) /\
    read_test_request D H s1 true true true =
      (ErrOK, Some (mkReq (set_if_unspec (remote s) snd) (set_if_unspec (local s) rcv) false false (zeros 16)
                          (mkTSpec (ts_start t) (ts_timeout t) (ts_typeP t) (ts_padding t) 0 0 None)),
       CNTRL_ACCEPT, s') /\
    agree c' s' rest /\ st c' = Z.lor (st c) StAcceptSession.
Proof. intros E D H BC HL. exact (request_tw_roundtrip E D H BC HL). Qed.
Print Assumptions C16_test_request_two_way.

Theorem C16_greeting : forall c c' s modes chal salt count o rest,
  wf c -> wf s -> quiet s -> st s = 0 ->
  0 <= modes < 2^32 -> length chal = 16%nat -> length salt = 16%nat -> 0 <= count < 2^32 ->
  write_greeting c modes chal salt count = (ErrOK, c') -> sent c c' o -> inp s = o ++ rest ->
  exists s', read_greeting s = (ErrOK, (modes, chal, salt, count), s') /\ inp s' = rest /\
    st c' = StSetup /\ st s' = StSetup /\ wf c' /\ wf s' /\ quiet s'.
Proof. exact greeting_roundtrip. Qed.
Print Assumptions C16_greeting.

Theorem C16_setup_response : forall c c' s userid token o rest,
  wf c -> wf s -> quiet s -> st s = StSetup -> 0 <= mode c < 2^32 -> length userid = 80%nat -> length token = 64%nat ->
  write_setup c userid token = (ErrOK, c') -> sent c c' o -> inp s = o ++ rest ->
  exists s', read_setup s =
    (ErrOK, (mode c, (if ciphers c then userid else zeros 80), (if ciphers c then token else zeros 64),
             (if ciphers c then wiv c else zeros 16)), s') /\
    inp s' = rest /\ st c' = st c /\ st s' = StSetup /\ wf c' /\ wf s' /\ quiet s'.
Proof. exact setup_roundtrip. Qed.
Print Assumptions C16_setup_response.

Theorem C16_server_start : forall E D, block_cipher E D -> forall c c' s uptime o rest,
  wf c -> wf s -> quiet s -> st s = StSetup -> 0 <= uptime < 2^64 ->
  mode c = mode s -> twoway c = twoway s -> key c = key s -> hkey c = hkey s -> shm c = rhm s ->
  write_server_start E c CNTRL_ACCEPT uptime = (ErrOK, c') -> sent c c' o -> inp s = o ++ rest ->
  exists s', read_server_start D s = (ErrOK, (CNTRL_ACCEPT, uptime), s') /\ agree c' s' rest /\
    st c' = StRequest /\ st s' = StRequest.
Proof. intros E D BC. exact (server_start_roundtrip E D BC). Qed.
Print Assumptions C16_server_start.

(** A reader is left either with a message whose accept code is one of the protocol's, or with a
    dead connection. *)
Theorem C16_reader_accepts_known_codes_only : forall D H s,
  (forall rc a p sid s', read_accept D H s = (rc, (a, p, sid), s') -> is_st StAcceptSession s = true ->
     (rc = ErrOK /\ accept_code a) \/ (rc = ErrFATAL /\ st s' = StInvalid)) /\
  (forall rc a s', read_start_ack D H s = (rc, a, s') -> is_st StStartAck s = true ->
     (rc = ErrOK /\ accept_code a) \/ (rc = ErrFATAL /\ st s' = StInvalid)) /\
  (forall rc a f n k d s', read_fetch_ack D H s = (rc, (a, f, n, k, d), s') -> is_st StFetchAck s = true ->
     (rc = ErrOK /\ accept_code a) \/ (rc = ErrFATAL /\ st s' = StInvalid)) /\
  (forall rc a u s', read_server_start D s = (rc, (a, u), s') -> st s = StSetup ->
     (rc = ErrOK /\ accept_code a) \/ (rc = ErrFATAL /\ st s' = StInvalid)).
Proof.
  intros D H s. repeat split; intros.
  - eapply accept_or_dead; eauto.
  - eapply start_ack_or_dead; eauto.
  - eapply fetch_ack_or_dead; eauto.
  - eapply server_start_or_dead; eauto.
Qed.
Print Assumptions C16_reader_accepts_known_codes_only.

Theorem C16_reader_accepts_known_requests_only : forall D s t s', read_request_type D s = (t, s') ->
  is_st StRequest s = true -> is_st StReading s = false ->
  (1 <= t <= 5 /\ (t = 3 <-> is_st StTest s = true)) \/ st s' = StInvalid.
Proof. exact type_or_dead. Qed.
Print Assumptions C16_reader_accepts_known_requests_only.

(** an encrypted Accept-Session, written and read *)
Example C16_example :
  let c := toy (StRequest + StAcceptSession) MODE_ENCR false [] in
  let sid := [1;2;3;4;5;6;7;8;9;10;11;12;13;14;15;16] in
  exists c' o, write_accept toyE toyH c CNTRL_REJECT 8760 (Some sid) = (ErrOK, c') /\ sent c c' o /\ length o = 48%nat /\
    let s := toy (StRequest + StAcceptSession) MODE_ENCR false (o ++ [1;2;3]) in
    wf c /\ wf s /\ quiet s /\ linked c s /\ accept_code CNTRL_REJECT /\
    exists s', read_accept toyE toyH s = (ErrOK, (CNTRL_REJECT, 8760, sid), s') /\ inp s' = [1;2;3] /\ o <> octs_at (msg s') 0 48.
Proof.
  intros c sid. set (r := write_accept toyE toyH c CNTRL_REJECT 8760 (Some sid)).
  exists (snd r), (outp (snd r)).
  split; [vm_compute; reflexivity|]. split; [vm_compute; reflexivity|]. split; [vm_compute; reflexivity|]. intros s.
  split; [repeat split|]. split; [repeat split|]. split; [constructor|]. split; [repeat split|]. split; [vm_compute; split; discriminate|].
  exists (snd (read_accept toyE toyH s)). split; [vm_compute; reflexivity|]. split; [vm_compute; reflexivity|]. vm_compute. discriminate.
Qed.

(** ** C17: however the sender groups the plaintext into writes and the receiver into reads *)

Theorem C17_stream_roundtrip : forall E D, block_cipher E D -> forall pieces reads c c' s o rest,
  wf c -> wf s -> quiet s -> linked c s ->
  Forall (fun p => (length p <= 400)%nat /\ exists n, length p = (16 * n)%nat) pieces ->
  Forall (fun n => (n <= 25)%nat) reads ->
  length (concat pieces) = (16 * fold_right Nat.add 0%nat reads)%nat ->
  send_all E c pieces = Some c' -> sent c c' o -> inp s = o ++ rest ->
  exists s', recv_all D s reads = Some (concat pieces, s') /\ agree c' s' rest.
Proof. exact stream_roundtrip. Qed.
Print Assumptions C17_stream_roundtrip.

(** what is on the wire is one cipher-block chain over all messages *)
Theorem C17_stream_is_one_chain : forall E D, block_cipher E D -> forall pieces c c' o,
  wf c -> ciphers c = true ->
  Forall (fun p => (length p <= 400)%nat /\ exists n, length p = (16 * n)%nat) pieces ->
  send_all E c pieces = Some c' -> sent c c' o ->
  exists plain cipher, concat pieces = concat plain /\ o = concat cipher /\
    Forall (fun b => length b = 16%nat) plain /\ chained E (key c) (wiv c) plain cipher.
Proof. exact stream_chained. Qed.
Print Assumptions C17_stream_is_one_chain.

Example C17_example :
  let c := toy StRequest MODE_AUTH false [] in
  let pieces := [repeat 1 16; repeat 2 48; repeat 3 32] in
  exists c', send_all toyE c pieces = Some c' /\
    let s := toy StRequest MODE_AUTH false (outp c') in
    option_map fst (recv_all toyE s [3%nat; 1%nat; 2%nat]) = Some (concat pieces) /\ outp c' <> concat pieces.
Proof.
  intros c pieces. destruct (send_all toyE c pieces) as [c'|] eqn:S; [|vm_compute in S; discriminate].
  exists c'. split; [reflexivity|]. vm_compute in S. inversion S; subst. clear S. split; vm_compute; [reflexivity|discriminate].
Qed.

(** ** C18: a message is used only if its code is the keyed hash of exactly its octets *)

Theorem C18_accept_session : forall D H, blocks16 D -> forall s rc a p sid s',
  wf s -> ciphers s = true -> read_accept D H s = (rc, (a, p, sid), s') ->
  let m := incoming D s 3 in
  (rc = ErrOK -> coded H (hkey s) (rhm s) m 32 /\ a = field m 0 1 /\ p = field m 2 2 /\ sid = octs_at m 4 16) /\
  (is_st StAcceptSession s = true -> quiet s -> (48 <= length (inp s))%nat ->
   ~ coded H (hkey s) (rhm s) m 32 -> rc <> ErrOK /\ st s' = StInvalid).
Proof. intros D H BD s rc a p sid s'. apply accept_checked. exact BD. Qed.
Print Assumptions C18_accept_session.

Theorem C18_start_ack : forall D H, blocks16 D -> forall s rc a s',
  wf s -> ciphers s = true -> read_start_ack D H s = (rc, a, s') ->
  let m := incoming D s 2 in
  (rc = ErrOK -> coded H (hkey s) (rhm s) m 16 /\ a = field m 0 1) /\
  (is_st StStartAck s = true -> quiet s -> (32 <= length (inp s))%nat ->
   ~ coded H (hkey s) (rhm s) m 16 -> rc <> ErrOK /\ st s' = StInvalid).
Proof. intros D H BD s rc a s'. apply start_ack_checked. exact BD. Qed.
Print Assumptions C18_start_ack.

Theorem C18_fetch_ack : forall D H, blocks16 D -> forall s rc a fin next nsk nd s',
  wf s -> ciphers s = true -> read_fetch_ack D H s = (rc, (a, fin, next, nsk, nd), s') ->
  let m := incoming D s 2 in
  (rc = ErrOK -> coded H (hkey s) (rhm s) m 16 /\ a = field m 0 1 /\ fin = field m 1 1 /\
                 next = field m 4 4 /\ nsk = field m 8 4 /\ nd = field m 12 4) /\
  (is_st StFetchAck s = true -> quiet s -> (32 <= length (inp s))%nat ->
   ~ coded H (hkey s) (rhm s) m 16 -> rc <> ErrOK /\ st s' = StInvalid).
Proof. intros D H BD s rc a fin next nsk nd s'. apply fetch_ack_checked. exact BD. Qed.
Print Assumptions C18_fetch_ack.

Theorem C18_start_sessions : forall D H, blocks16 D -> forall s s1 rc s',
  wf s -> ciphers s = true -> read_request_type D s = (2, s1) -> read_start D H s1 = (rc, s') ->
  let m := incoming D s 2 in
  (rc = ErrOK -> coded H (hkey s) (rhm s) m 16) /\
  (quiet s -> (32 <= length (inp s))%nat -> ~ coded H (hkey s) (rhm s) m 16 -> rc <> ErrOK /\ st s' = StInvalid).
Proof. intros D H BD s s1 rc s'. apply start_checked. exact BD. Qed.
Print Assumptions C18_start_sessions.

Theorem C18_fetch_session : forall D H, blocks16 D -> forall s s1 rc b e sid s',
  wf s -> ciphers s = true -> read_request_type D s = (4, s1) -> read_fetch D H s1 = (rc, (b, e, sid), s') ->
  let m := incoming D s 3 in
  (rc = ErrOK -> coded H (hkey s) (rhm s) m 32 /\ b = field m 8 4 /\ e = field m 12 4 /\ sid = octs_at m 16 16) /\
  (twoway s = false -> quiet s -> (48 <= length (inp s))%nat ->
   ~ coded H (hkey s) (rhm s) m 32 -> rc <> ErrOK /\ st s' = StInvalid).
Proof. intros D H BD s s1 rc b e sid s'. apply fetch_checked. exact BD. Qed.
Print Assumptions C18_fetch_session.

(** a test request carries two codes: one behind its 96 octets, one behind its slots *)
Theorem C18_test_request : forall D H, blocks16 D -> forall s t s1 al sl rc q a s',
  wf s -> ciphers s = true -> read_request_type D s = (t, s1) ->
  t = (if twoway s then 5 else 1) -> read_test_request D H s1 true al sl = (rc, q, a, s') ->
  let m := incoming D s 7 in
  (rc = ErrOK ->
     coded H (hkey s) (rhm s) m 96 /\
     (twoway s = false -> exists r l, q = Some r /\ ts_slots (q_spec r) = Some l /\
        coded H (hkey s) [] (skipn 112 (incoming D s (8 + length l))) (16 * length l) /\
        inp s' = skipn (16 * (8 + length l)) (inp s))) /\
  (quiet s -> (112 <= length (inp s))%nat -> ~ coded H (hkey s) (rhm s) m 96 -> rc <> ErrOK /\ st s' = StInvalid).
Proof. intros D H BD s t s1 al sl rc q a s'. apply test_checked. exact BD. Qed.
Print Assumptions C18_test_request.

(** a stop message of any length: its last block is the code of all its other blocks *)
Theorem C18_stop_sessions : forall D H, blocks16 D -> forall clean save s s1 ts rc a ts' fs s',
  wf s -> ciphers s = true -> read_request_type D s = (3, s1) ->
  read_stop D H clean save s1 ts = (rc, a, ts', fs, s') ->
  (rc = ErrOK -> exists n, coded H (hkey s) (rhm s) (incoming D s (n + 1)) (16 * n) /\
                           inp s' = skipn (16 * (n + 1)) (inp s)) /\
  (rc <> ErrOK -> is_st StRequest s1 && is_st StTest s1 = true -> st s' = StInvalid).
Proof. intros D H BD clean save s s1 ts rc a ts' fs s'. apply stop_checked. exact BD. Qed.
Print Assumptions C18_stop_sessions.

(** On an invalid one-way connection no call works any more and nothing is read or written. *)
Theorem C18_invalid_connection_is_dead : forall E D H ks s, twoway (s_c s) = false -> st (s_c s) = StInvalid ->
  Forall (fun e => worked e = false) (fst (serve E D H ks s)) /\ s_c (snd (serve E D H ks s)) = s_c s.
Proof. exact dead_history. Qed.
Print Assumptions C18_invalid_connection_is_dead.

(** one altered octet in an encrypted Accept-Session *)
Example C18_example :
  let c := toy (StRequest + StAcceptSession) MODE_ENCR false [] in
  let o := outp (snd (write_accept toyE toyH c CNTRL_ACCEPT 8760 None)) in
  let s := toy (StRequest + StAcceptSession) MODE_ENCR false (upd 15 1 o) in
  wf s /\ ciphers s = true /\ quiet s /\ (48 <= length (inp s))%nat /\
  ~ coded toyH (hkey s) (rhm s) (incoming toyE s 3) 32 /\
  fst (fst (read_accept toyE toyH s)) = ErrFATAL.
Proof.
  intros c o s. split; [repeat split|]. split; [reflexivity|]. split; [constructor|]. split; [vm_compute; repeat constructor|].
  split; [vm_compute; discriminate|vm_compute; reflexivity].
Qed.

(** ** C19 *)

(** Any calls in any order with any outcome of everything else, from a freshly set-up one-way
    connection: whatever works was allowed to work. *)
Theorem C19_one_way_histories_obey : forall E D H ks s, twoway (s_c s) = false -> st (s_c s) = StRequest ->
  obeys false (mkView false None false) (fst (serve E D H ks s)).
Proof. exact serve_from_start. Qed.
Print Assumptions C19_one_way_histories_obey.

Theorem C19_invalid_stays_invalid : forall E D H ks s, twoway (s_c s) = false -> st (s_c s) = StInvalid ->
  Forall (fun e => worked e = false) (fst (serve E D H ks s)) /\ st (s_c (snd (serve E D H ks s))) = StInvalid.
Proof. intros E D H ks s TW S. destruct (dead_history E D H ks s TW S) as [A B]. split; [exact A|congruence]. Qed.
Print Assumptions C19_invalid_stays_invalid.

(** a history that does something: a start request is read and acknowledged, a second start request
    is refused, a stop request is accepted *)
Example C19_example :
  let s := mkSrv (toy StRequest MODE_OPEN false (2 :: zeros 31 ++ 3 :: zeros 15)) [] [] in
  map worked (fst (serve toyE toyE toyH [CRead; CStart []; CStart []; CRead] s)) = [true; true; false; false] /\
  map worked (fst (serve toyE toyE toyH [CRead; CStart []; CRead] s)) = [true; true; true].
Proof. split; vm_compute; reflexivity. Qed.

(** On a two-way connection both halves fail.  A second request can be read while the first is still
    being read ... *)
Theorem C19_two_way_histories_refuted : exists s ks, forall E D H,
  twoway (s_c s) = true /\ st (s_c s) = StRequest /\ ~ obeys true (mkView false None false) (fst (serve E D H ks s)).
Proof.
  exists (mkSrv (toy StRequest MODE_OPEN true (5 :: zeros 15 ++ 5 :: zeros 15)) [] []), [CRead; CRead].
  intros E D H. split; [reflexivity|]. split; [reflexivity|].
  assert (X: exists t, fst (serve E D H [CRead; CRead] (mkSrv (toy StRequest MODE_OPEN true (5 :: zeros 15 ++ 5 :: zeros 15)) [] [])) =
    [(CRead, 5); (CRead, t)] /\ t = 5) by (eexists; split; vm_compute; reflexivity).
  destruct X as (t & X & ->). rewrite X. intros (_ & O & _). destruct (O eq_refl) as [B _]. discriminate.
Qed.
Print Assumptions C19_two_way_histories_refuted.

(** ... and OWPUnexpectedRequestType brings an invalid connection back into use. *)
Theorem C19_two_way_invalid_stays_invalid_refuted : exists s ks, forall E D H,
  twoway (s_c s) = true /\ st (s_c s) = StInvalid /\
  map worked (fst (serve E D H ks s)) = [true; true].
Proof.
  exists (mkSrv (toy StInvalid MODE_OPEN true (2 :: zeros 31)) [] []), [CUnexpected; CRead].
  intros E D H. split; [reflexivity|]. split; [reflexivity|]. vm_compute. reflexivity.
Qed.
Print Assumptions C19_two_way_invalid_stays_invalid_refuted.

(** In a two-way request an address that is given is kept; the unspecified address (all zero) stands for
    that of the control connection, if it is of the same family; the port is always the one given. *)
Theorem C16_two_way_addresses : forall conn given,
  sa_family (set_if_unspec conn given) = sa_family given /\ sa_port (set_if_unspec conn given) = sa_port given /\
  ((exists x, In x (sa_addr given) /\ x <> 0) -> set_if_unspec conn given = given) /\
  (Forall (fun x => x = 0) (sa_addr given) -> sa_family given = AF_INET \/ sa_family given = AF_INET6 -> sa_family conn = sa_family given ->
   sa_addr (set_if_unspec conn given) = sa_addr conn).
Proof.
  intros conn [fam port addr]. unfold set_if_unspec. cbn [sa_family sa_addr sa_port].
  assert (Z0: forallb (Z.eqb 0) addr = true <-> Forall (fun x => x = 0) addr).
  { rewrite forallb_forall, Forall_forall. split; intros A x I; specialize (A x I); [now apply Z.eqb_eq in A|subst x; reflexivity]. }
  assert (NZ: (exists x, In x addr /\ x <> 0) -> forallb (Z.eqb 0) addr = false).
  { intros (x & I & N). apply Bool.not_true_is_false. intros E. apply Z0 in E. rewrite Forall_forall in E. apply N. now apply E. }
  split; [destruct fam; try reflexivity; destruct (_ && _); reflexivity|]. split; [destruct fam; try reflexivity; destruct (_ && _); reflexivity|]. split.
  - intros X. rewrite (NZ X). cbn [andb]. destruct fam; reflexivity.
  - intros X F C. rewrite C. rewrite (proj2 Z0 X). destruct F as [-> | ->]; reflexivity.
Qed.
Print Assumptions C16_two_way_addresses.
Example C16_two_way_addresses_example : set_if_unspec (mkSA AF_INET 861 [192;0;2;1]) (mkSA AF_INET 9000 [0;0;0;0]) = mkSA AF_INET 9000 [192;0;2;1] /\
  set_if_unspec (mkSA AF_INET 861 [192;0;2;1]) (mkSA AF_INET 9000 [10;0;0;0]) = mkSA AF_INET 9000 [10;0;0;0].
Proof. split; reflexivity. Qed.
