(** Property theorems about what a fetch was asked for: C175.  Vocabulary: Fetch_Spec.v; [toy]: the connection of Props_Fetch. *)
From Coq Require Import ZArith List Bool Lia.
From Verif Require Import Base BaseLemmas Time_Model Sched_Model Wire_Model Wire_Spec Control_Model Control_Spec Stop_Model Stop_Proofs File_Model File_Spec
  Server_Model Fetch_Model Fetch_Spec Fetch_Proofs Toy Props_File Props_Fetch.
Import ListNotations.
Open Scope Z_scope.

(** The identifier in a file, as a reader finds it *)
Definition says_sid (g sid : list Z) : Prop := exists h pos, read_header g = Some (h, pos) /\ hd_sid h = sid.

(** The client asks for [sid] and the server, which keeps under each identifier a file that says so, answers: the file of the client says [sid] too.
    Missing: any other server, refuted below *)
Theorem C175_asked_partial : forall E D H, block_cipher E D -> digest20 H ->
  forall f fin next p slots skips recs files tries junk c s b e sid rc n g c' t s1 tests sess rs sv oc os,
  session_file f fin next p slots skips recs -> p_sid p = sid ->
  (fin = 1 -> recs = [] -> Z.of_nat (length f) < 152 + 16 * (Z.of_nat (length slots) + 1) + 25) ->
  files sid = Some tries -> (forall i, fst (tries i) = f /\ (fin = 1 \/ snd (tries i) = Locked f)) ->
  ~ (fin = 2 /\ b = 0 /\ e = 4294967295) ->
  octet_string 112 junk -> wf c -> wf s -> quiet c -> quiet s -> linked c s -> linked s c -> twoway c = false ->
  st c = StRequest -> st s = StRequest -> 0 <= b < 2^32 -> 0 <= e < 2^32 -> length sid = 16%nat ->
  (link_local (p_sender p) = true -> link_local (remote c) = true) ->
  (link_local (p_receiver p) = true -> link_local (remote c) = true) ->
  fetch_session E D H junk true true c b e sid = (rc, n, g, c') ->
  read_request_type D s = (t, s1) ->
  process_fetch E D H (mkSrv s1 tests sess) (fun b e sid => look (files sid) b e) = (rs, sv) ->
  sent c c' oc -> sent s (s_c sv) os -> inp s = oc -> inp c = os ->
  rc = ErrOK /\ says_sid g sid.
Proof.
  intros E D H BC HL f fin next p slots skips recs files tries junk c s b e sid rc n g c' t s1 tests sess rs sv oc os A1 A2 A3 A4 A5 A6 A7 A8 A9 A10 A11 A12 A13 A14 A15 A16 A17 A18 A19 A20 A21 A22 A23 A24 A25 A26 A27 A28.
  pose proof (C43_exchange E D H BC HL f fin next p slots skips recs files tries junk c s b e sid rc n g c' t s1 tests sess rs sv oc os
    A1 A3 A4 A5 A6 A7 A8 A9 A10 A11 A12 A13 A14 A15 A16 A17 A18 A19 A20 A21 A22 A23 A24 A25 A26 A27 A28) as (_ & _ & R & _ & (h & pos & RH & X) & _).
  split; [exact R|]. exists h, pos. split; [exact RH|]. rewrite <- A2. apply X.
Qed.

Definition other_sid : list Z := [99;98;97;96;5;6;7;8;9;10;11;12;13;14;15;16].

(** The client does not compare: if the server answers a request for one session with another one, the fetch succeeds and the file of the other session is stored *)
Theorem C175_other_refuted : exists n g c', other_sid <> sample_sid /\ length other_sid = 16%nat /\ wf (toy StRequest 4 false toy_answer) /\
  fetch_session toyE toyE toyH (repeat 170 112) true true (toy StRequest 4 false toy_answer) 4 5 other_sid = (ErrOK, n, g, c') /\ n = 2 /\ says_sid g sample_sid.
Proof.
  set (r := fetch_session toyE toyE toyH (repeat 170 112) true true (toy StRequest 4 false toy_answer) 4 5 other_sid).
  exists (snd (fst (fst r))), (snd (fst r)), (snd r). split; [discriminate|]. split; [reflexivity|]. split; [apply toy_wf|].
  assert (R : fst (fst (fst r)) = ErrOK) by (vm_compute; reflexivity). split; [rewrite <- R, <- !surjective_pairing; reflexivity|].
  split; [vm_compute; reflexivity|].
  assert (X : match read_header (snd (fst r)) with Some (h, _) => eqb_octets (hd_sid h) sample_sid | None => false end = true) by (vm_compute; reflexivity).
  unfold says_sid. destruct (read_header (snd (fst r))) as [[h pos]|]; [|discriminate]. exists h, pos. split; [reflexivity|]. apply eqb_octets_spec. exact X.
Qed.

(** the session of C43_example is one its server keeps under its own identifier *)
Example C175_case : p_sid served_preamble = sample_sid /\ says_sid (snd (fst toy_fetched)) sample_sid /\ snd (fst (fst toy_fetched)) = 2.
Proof.
  split; [reflexivity|]. split; [|vm_compute; reflexivity]. unfold says_sid.
  assert (X : match read_header (snd (fst toy_fetched)) with Some (h, _) => eqb_octets (hd_sid h) sample_sid | None => false end = true) by (vm_compute; reflexivity).
  destruct (read_header (snd (fst toy_fetched))) as [[h pos]|]; [|discriminate]. exists h, pos. split; [reflexivity|]. apply eqb_octets_spec. exact X.
Qed.

Print Assumptions C175_asked_partial.
Print Assumptions C175_other_refuted.
