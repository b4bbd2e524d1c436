(** Property theorems about connections: C130 (which address is used), C131 (descriptors of the client), C132 (socket of the server), C133 (pass phrases in memory) *)
From Coq Require Import ZArith List Bool Arith Lia.
From Verif Require Import Base BaseLemmas Control_Model Setup_Model Connect_Model.
From Verif Require Setup_Select Setup_Spec Toy Props_Setup.
Import ListNotations.
Open Scope nat_scope.

(** everything that is done for the address succeeds *)
Definition works (a : address) : bool := a_socket a && a_interface a && a_bind a && a_connect a && a_set a && a_local a.
(** the addresses in the order in which they are tried *)
Definition order (only4 only6 : bool) (l : list address) : list address :=
  (if only4 then [] else filter (fun a => is_v6 (a_fam a)) l) ++ (if only6 then [] else filter (fun a => is_v4 (a_fam a)) l).

Section S.
Variable pick : list nat -> nat.
Hypothesis fresh : forall l, ~ In (pick l) l.

Lemma drop_notin : forall fd l, ~ In fd l -> drop fd l = l.
Proof. intros fd l N. apply notin_remove. exact N. Qed.
Lemma close_new : forall s st, close (pick (opens s)) (Sys (pick (opens s) :: opens s) st (stray s)) = Sys (opens s) st (stray s).
Proof.
  intros s st. unfold close. cbn [opens existsb]. rewrite Nat.eqb_refl. cbn [orb]. cbn [stored stray]. f_equal. unfold drop. cbn [remove].
  destruct (Nat.eq_dec _ _) as [_|N]; [|congruence]. apply drop_notin, fresh.
Qed.
Lemma try_works : forall a s, fst (try_addr pick a s) = works a.
Proof.
  intros a s. unfold try_addr, works, socket. destruct (a_socket a), (a_interface a), (a_bind a), (a_connect a), (a_set a), (a_local a); reflexivity.
Qed.
Lemma try_all_find : forall sel l s, fst (try_all pick sel l s) = find works (filter (fun a => sel (a_fam a)) l).
Proof.
  intros sel. induction l as [|a l IH]; intros s; cbn [try_all filter find]; [reflexivity|]. destruct (sel (a_fam a)); cbn [negb find]; [|apply IH].
  pose proof (try_works a s) as W. destruct (try_addr pick a s) as ([|], s1); cbn [fst] in W; rewrite <- W; [reflexivity|apply IH].
Qed.
Lemma find_app : forall {A} (f : A -> bool) l m, find f (l ++ m) = match find f l with Some x => Some x | None => find f m end.
Proof. intros A f. induction l as [|a l IH]; intros m; cbn [app find]; [reflexivity|]. destruct (f a); auto. Qed.

(** ** C130: the first address that works is used, IPv6 first *)

Theorem C130_first : forall only4 only6 l s, fst (client_connect pick only4 only6 l s) = find works (order only4 only6 l).
Proof.
  intros only4 only6 l s. unfold client_connect, order. rewrite find_app.
  assert (X : forall s1, fst (if only6 then (None, s1) else try_all pick is_v4 l s1) = find works (if only6 then [] else filter (fun a => is_v4 (a_fam a)) l)).
  { intros s1. destruct only6; [reflexivity|apply try_all_find]. }
  destruct only4; cbn [find]; [apply X|]. pose proof (try_all_find is_v6 l s) as W. destruct (try_all pick is_v6 l s) as ([a|], s1); cbn [fst] in W; rewrite <- W; [reflexivity|apply X].
Qed.
(** There is a connection exactly if some address of a family that is allowed works *)
Theorem C130_connects : forall only4 only6 l s,
  (exists a, fst (client_connect pick only4 only6 l s) = Some a) <->
  exists a, In a l /\ works a = true /\ ((a_fam a = V6 /\ only4 = false) \/ (a_fam a = V4 /\ only6 = false)).
Proof.
  intros only4 only6 l s. rewrite C130_first. split.
  - intros (a & F). apply find_some in F. destruct F as (I & W). exists a. unfold order in I. apply in_app_or in I.
    destruct I as [I|I]; [destruct only4; [destruct I|]|destruct only6; [destruct I|]]; apply filter_In in I; destruct I as (I & T); (split; [exact I|split; [exact W|]]); destruct (a_fam a); try discriminate T; auto.
  - intros (a & I & W & T). destruct (find works (order only4 only6 l)) as [b|] eqn:F; [now exists b|]. exfalso.
    assert (J : In a (order only4 only6 l)).
    { unfold order. apply in_or_app. destruct T as [(T & ->)|(T & ->)]; [left|right]; apply filter_In; (split; [exact I|]); rewrite T; reflexivity. }
    pose proof (find_none _ _ F a J). congruence.
Qed.

(** ** C131: the client has one more descriptor while it is connected, and none when it is not *)

Lemma try_addr_sys : forall a s, (a_connect a = true -> a_set a = true -> a_local a = true) ->
  snd (try_addr pick a s) = if works a then Sys (pick (opens s) :: opens s) (Some (pick (opens s))) (stray s) else s.
Proof.
  intros a s L. unfold try_addr, works, socket. destruct s as (o, st, sy).
  pose proof (close_new (Sys o st sy) st) as C. cbn [opens stored stray] in *.
  destruct (a_socket a); cbn [negb andb snd]; [|reflexivity]. destruct (a_interface a); cbn [negb andb snd]; [|exact C]. destruct (a_bind a); cbn [negb andb snd]; [|exact C].
  destruct (a_connect a); cbn [negb andb snd]; [|exact C]. destruct (a_set a); cbn [negb andb snd]; [|exact C]. rewrite L by reflexivity. reflexivity.
Qed.
Lemma try_all_sys : forall sel l s, (forall a, In a l -> a_connect a = true -> a_set a = true -> a_local a = true) ->
  snd (try_all pick sel l s) = match fst (try_all pick sel l s) with Some _ => Sys (pick (opens s) :: opens s) (Some (pick (opens s))) (stray s) | None => s end.
Proof.
  intros sel. induction l as [|a l IH]; intros s L; cbn [try_all]; [reflexivity|]. destruct (sel (a_fam a)); cbn [negb]; [|apply IH; intros; apply L; [now right|..]; assumption].
  pose proof (try_addr_sys a s (L a (or_introl eq_refl))) as X. pose proof (try_works a s) as W. destruct (try_addr pick a s) as ([|], s1); cbn [fst snd] in *; rewrite <- W in X; subst s1; [reflexivity|].
  apply IH. intros; apply L; [now right|..]; assumption.
Qed.
(** If I2AddrByLocalSockFD does not fail for a connected socket: a connection has one descriptor, stored in the record of the address; without one, there is none; after
    OWPControlClose, or if OWPControlOpen fails, the descriptors are those of before, and nothing is closed that is not open.  Missing: I2AddrByLocalSockFD fails, refuted below *)
Theorem C131_client_partial : forall only4 only6 l s, stored s = None -> (forall a, In a l -> a_connect a = true -> a_set a = true -> a_local a = true) ->
  (forall a, fst (client_connect pick only4 only6 l s) = Some a -> exists fd, ~ In fd (opens s) /\ snd (client_connect pick only4 only6 l s) = Sys (fd :: opens s) (Some fd) (stray s)) /\
  (fst (client_connect pick only4 only6 l s) = None -> snd (client_connect pick only4 only6 l s) = s) /\
  open_and_close pick only4 only6 l s = s.
Proof.
  intros only4 only6 l s N L.
  assert (X : snd (client_connect pick only4 only6 l s) = match fst (client_connect pick only4 only6 l s) with Some _ => Sys (pick (opens s) :: opens s) (Some (pick (opens s))) (stray s) | None => s end).
  { unfold client_connect. pose proof (try_all_sys is_v6 l s L) as A. pose proof (try_all_sys is_v4 l s L) as B.
    destruct only4; [destruct only6; [reflexivity|exact B]|]. destruct (try_all pick is_v6 l s) as ([a|], s1); cbn [fst snd] in *; subst s1; [reflexivity|]. destruct only6; [reflexivity|exact B]. }
  split; [intros a F; rewrite F in X; exists (pick (opens s)); split; [apply fresh|exact X]|]. split; [intros F; rewrite F in X; exact X|].
  unfold open_and_close. rewrite X. destruct (fst (client_connect pick only4 only6 l s)).
  - unfold free_record. cbn [stored]. rewrite close_new. cbn [opens stray]. destruct s as (o, st, sy). cbn [opens stored stray] in *. now subst.
  - unfold free_record. now rewrite N.
Qed.
(** If it fails, the descriptor is closed at once and again when the record is freed; by then the number can belong to another file *)
Theorem C131_closed_twice_refuted : forall a s, a_fam a = V6 -> works (Address V6 (a_socket a) (a_interface a) (a_bind a) (a_connect a) (a_set a) true) = true -> a_local a = false ->
  let s' := snd (client_connect pick false false [a] s) in
  fst (client_connect pick false false [a] s) = None /\ opens s' = opens s /\ stored s' = Some (pick (opens s)) /\
  stray (free_record s') = pick (opens s) :: stray s /\
  forall others, In (pick (opens s)) others -> opens (free_record (Sys others (stored s') (stray s'))) = drop (pick (opens s)) others.
Proof.
  intros a s F W NL. unfold works in W. cbn in W. repeat (apply andb_prop in W; destruct W as (W & ?)). cbv zeta.
  assert (X : client_connect pick false false [a] s = (None, Sys (opens s) (Some (pick (opens s))) (stray s))).
  { unfold client_connect. cbn [try_all]. rewrite F. cbn [is_v6 is_v4 negb]. unfold try_addr, socket. rewrite W, H3, H2, H1, H0, NL. cbn [negb store opens stored stray].
    f_equal. exact (close_new s (Some (pick (opens s)))). }
  rewrite X. cbn [fst snd opens stored stray]. split; [reflexivity|]. split; [reflexivity|]. split; [reflexivity|]. split.
  - unfold free_record. cbn [stored]. unfold close. cbn [opens stored stray]. destruct (existsb (Nat.eqb (pick (opens s))) (opens s)) eqn:E; [|reflexivity].
    apply existsb_exists in E. destruct E as (x & I & Q). apply Nat.eqb_eq in Q. subst x. exfalso. exact (fresh _ I).
  - intros others I. unfold free_record. cbn [stored]. unfold close. cbn [opens stored stray]. destruct (existsb (Nat.eqb (pick (opens s))) others) eqn:E; [reflexivity|].
    exfalso. assert (T : existsb (Nat.eqb (pick (opens s))) others = true) by (apply existsb_exists; exists (pick (opens s)); split; [exact I|apply Nat.eqb_refl]). congruence.
Qed.

(** ** C132: the server listens at its first address that can be used, IPv6 first *)

Definition usable (p : place) : bool := p_socket p && p_options p && match p_bind p with Bound => true | _ => false end.
Lemma open_socket_find : forall sel l s, (forall p, In p l -> p_bind p <> InUse /\ p_set p = true) ->
  match find usable (filter (fun p => sel (p_fam p)) l) with
  | Some p => open_socket pick sel l s = (At p (pick (opens s)), Sys (pick (opens s) :: opens s) (Some (pick (opens s))) (stray s))
  | None => open_socket pick sel l s = (None_found, s)
  end.
Proof.
  intros sel. induction l as [|p l IH]; intros s L; cbn [open_socket filter find]; [reflexivity|].
  assert (L' : forall q, In q l -> p_bind q <> InUse /\ p_set q = true) by (intros; apply L; now right). destruct (L p (or_introl eq_refl)) as (L1 & L2).
  destruct (sel (p_fam p)); cbn [negb find]; [|now apply IH]. unfold usable at 1. destruct (p_socket p); cbn [negb andb]; [|now apply IH]. unfold socket.
  assert (C : close (pick (opens s)) (Sys (pick (opens s) :: opens s) (stored s) (stray s)) = s) by (rewrite close_new; now destruct s).
  destruct (p_options p); cbn [negb andb]; [|rewrite C; now apply IH]. destruct (p_bind p); [rewrite L2; reflexivity|congruence|rewrite C; now apply IH].
Qed.
(** If no address is in use: it has one descriptor more if it succeeds, and none if it fails.  Missing: addresses in use, refuted below *)
Theorem C132_server_partial : forall l s, stored s = None -> (forall p, In p l -> p_bind p <> InUse /\ p_set p = true) ->
  fst (server_socket pick true l s) = find usable (filter (fun p => is_v6 (p_fam p)) l ++ filter (fun p => is_v4 (p_fam p)) l) /\
  (forall p, fst (server_socket pick true l s) = Some p -> exists fd, ~ In fd (opens s) /\ snd (server_socket pick true l s) = Sys (fd :: opens s) (Some fd) (stray s)) /\
  (fst (server_socket pick true l s) = None -> snd (server_socket pick true l s) = s) /\
  fst (server_socket pick false l s) = None /\ snd (server_socket pick false l s) = s.
Proof.
  intros l s N L. rewrite find_app. pose proof (open_socket_find is_v6 l s L) as A. pose proof (open_socket_find is_v4 l s L) as B. unfold server_socket.
  assert (FR : free_record (Sys (pick (opens s) :: opens s) (Some (pick (opens s))) (stray s)) = s).
  { unfold free_record. cbn [stored]. rewrite close_new. cbn [opens stray]. destruct s as (o, st, sy). cbn [opens stored stray] in *. now subst. }
  assert (FS : free_record s = s) by (unfold free_record; now rewrite N).
  destruct (find usable (filter (fun p => is_v6 (p_fam p)) l)) as [p|]; rewrite A.
  - cbn [fst snd]. rewrite FR. split; [reflexivity|]. split; [intros q _; exists (pick (opens s)); split; [apply fresh|reflexivity]|]. split; [discriminate|]. split; reflexivity.
  - destruct (find usable (filter (fun p => is_v4 (p_fam p)) l)) as [p|]; rewrite B.
    + cbn [fst snd]. rewrite FR. split; [reflexivity|]. split; [intros q _; exists (pick (opens s)); split; [apply fresh|reflexivity]|]. split; [discriminate|]. split; reflexivity.
    + cbn [fst snd]. rewrite FS. split; [reflexivity|]. split; [discriminate|]. split; [reflexivity|]. split; reflexivity.
Qed.
(** If the first IPv6 address is in use no other one is tried, and a descriptor stays open *)
Theorem C132_in_use_refuted : forall p l s listens, p_fam p = V6 -> p_socket p = true -> p_options p = true -> p_bind p = InUse -> stored s = None ->
  server_socket pick listens (p :: l) s = (None, Sys (pick (opens s) :: opens s) None (stray s)).
Proof.
  intros p l s listens F A B C N. unfold server_socket. cbn [open_socket]. rewrite F, A, B, C. cbn [is_v6 negb]. unfold socket. cbn [fst snd]. unfold free_record. cbn [stored]. rewrite N. reflexivity.
Qed.
End S.

(** a system that gives the lowest number *)
Definition lowest (l : list nat) : nat := hd 0 (filter (fun n => negb (existsb (Nat.eqb n) l)) (seq 0 (S (list_max l)) ++ [S (list_max l)])).
Lemma lowest_fresh : forall l, ~ In (lowest l) l.
Proof.
  intros l I. unfold lowest in I.
  assert (M : forall x, In x l -> x <= list_max l).
  { intros x J. pose proof (proj1 (list_max_le l (list_max l)) (Nat.le_refl _)) as F. rewrite Forall_forall in F. now apply F. }
  destruct (filter (fun n => negb (existsb (Nat.eqb n) l)) (seq 0 (S (list_max l)) ++ [S (list_max l)])) as [|x r] eqn:E.
  - assert (J : In (S (list_max l)) []).
    { rewrite <- E. apply filter_In. split; [apply in_or_app; right; now left|]. destruct (existsb _ l) eqn:X; [|reflexivity]. apply existsb_exists in X. destruct X as (y & J & Q).
      apply Nat.eqb_eq in Q. subst y. specialize (M _ J). lia. }
    destruct J.
  - cbn [hd] in I. assert (J : In x (x :: r)) by now left. rewrite <- E in J. apply filter_In in J. destruct J as (_ & J).
    assert (T : existsb (Nat.eqb x) l = true) by (apply existsb_exists; exists x; split; [exact I|apply Nat.eqb_refl]). rewrite T in J. discriminate J.
Qed.

Definition x_bad6 : address := Address V6 true true true false true true.
Definition x_good4 : address := Address V4 true true true true true true.
Definition x_good6 : address := Address V6 true true true true true true.
Example C130_case : fst (client_connect lowest false false [x_good4; x_bad6] (Sys [0; 1; 2] None [])) = Some x_good4 /\
  fst (client_connect lowest false false [x_good4; x_bad6; x_good6] (Sys [0; 1; 2] None [])) = Some x_good6 /\ fst (client_connect lowest true true [x_good4; x_good6] (Sys [0] None [])) = None.
Proof. repeat split. Qed.
Example C131_case : snd (client_connect lowest false false [x_good4; x_bad6] (Sys [0; 1; 2] None [])) = Sys [3; 0; 1; 2] (Some 3) [] /\
  open_and_close lowest false false [Address V6 true true true true true false] (Sys [0; 1; 2] None []) = Sys [0; 1; 2] None [3].
Proof. split; reflexivity. Qed.
Example C132_case : fst (server_socket lowest true [Place V4 true true Bound true; Place V6 true true Unbound true] (Sys [0; 1; 2] None [])) = Some (Place V4 true true Bound true) /\
  server_socket lowest true [Place V4 true true Bound true; Place V6 true true InUse true] (Sys [0; 1; 2] None []) = (None, Sys [3; 0; 1; 2] None []).
Proof. split; reflexivity. Qed.

(** ** C133: pass phrases are overwritten when they are not needed any more *)

Open Scope Z_scope.
(** With a connection the pass phrase has been overwritten, if one was read.  Missing: when there is no connection, refuted below *)
Theorem C133_wiped_partial : forall E D kdf,
  (forall c w c', open_respond E kdf c w = OpenOK c' -> client_fate E kdf c w <> LeftInMemory) /\
  (forall c offered challenge salt count uptime w c' user, accept_decide E D kdf c offered challenge salt count uptime w = AcceptOK c' user ->
     server_fate D kdf c offered challenge salt count w = (if match user with Some _ => true | None => false end then Wiped else NotRead)).
Proof.
  intros E D kdf. split.
  - intros c w c' O F. unfold open_respond in O. unfold client_fate in F. destruct (read_greeting c) as ((rc, (((offered, challenge), salt), count)), c1).
    destruct (rc =? ErrOK); cbn [negb] in O, F; [|discriminate O]. destruct (client_pf w offered) as [[pf|]|]; try discriminate F.
    destruct (select_mode offered (cw_req w) true (twoway c1) (cw_policy w)) as [m| |]; try discriminate O.
    destruct (ciphers (set_mode c1 m)); [|discriminate F]. destruct (cw_key w) as [k|]; [|discriminate O]. destruct (cw_hkey w) as [hk|]; [|discriminate O]. destruct (cw_iv w) as [iv|]; [|discriminate O].
    destruct (encrypt_token E kdf pf salt count (challenge ++ k ++ hk)); [discriminate F|discriminate O].
  - intros c offered challenge salt count uptime w c' user A. unfold accept_decide in A. unfold server_fate. destruct (read_setup c) as ((rc, (((m, u), raw), iv)), c1).
    destruct (rc =? ErrOK); cbn [negb] in *; [|discriminate A]. match type of A with (if ?b then _ else _) = _ => destruct b end; [discriminate A|].
    destruct (Z.lor m offered =? 0); [discriminate A|].
    assert (FIN : forall c2 us, accept_finish E c2 m uptime w us = AcceptOK c' user -> user = us).
    { intros c2 us G. unfold accept_finish in G. destruct (sw_policy w m us) as (ok, err). destruct ok; cbn [negb] in G; [|discriminate G]. destruct (write_server_start E c2 CNTRL_ACCEPT uptime) as (r, c3). destruct (r =? ErrOK); [now injection G|discriminate G]. }
    destruct (ciphers (set_riv (set_mode c1 m) iv)); [|apply FIN in A; now subst user].
    destruct (sw_getpf w u) as (pf, err). cbn [fst]. destruct pf as [p|].
    + destruct (decrypt_token D kdf p salt count raw) as [tok|]; [|discriminate A]. rewrite orb_false_r in A. destruct (eqb_octets challenge (firstn 16 tok)); cbn [negb] in *; [|discriminate A].
      destruct (sw_iv w); [|discriminate A]. apply FIN in A. now subst user.
    + destruct (err =? ErrOK); [|discriminate A]. destruct (decrypt_token D kdf [] salt count raw); [|discriminate A]. rewrite orb_true_r in A. discriminate A.
Qed.
(** A client that names a user and does not know the pass phrase leaves it in the memory of the server, ... *)
Theorem C133_server_refuted : forall D kdf c offered challenge salt count w c1 m user raw iv pf tok,
  read_setup c = (ErrOK, (m, user, raw, iv), c1) -> m = MODE_AUTH \/ m = MODE_ENCR -> fst (sw_getpf w user) = Some pf ->
  decrypt_token D kdf pf salt count raw = Some tok -> firstn 16 tok <> challenge -> server_fate D kdf c offered challenge salt count w = LeftInMemory.
Proof.
  intros D kdf c offered challenge salt count w c1 m user raw iv pf tok R M P T N. unfold server_fate. rewrite R. cbn [negb].
  change (ErrOK =? ErrOK) with true. cbn [negb].
  assert (C : ciphers (set_riv (set_mode c1 m) iv) = true) by (destruct M as [-> | ->]; reflexivity).
  assert (G : negb (m =? MODE_OPEN) && (negb (twoway (set_riv (set_mode c1 m) iv)) || negb (m =? MODE_MIXED)) && negb (m =? MODE_AUTH) && negb (m =? MODE_ENCR) = false).
  { destruct M as [-> | ->]; cbn; rewrite ?orb_true_r, ?andb_false_r; reflexivity. }
  rewrite G, C, P, T.
  assert (O : Z.lor m offered =? 0 = false).
  { apply Z.eqb_neq. intros Q. apply Z.lor_eq_0_iff in Q. destruct Q as (Q & _). destruct M as [-> | ->]; discriminate Q. }
  rewrite O. destruct (eqb_octets challenge (firstn 16 tok)) eqn:Q; [|reflexivity]. apply eqb_octets_spec in Q. congruence.
Qed.
(** ... and a server that offers no mode of the client that the policy allows leaves it in the memory of the client *)
Theorem C133_client_refuted : forall E kdf c w offered challenge salt count c1 pf, read_greeting c = (ErrOK, (offered, challenge, salt, count), c1) -> client_pf w offered = Some (Some pf) ->
  (forall m, fst (cw_policy w m) = false) -> client_fate E kdf c w = LeftInMemory.
Proof.
  intros E kdf c w offered challenge salt count c1 pf G P N. unfold client_fate. rewrite G. change (ErrOK =? ErrOK) with true. cbn [negb]. rewrite P.
  assert (S : forall m, select_mode offered (cw_req w) true (twoway c1) (cw_policy w) <> SelMode m).
  { intros m Q. apply Setup_Select.select_sound in Q. destruct Q as (_ & Q & _). rewrite N in Q. discriminate Q. }
  destruct (select_mode offered (cw_req w) true (twoway c1) (cw_policy w)) as [m| |]; [exfalso; now apply (S m)|reflexivity|reflexivity].
Qed.

(** the handshake of C22: with the right token, with a token that is wrong, and with a policy that allows no mode *)
Example C133_case :
  let s1 := snd (accept_greet (Props_Setup.toy_new false) 7 (repeat 21 16) (repeat 22 16) 1024) in
  let c0 := Setup_Spec.feed (Props_Setup.toy_new false) (outp s1) in
  let c1 := match open_respond Toy.toyE Props_Setup.toy_kdf c0 (Props_Setup.toy_cw 6) with OpenOK c => c | _ => Props_Setup.toy_new false end in
  let denied := mkCW 6 (Some (repeat 65 80)) (fun _ => (Some [1;2;3], ErrOK)) (fun _ => (false, ErrOK)) (Some (repeat 11 16)) (Some (repeat 12 32)) (Some (repeat 13 16)) in
  client_fate Toy.toyE Props_Setup.toy_kdf c0 (Props_Setup.toy_cw 6) = Wiped /\
  server_fate Toy.toyE Props_Setup.toy_kdf (Setup_Spec.feed s1 (outp c1)) 7 (repeat 21 16) (repeat 22 16) 1024 (Props_Setup.toy_sw [1;2;3]) = Wiped /\
  server_fate Toy.toyE Props_Setup.toy_kdf (Setup_Spec.feed s1 (outp c1)) 7 (repeat 23 16) (repeat 22 16) 1024 (Props_Setup.toy_sw [1;2;3]) = LeftInMemory /\
  client_fate Toy.toyE Props_Setup.toy_kdf c0 denied = LeftInMemory.
Proof. cbv zeta. split; [|split; [|split]]; vm_compute; reflexivity. Qed.

Print Assumptions C130_first.
Print Assumptions C130_connects.
Print Assumptions C131_client_partial.
Print Assumptions C131_closed_twice_refuted.
Print Assumptions C132_server_partial.
Print Assumptions C132_in_use_refuted.
Print Assumptions C133_wiped_partial.
Print Assumptions C133_server_refuted.
Print Assumptions C133_client_refuted.
