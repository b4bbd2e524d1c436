(** Port ranges (C55) and the choice of the test port (C40). *)
From Coq Require Import ZArith List Bool Lia ZifyBool ZifyNat.
From Verif Require Import Base Double Double_Proofs Port_Model Port_Spec Port_Proofs.
Import ListNotations.
Open Scope Z_scope.
Ltac Zify.zify_post_hook ::= Z.div_mod_to_equations.

(** ** C55: port range strings *)
Lemma parse_port_app : forall sp sg neg d r, space_string sp -> sign_string sg neg -> digit_string d -> no_digit r ->
  parse_port (sp ++ sg ++ d ++ r) = if (if neg then value d =? 0 else value d <=? 65535) then Some (value d, r) else None.
Proof.
  intros sp sg neg d r S G D N. unfold parse_port.
  assert (V: 0 <= value d) by (destruct D; apply (value_from_nonneg d 0); auto; lia).
  rewrite skip_space_app; auto.
  - rewrite (strtol_app sg neg) by auto. destruct neg.
    + destruct (Z.eqb_spec (value d) 0) as [->|]; [reflexivity|].
      replace ((Z.max (-9223372036854775808) (- value d) <? 0) || (65535 <? Z.max (-9223372036854775808) (- value d))) with true by lia. reflexivity.
    + destruct (Z.leb_spec (value d) 65535).
      * replace (Z.min 9223372036854775807 (value d)) with (value d) by lia. replace ((value d <? 0) || (65535 <? value d)) with false by lia. reflexivity.
      * replace ((Z.min 9223372036854775807 (value d) <? 0) || (65535 <? Z.min 9223372036854775807 (value d))) with true by lia. reflexivity.
  - destruct D as (D1 & D2). destruct G as [(-> & _)|[(-> & _)|(-> & _)]]; cbn [app]; try lia. destruct d; [congruence|]. inversion D2; subst. cbn [app]. lia.
Qed.

Lemma parse_port_inv : forall s v r, parse_port s = Some (v, r) -> exists sp sg neg d, s = sp ++ sg ++ d ++ r /\ space_string sp /\ sign_string sg neg /\ digit_string d /\ no_digit r /\
  v = value d /\ 0 <= v <= 65535 /\ (neg = true -> v = 0).
Proof.
  intros s v r E. unfold parse_port in E. destruct (skip_space_inv s) as (sp & S1 & S2 & _).
  destruct (strtol (skip_space s)) as [[v' r']|] eqn:T; [|discriminate].
  destruct ((v' <? 0) || (65535 <? v')) eqn:B; [discriminate|]. injection E as -> ->.
  apply strtol_inv in T. destruct T as (sg & neg & d & T1 & T2 & T3 & T4 & T5).
  assert (V: 0 <= value d) by (destruct T3; apply (value_from_nonneg d 0); auto; lia).
  exists sp, sg, neg, d. rewrite S1 at 1. rewrite T1. repeat split; try assumption; try (apply T3); destruct neg; try lia; try discriminate.
Qed.

Lemma no_digit_space : forall sp r, space_string sp -> no_digit r -> no_digit (sp ++ r).
Proof. intros [|c sp] r S N; [exact N|]. inversion S; subst. cbn. lia. Qed.

(** Whatever the string: a range that is accepted is an ordered pair of port numbers. *)
Theorem C55_sane : forall s low high, parse_port_range s = Some (low, high) -> 0 <= low <= high /\ 1 <= high <= 65535 \/ low = 0 /\ high = 0.
Proof.
  intros s low high E. unfold parse_port_range in E. destruct (parse_port s) as [[l r]|] eqn:P; [|discriminate].
  apply parse_port_inv in P. destruct P as (_ & _ & _ & _ & _ & _ & _ & _ & _ & _ & B & _).
  destruct (skip_space r) as [|c r'] eqn:K.
  - destruct (Z.eqb_spec l 0); [discriminate|]. injection E as <- <-. lia.
  - destruct (Z.eq_dec c 45) as [->|N].
    + destruct (parse_port r') as [[h r'']|] eqn:P; [|discriminate]. destruct (Z.ltb_spec h l); [discriminate|]. injection E as <- <-.
      apply parse_port_inv in P. destruct P as (_ & _ & _ & _ & _ & _ & _ & _ & _ & _ & B' & _). lia.
    + exfalso. destruct c as [|p|p]; try discriminate. do 7 (destruct p as [p|p|]; try discriminate; try lia).
Qed.

(** A single port number, with white space around it: accepted exactly if it is between 1 and 65535. *)
Theorem C55_single : forall sp1 d sp2 low high, space_string sp1 -> digit_string d -> space_string sp2 ->
  parse_port_range (sp1 ++ d ++ sp2) = Some (low, high) <-> low = value d /\ high = value d /\ 1 <= value d <= 65535.
Proof.
  intros sp1 d sp2 low high S1 D S2. unfold parse_port_range.
  assert (V: 0 <= value d) by (destruct D; apply (value_from_nonneg d 0); auto; lia).
  assert (N: no_digit sp2) by (rewrite <- (app_nil_r sp2); apply no_digit_space; cbn; auto).
  change (sp1 ++ d ++ sp2) with (sp1 ++ [] ++ d ++ sp2). rewrite (parse_port_app sp1 [] false d sp2) by (auto; left; auto).
  assert (K: skip_space sp2 = []) by (rewrite <- (app_nil_r sp2) at 1; apply skip_space_app; auto).
  destruct (Z.leb_spec (value d) 65535).
  - rewrite K. destruct (Z.eqb_spec (value d) 0).
    + split; [discriminate|lia].
    + split; [intros E; injection E as <- <-; lia|intros (-> & -> & _); reflexivity].
  - split; [discriminate|lia].
Qed.

(** Two port numbers separated by a dash, with white space around them: accepted exactly if they are ordered and at most 65535. *)
Theorem C55_range : forall sp1 d1 sp2 sp3 d2 sp4 low high, space_string sp1 -> digit_string d1 -> space_string sp2 -> space_string sp3 -> digit_string d2 -> space_string sp4 ->
  parse_port_range (sp1 ++ d1 ++ sp2 ++ [45] ++ sp3 ++ d2 ++ sp4) = Some (low, high) <-> low = value d1 /\ high = value d2 /\ value d1 <= value d2 <= 65535.
Proof.
  intros sp1 d1 sp2 sp3 d2 sp4 low high S1 D1 S2 S3 D2 S4. unfold parse_port_range.
  assert (V1: 0 <= value d1) by (destruct D1; apply (value_from_nonneg d1 0); auto; lia).
  assert (V2: 0 <= value d2) by (destruct D2; apply (value_from_nonneg d2 0); auto; lia).
  assert (N2: no_digit sp4) by (rewrite <- (app_nil_r sp4); apply no_digit_space; cbn; auto).
  assert (N1: no_digit (sp2 ++ [45] ++ sp3 ++ d2 ++ sp4)) by (apply no_digit_space; auto; cbn; lia).
  change (sp1 ++ d1 ++ sp2 ++ [45] ++ sp3 ++ d2 ++ sp4) with (sp1 ++ [] ++ d1 ++ (sp2 ++ [45] ++ sp3 ++ d2 ++ sp4)). rewrite (parse_port_app sp1 [] false d1) by (auto; left; auto).
  destruct (Z.leb_spec (value d1) 65535); [|split; [discriminate|lia]].
  rewrite skip_space_app by (auto; cbn; lia). change ([45] ++ sp3 ++ d2 ++ sp4) with (45 :: (sp3 ++ d2 ++ sp4)). cbv beta iota.
  change (sp3 ++ d2 ++ sp4) with (sp3 ++ [] ++ d2 ++ sp4). rewrite (parse_port_app sp3 [] false d2 sp4) by (auto; left; auto).
  destruct (Z.leb_spec (value d2) 65535); [|split; [discriminate|lia]].
  destruct (Z.ltb_spec (value d2) (value d1)).
  - split; [discriminate|lia].
  - split; [intros E; injection E as <- <-; lia|intros (-> & -> & _); reflexivity].
Qed.

(** Anything accepted has one of the two forms, up to signs and up to characters after the second number. *)
Theorem C55_form : forall s low high, parse_port_range s = Some (low, high) ->
  (exists sp1 sg d sp2 neg, s = sp1 ++ sg ++ d ++ sp2 /\ space_string sp1 /\ sign_string sg neg /\ digit_string d /\ space_string sp2 /\ low = value d /\ high = value d) \/
  (exists sp1 sg1 d1 sp2 sp3 sg2 d2 rest n1 n2, s = sp1 ++ sg1 ++ d1 ++ sp2 ++ [45] ++ sp3 ++ sg2 ++ d2 ++ rest /\
     space_string sp1 /\ sign_string sg1 n1 /\ digit_string d1 /\ space_string sp2 /\ space_string sp3 /\ sign_string sg2 n2 /\ digit_string d2 /\ no_digit rest /\
     low = value d1 /\ high = value d2).
Proof.
  intros s low high E. unfold parse_port_range in E. destruct (parse_port s) as [[l r]|] eqn:P; [|discriminate].
  apply parse_port_inv in P. destruct P as (sp1 & sg1 & n1 & d1 & -> & A1 & A2 & A3 & A4 & A5 & _).
  destruct (skip_space_inv r) as (sp2 & R1 & R2 & _).
  destruct (skip_space r) as [|c r'] eqn:K.
  - destruct (Z.eqb_spec l 0); [discriminate|]. injection E as <- <-. left. exists sp1, sg1, d1, sp2, n1.
    rewrite R1, app_nil_r. repeat split; auto; apply A3.
  - destruct (Z.eq_dec c 45) as [->|N].
    + destruct (parse_port r') as [[h r'']|] eqn:P; [|discriminate]. destruct (Z.ltb_spec h l); [discriminate|]. injection E as <- <-.
      apply parse_port_inv in P. destruct P as (sp3 & sg2 & n2 & d2 & -> & B1 & B2 & B3 & B4 & B5 & _). right.
      exists sp1, sg1, d1, sp2, sp3, sg2, d2, r'', n1, n2. rewrite R1. repeat split; auto; (apply A3 || apply B3).
    + exfalso. destruct c as [|p|p]; try discriminate. do 7 (destruct p as [p|p|]; try discriminate; try lia).
Qed.

(** The documentation of owping (option -P) gives the single value 0, "let the system choose", as valid; it is rejected. *)
Theorem C55_zero_refuted : exists s, s = [48] (* "0" *) /\ parse_port_range s = None.
Proof. exists [48]. split; reflexivity. Qed.

(** Characters after the second number are ignored: "10-20xyz" is accepted. *)
Theorem C55_rest_refuted : exists s, s = [49; 48; 45; 50; 48; 120; 121; 122] (* "10-20xyz" *) /\ parse_port_range s = Some (10, 20).
Proof. eexists. split; reflexivity. Qed.

(** " 8760-9960 " *)
Example C55_example : parse_port_range [32; 56; 55; 54; 48; 45; 57; 57; 54; 48; 32] = Some (8760, 9960) /\
  digit_string [56; 55; 54; 48] /\ space_string [32] /\ value [56; 55; 54; 48] = 8760.
Proof. repeat split; try reflexivity; try discriminate; repeat constructor; lia. Qed.

(** ** C40: search *)

(** [search_spec]: what a search of the range [low, high] must do.
    - it ends;
    - if it binds a port, the port is in the range and bind() reported success for it;
    - if no call of bind() fails with another error than "in use", it only gives up after every port of the range was found in use;
    - every port is tried at most once, and only ports of the range are tried. *)
Definition search_spec (low high : Z) (bind : nat -> Z -> bres) (res : sres) : Prop :=
  match res with
  | SBound p tried => low <= p <= high /\ NoDup tried /\ Forall (fun q => low <= q <= high) tried /\ (exists k, bind k p = BindOK)
  | SFail tried => NoDup tried /\ Forall (fun q => low <= q <= high) tried /\
      ((forall k q, bind k q <> BindOther) -> forall q, low <= q <= high -> exists k, nth_error tried k = Some q /\ bind k q = BindInUse)
  | _ => False
  end.

Lemma nth_port_range : forall low range start i, 0 < range -> low <= nth_port low range start i <= low + range - 1.
Proof. intros low range start i H. unfold nth_port. pose proof (Z.mod_pos_bound (start - low + i) range H). lia. Qed.

Lemma ports_range : forall low range start n, 0 < range -> Forall (fun q => low <= q <= low + range - 1) (ports low range start n).
Proof. intros. unfold ports. apply Forall_forall. intros q Hq. apply in_map_iff in Hq. destruct Hq as (i & <- & _). apply nth_port_range; auto. Qed.

Lemma search_meets : forall fuel bind low high start, 65536 <= Z.of_nat fuel -> 0 <= low <= high -> high <= 65535 -> high - low + 1 <= 65535 -> low <= start <= high ->
  search_spec low high bind (search fuel bind (Some low) (range_of low high) start start []).
Proof.
  intros fuel bind low high start Hf Hl Hh Hw Hs.
  assert (Rg: range_of low high = high - low + 1) by (unfold range_of, u16; apply Z.mod_small; lia). rewrite Rg.
  set (range := high - low + 1) in *. assert (Hr: 0 < range) by lia.
  assert (St: nth_port low range start (Z.of_nat 0) = start) by (unfold nth_port; rewrite Z.add_0_r, Z.mod_small by lia; lia).
  destruct (search_ok bind low range start ltac:(lia) Hr ltac:(lia) ltac:(lia) (Z.to_nat range) 0%nat fuel ltac:(lia) ltac:(lia) ltac:(lia)) as (j & J1 & J2 & J3).
  rewrite St in J3. change (ports low range start 0) with (@nil Z) in J3. rewrite !Nat.add_0_l in J3.
  assert (ND: NoDup (ports low range start (j + 1))) by (apply ports_nodup; lia).
  assert (IR: Forall (fun q => low <= q <= high) (ports low range start (j + 1))).
  { replace high with (low + range - 1) by lia. apply ports_range; auto. }
  destruct (search _ _ _ _ _ _ _) as [q tried|tried|tried|]; cbn [search_spec]; auto.
  - destruct J3 as (-> & -> & B). split; [replace high with (low + range - 1) by lia; apply nth_port_range; auto|]. repeat split; auto. exists j. exact B.
  - destruct J3 as (-> & B). repeat split; auto. intros NO q Hq. destruct B as [B|[B Ej]]; [exfalso; eapply NO; exact B|].
    assert (Eq: (j + 1)%nat = Z.to_nat range) by lia. rewrite Eq.
    pose proof (ports_all low range start q Hr ltac:(lia) ltac:(lia)) as I. unfold ports in *. apply In_nth_error in I. destruct I as (k & K). exists k. split; [exact K|].
    rewrite nth_error_map in K. destruct (nth_error (seq 0 (Z.to_nat range)) k) as [k'|] eqn:Sq; [|discriminate].
    assert (k < Z.to_nat range)%nat by (rewrite <- (seq_length (Z.to_nat range) 0); apply nth_error_Some; congruence).
    assert (k' = k).
    { apply nth_error_nth with (d := 0%nat) in Sq. rewrite seq_nth in Sq by auto. lia. }
    subst k'. cbn [option_map] in K. injection K as <-. destruct (Nat.eq_dec k j) as [->|]; [exact B|]. apply J2. lia.
Qed.

(** A configured range is used: no port (or, for the TWAMP server, one outside the range) is requested, and the random number is not the largest one.
    Missing: the largest random number (see the refutation) and the range 0-65535 (whose size wraps to 0). *)
Theorem C40_search_partial : forall fuel twoway server port low high r bind, 65536 <= Z.of_nat fuel ->
  0 <= low <= high -> high <= 65535 -> high - low + 1 <= 65535 -> 0 <= r < 4294967295 ->
  port = 0 \/ (twoway = true /\ server = true /\ (port < low \/ high < port)) ->
  search_spec low high bind (choose_port fuel twoway server port (Some (low, high)) r bind).
Proof.
  intros fuel twoway server port low high r bind Hf Hl Hh Hw Hr Hp.
  assert (E: choose_port fuel twoway server port (Some (low, high)) r bind =
     match first_port low high r with Some p => if high <? low then SFail [] else search fuel bind (Some low) (range_of low high) p p [] | None => SUB end).
  { unfold choose_port. destruct Hp as [->|(-> & -> & Hp)].
    - rewrite (Z.eqb_refl 0). rewrite andb_false_r. cbn [andb negb]. rewrite Z.eqb_refl. cbn [negb]. reflexivity.
    - destruct (Z.eqb_spec port 0) as [->|]; [cbn [negb andb]; rewrite Z.eqb_refl; reflexivity|].
      cbn [andb negb]. replace ((port <? low) || (high <? port)) with true by lia. rewrite Z.eqb_refl. reflexivity. }
  rewrite E. destruct (first_port_ok low high r Hl Hh Hw Hr) as (p & -> & Pb). assert ((high <? low) = false) as -> by lia. apply search_meets; auto.
Qed.

(** TWAMP server, the client requests a port: inside the configured range, or no range configured. *)
Theorem C40_requested_search : forall fuel port portrange r bind, 65536 <= Z.of_nat fuel -> 1 <= port <= 65535 ->
  match portrange with
  | Some (low, high) => 0 <= low <= port -> port <= high <= 65535 -> high - low + 1 <= 65535 ->
      search_spec low high bind (choose_port fuel true true port portrange r bind)
  | None => search_spec port 65535 bind (choose_port fuel true true port portrange r bind)
  end.
Proof.
  intros fuel port portrange r bind Hf Hp. destruct portrange as [[low high]|].
  - intros Hl Hh Hw. unfold choose_port. cbn [andb].
    assert ((port =? 0) = false) as E by lia. rewrite E. cbn [negb andb].
    assert ((port <? low) || (high <? port) = false) as -> by lia. rewrite E. cbn [negb].
    assert ((high <? low) = false) as -> by lia. apply search_meets; auto; lia.
  - unfold choose_port. cbn [andb]. assert ((port =? 0) = false) as -> by lia. cbn [negb].
    assert ((65535 <? port) = false) as -> by lia. apply search_meets; auto; lia.
Qed.

(** The first port tried is the requested one. *)
Theorem C40_requested_first : forall fuel port portrange r bind, (1 <= fuel)%nat -> 1 <= port <= 65535 -> bind 0%nat port = BindOK ->
  match portrange with Some (low, high) => low <= port <= high | None => True end ->
  choose_port fuel true true port portrange r bind = SBound port [port].
Proof.
  intros fuel port portrange r bind Hf Hp B Hr. destruct fuel as [|fuel]; [lia|]. unfold choose_port. cbn [andb].
  assert ((port =? 0) = false) as E by lia. rewrite E. cbn [negb andb]. destruct portrange as [[low high]|].
  - assert ((port <? low) || (high <? port) = false) as -> by lia. rewrite E. cbn [negb]. assert ((high <? low) = false) as -> by lia.
    cbn [search length app]. rewrite B. reflexivity.
  - rewrite E. cbn [negb]. assert ((65535 <? port) = false) as -> by lia. cbn [search length app]. rewrite B. reflexivity.
Qed.

(** All other endpoints with a given port: exactly that port is tried, once. *)
Theorem C40_given_port : forall fuel twoway server port portrange r bind, (1 <= fuel)%nat -> 1 <= port <= 65535 -> twoway && server = false ->
  match portrange with Some (low, high) => low <= high | None => True end ->
  choose_port fuel twoway server port portrange r bind = match bind 0%nat port with BindOK => SBound port [port] | _ => SFail [port] end.
Proof.
  intros fuel twoway server port portrange r bind Hf Hp T Hr. destruct fuel as [|fuel]; [lia|]. unfold choose_port. rewrite T. cbn [andb].
  assert ((port =? 0) = false) as E by lia. destruct portrange as [[low high]|]; rewrite E; cbn [negb].
  - assert ((high <? low) = false) as -> by lia. cbn [search length app]. destruct (bind 0%nat port); reflexivity.
  - cbn [search length app]. destruct (bind 0%nat port); reflexivity.
Qed.

(** The random number 2^32-1: a port behind the configured range is bound; ... *)
Theorem C40_outside_refuted : forall low high fuel, (1 <= fuel)%nat -> 0 <= low <= high -> high < 65535 ->
  exists r bind, 0 <= r < 2^32 /\ choose_port fuel false true 0 (Some (low, high)) r bind = SBound (high + 1) [high + 1].
Proof.
  intros low high fuel Hf Hl Hh. exists 4294967295, (fun _ _ => BindOK). split; [lia|].
  unfold choose_port. cbn [andb negb]. rewrite Z.eqb_refl. cbn [negb]. rewrite first_port_last by lia.
  assert ((high =? 65535) = false) as -> by lia. assert ((high <? low) = false) as -> by lia. destruct fuel; [lia|]. reflexivity.
Qed.

(** ... and if all ports are in use, the search never ends. *)
Lemma endless : forall low high, 0 <= low <= high -> high < 65535 -> high - low + 1 <= 65535 -> forall fuel p tried, low <= p <= high + 1 ->
  exists tr, search fuel (fun _ _ => BindInUse) (Some low) (high - low + 1) (high + 1) p tried = SRunning tr.
Proof.
  intros low high Hl Hh Hw. induction fuel as [|fuel IH]; intros p tried Hp; cbn [search]; [eexists; reflexivity|].
  assert ((high - low + 1 =? 0) = false) as -> by lia.
  assert (N: low <= next_port low (high - low + 1) p <= high).
  { destruct (Z.eq_dec p (high + 1)) as [->|].
    - unfold next_port, u16. rewrite (Z.mod_small (high + 1 - low)) by lia.
      replace (high + 1 - low + 1) with (1 + 1 * (high - low + 1)) by lia.
      destruct (Z.eq_dec (high - low + 1) 1) as [e|].
      + rewrite e. rewrite Z.rem_1_r. rewrite Z.mod_0_l, Z.add_0_l, Z.mod_small by lia. lia.
      + rewrite Z.rem_add by lia. rewrite Z.rem_small by lia. rewrite (Z.mod_small 1) by lia. rewrite Z.mod_small by lia. lia.
    - replace p with (low + (p - low)) by lia. rewrite next_ok by lia. destruct (Z.eqb_spec (p - low + 1) (high - low + 1)); lia. }
  assert ((next_port low (high - low + 1) p =? high + 1) = false) as -> by lia. apply IH. lia.
Qed.

Theorem C40_endless_refuted : forall low high, 0 <= low <= high -> high < 65535 ->
  exists r, 0 <= r < 2^32 /\ forall fuel, exists tried, choose_port fuel false true 0 (Some (low, high)) r (fun _ _ => BindInUse) = SRunning tried.
Proof.
  intros low high Hl Hh. exists 4294967295. split; [lia|]. intros fuel. unfold choose_port. cbn [andb negb]. rewrite Z.eqb_refl. cbn [negb].
  rewrite first_port_last by lia. assert ((high =? 65535) = false) as -> by lia. assert ((high <? low) = false) as -> by lia.
  assert (Rg: range_of low high = high - low + 1) by (unfold range_of, u16; apply Z.mod_small; lia). rewrite Rg.
  apply endless; lia.
Qed.

(** The search over 8760-8762 with the first two ports tried in use. *)
Example C40_example : choose_port 10 false true 0 (Some (8760, 8762)) 3000000000 (fun k _ => match k with 2%nat => BindOK | _ => BindInUse end) =
  SBound 8761 [8762; 8760; 8761].
Proof. vm_compute. reflexivity. Qed.

Print Assumptions C55_sane.
Print Assumptions C55_single.
Print Assumptions C55_range.
Print Assumptions C55_form.
Print Assumptions C40_search_partial.
Print Assumptions C40_requested_search.
Print Assumptions C40_requested_first.
Print Assumptions C40_given_port.
Print Assumptions C40_outside_refuted.
Print Assumptions C40_endless_refuted.
