(** C97, C98: the DSCP of the test packets and the schedule, as given to owping *)
From Coq Require Import String ZArith List Bool Lia QArith Qround.
From Verif Require Import Base BaseLemmas Port_Model Options_Model Options_Spec Options_Proofs.
Import ListNotations.
Open Scope Z_scope.

(** C97: every name of the manual, with blanks before it, asks for the code point that the manual gives it ... *)
Theorem C97_names : forall pre name d, blank pre -> In (name, d) dscp_names -> parse_typeP (pre ++ chars name) = Some (d * 2 ^ 24).
Proof. exact parse_named. Qed.

(** C97: ... and every number of six bits, in decimal, octal or hexadecimal notation, asks for that code point *)
Theorem C97_numbers : forall d, 0 <= d < 64 ->
  parse_typeP (decimal d) = Some (d * 2 ^ 24) /\ parse_typeP (octal d) = Some (d * 2 ^ 24) /\ parse_typeP (hexadecimal d) = Some (d * 2 ^ 24).
Proof. exact parse_number. Qed.

(** C97: nothing else is accepted: an accepted string is a number below 64 (as strtoul reads it), a name of the manual in some mixture of
    cases with blanks around it, or blank, and asks for that code point (none if blank) *)
Theorem C97_only : forall s t, parse_typeP s = Some t -> exists d, 0 <= d < 64 /\ t = d * 2 ^ 24 /\
  (strtoul0 s = (d, []) \/
   (exists pre u post name, blank pre /\ blank post /\ s = pre ++ u ++ post /\ In (name, d) dscp_names /\ map upper u = chars name) \/
   (d = 0 /\ blank s)).
Proof.
  intros s t E. destruct (parse_only _ _ E) as (d & D & T & [X|[(pre & u & post & A & B & C & name & I & U)|X]]); exists d; (split; [exact D|]); (split; [exact T|]).
  - left. exact X.
  - right. left. exists pre, u, post, name. auto.
  - right. right. exact X.
Qed.

(** C97: the endpoint that sends the packets gives them exactly the code point asked for (in the six high bits of the octet), leaves the octet
    alone when none is asked for, and refuses every other value of the field *)
Theorem C97_packets : forall t, 0 <= t < 2 ^ 32 ->
  (forall x, traffic_class t = Some (Some x) <-> exists d, 0 < d < 64 /\ t = d * 2 ^ 24 /\ x = 4 * d) /\
  (traffic_class t = Some None <-> t = 0) /\
  (traffic_class t = None <-> forall d, 0 <= d < 64 -> t <> d * 2 ^ 24).
Proof.
  intros t U. change (2 ^ 24) with 16777216.
  destruct (class_ok t U) as [(T & C)|[(d & D & T & C)|(C & N)]]; rewrite C.
  - split; [|split].
    + intros x. split; [discriminate|]. intros (d & D & X & _). lia.
    + split; auto.
    + split; [discriminate|]. intros N. exfalso. apply (N 0); lia.
  - split; [|split].
    + intros x. split; [intros E; injection E as <-; exists d; auto|]. intros (d' & D' & T' & ->). f_equal. f_equal. lia.
    + split; [discriminate|lia].
    + split; [discriminate|]. intros N. exfalso. apply (N d); [lia|exact T].
  - split; [|split].
    + intros x. split; [discriminate|]. intros (d & D & T & _). exfalso. apply (N d); [lia|exact T].
    + split; [discriminate|]. intros ->. exfalso. apply (N 0); lia.
    + split; auto.
Qed.

(** C97: so what is accepted by owping is never refused by an endpoint *)
Theorem C97_accepted : forall s t, parse_typeP s = Some t -> t = 0 \/ exists d, 0 < d < 64 /\ t = d * 2 ^ 24 /\ traffic_class t = Some (Some (4 * d)).
Proof.
  intros s t E. destruct (parse_only _ _ E) as (d & D & T & _).
  destruct (class_ok t) as [(X & _)|[X|(_ & N)]]; [unfold is_u32; lia|left; exact X|right; exact X|]. exfalso. exact (N d D T).
Qed.

Example C97_case :
  parse_typeP (chars " AF41") = Some (34 * 2 ^ 24) /\ traffic_class (34 * 2 ^ 24) = Some (Some 136) /\ parse_typeP (chars "0x2e") = Some (46 * 2 ^ 24) /\
  parse_typeP (chars "cs5 ") = Some (40 * 2 ^ 24) /\ parse_typeP (chars "64") = None /\ parse_typeP (chars "AF14") = None /\ traffic_class (2 ^ 30) = None.
Proof. vm_compute. repeat split; reflexivity. Qed.

(** C97: a name in lower case is accepted for every class but one (the manual does not promise it) *)
Example C97_lower_case : parse_typeP (chars "ef") = Some (46 * 2 ^ 24) /\ parse_typeP (chars "cs1") = Some (8 * 2 ^ 24) /\ parse_typeP (chars "af11") = None.
Proof. vm_compute. repeat split; reflexivity. Qed.

(** C98 *)
Section Schedule.
Variable strtod : list Z -> option (Q * list Z).
Hypothesis strtod_nil : strtod [] = None.

(** an entry of a schedule: a number and nothing or a letter after it; v is the value of the number in units of 2^-32 s *)
Definition entry (p : list Z) (s : slot) : Prop := exists q letter, strtod p = Some (q, letter) /\
  ((In letter [[]; chars "e"; chars "E"] /\ s = Exponential (of_double q)) \/ (In letter [chars "f"; chars "F"] /\ s = Fixed (of_double q))).

Lemma entry_ok : forall p s, parse_slot strtod p = Some s <-> entry p s.
Proof.
  intros p s. unfold parse_slot, entry. split.
  - intros E. destruct (strtod p) as [[q letter]|]; [|discriminate]. exists q, letter. split; [reflexivity|].
    destruct letter as [|c [|c' letter]]; [left; split; [left; reflexivity|congruence]| |discriminate].
    destruct (Z.eqb_spec (lower c) 101) as [L|L].
    + left. split; [|congruence]. assert (X : c = 101 \/ c = 69) by (clear -L; ifs). right. destruct X; subst c; [left|right; left]; reflexivity.
    + destruct (Z.eqb_spec (lower c) 102) as [L2|L2]; [|discriminate].
      right. split; [|congruence]. assert (X : c = 102 \/ c = 70) by (clear -L2; ifs). destruct X; subst c; [left|right; left]; reflexivity.
  - intros (q & letter & E & H). rewrite E. destruct H as [(I & ->)|(I & ->)];
      repeat (destruct I as [<-|I]; [reflexivity|]); destruct I.
Qed.

(** C98: whatever strtod makes of the parts, the schedule is accepted exactly if each part between the commas is a number followed by nothing,
    e or E (exponential) or f or F (fixed), and then its slots are those of the parts, one for each and in their order *)
Theorem C98_schedule_partial : forall parts slots, parts <> [] -> Forall (fun p => ~ In 44 p) parts ->
  (parse_slots strtod (commas parts) = Some slots <-> Forall2 entry parts slots).
Proof.
  intros parts slots N F. rewrite (parse_slots_ok strtod strtod_nil parts slots N F). clear N F. split; intros H; induction H; constructor; auto; apply entry_ok; assumption.
Qed.

End Schedule.

(** C98: a slot of a number that is not negative is that number of seconds, rounded down to a multiple of 2^-32 s (numbers from 2^32 on, for
    which C does not define the conversion, are converted as if the type were wide enough) *)
Theorem C98_value_partial : forall q, (0 <= q)%Q -> (inject_Z (of_double q) <= q * inject_Z (2 ^ 32) < inject_Z (of_double q + 1))%Q.
Proof.
  intros q Q0. unfold of_double. rewrite (proj2 (Qle_bool_iff 0 q) Q0). split; [apply Qfloor_le|apply Qlt_floor].
Qed.

(** C98: a negative number is not refused but becomes a slot of 0 seconds *)
Theorem C98_negative_refuted : forall strtod p q, strtod p = Some (q, []) -> (q < 0)%Q -> ~ In 44 p -> strtod [] = None ->
  parse_slots strtod p = Some [Exponential 0].
Proof.
  intros strtod p q E Q0 N SN. change p with (commas [p]).
  apply (C98_schedule_partial strtod SN); [discriminate|constructor; [exact N|constructor]|].
  constructor; [|constructor]. exists q, []. split; [exact E|]. left. split; [left; reflexivity|].
  unfold of_double. destruct (Qle_bool 0 q) eqn:X; [|reflexivity]. apply Qle_bool_iff in X. exfalso. apply (Qlt_not_le _ _ Q0 X).
Qed.

(** numbers of one digit, with a sign or not *)
Definition toy_strtod (s : list Z) : option (Q * list Z) :=
  match s with
  | c :: d :: r => if (c =? 45) && (digit d <? 10) then Some (inject_Z (- digit d), r) else if digit c <? 10 then Some (inject_Z (digit c), d :: r) else None
  | [c] => if digit c <? 10 then Some (inject_Z (digit c), []) else None
  | [] => None
  end.

Example C98_case :
  parse_slots toy_strtod (chars "1,2f,3E") = Some [Exponential (1 * 2 ^ 32); Fixed (2 * 2 ^ 32); Exponential (3 * 2 ^ 32)] /\
  parse_slots toy_strtod (chars "1,,2") = None /\ parse_slots toy_strtod (chars "1,2,") = None /\ parse_slots toy_strtod (chars "1g") = None /\
  toy_strtod (chars "-3") = Some (inject_Z (-3), []) /\ parse_slots toy_strtod (chars "-3") = Some [Exponential 0].
Proof. vm_compute. repeat split; reflexivity. Qed.

Print Assumptions C97_names.
Print Assumptions C97_numbers.
Print Assumptions C97_only.
Print Assumptions C97_packets.
Print Assumptions C97_accepted.
Print Assumptions C98_schedule_partial.
Print Assumptions C98_value_partial.
Print Assumptions C98_negative_refuted.
