(** Vocabulary for the statements about the options of owping *)
From Coq Require Import ZArith List Bool String Ascii.
Import ListNotations.
Open Scope Z_scope.

(** the characters of a string *)
Definition chars (s : string) : list Z := map (fun a => Z.of_nat (nat_of_ascii a)) (list_ascii_of_string s).

(** owamp/doc/owping_test_opts.man 39-87: the names of the code points *)
Open Scope string_scope.
Definition dscp_names : list (string * Z) :=
  [("NONE", 0); ("DEFAULT", 0); ("DF", 0); ("CS0", 0); ("CS1", 8); ("AF11", 10); ("AF12", 12); ("AF13", 14); ("CS2", 16); ("AF21", 18);
   ("AF22", 20); ("AF23", 22); ("CS3", 24); ("AF31", 26); ("AF32", 28); ("AF33", 30); ("CS4", 32); ("AF41", 34); ("AF42", 36); ("AF43", 38);
   ("CS5", 40); ("EF", 46); ("CS6", 48); ("CS7", 56)].
Close Scope string_scope.

Definition blank (s : list Z) : Prop := Forall (fun c => 9 <= c <= 13 \/ c = 32) s.

(** the numbers below 64 in decimal, octal and hexadecimal notation *)
Definition hex_digit (d : Z) : Z := if d <? 10 then 48 + d else 87 + d.
Definition decimal (d : Z) : list Z := if d <? 10 then [48 + d] else [48 + d / 10; 48 + d mod 10].
Definition octal (d : Z) : list Z := [48; 48 + d / 8; 48 + d mod 8].
Definition hexadecimal (d : Z) : list Z := [48; 120; hex_digit (d / 16); hex_digit (d mod 16)].

(** parts separated by commas *)
Fixpoint commas (parts : list (list Z)) : list Z :=
  match parts with [] => [] | [p] => p | p :: r => (p ++ 44 :: commas r)%list end.
