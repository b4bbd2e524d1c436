(** A toy cipher, hash and connection, for the examples beside the theorems only. *)
From Coq Require Import ZArith List Bool Lia.
From Verif Require Import Base BaseLemmas Sched_Model Wire_Model Control_Model Control_Spec.
Import ListNotations.
Open Scope Z_scope.

Definition toyE (k b : list Z) : list Z := rev b.
Definition toyH (k t : list Z) : list Z := firstn 20 (rev (k ++ t) ++ zeros 20).
Lemma toy_cipher : block_cipher toyE toyE.
Proof. intros k b L. unfold toyE. rewrite rev_length, rev_involutive. auto. Qed.
Lemma toy_blocks : blocks16 toyE.
Proof. intros k b L. unfold toyE. now rewrite rev_length. Qed.
Lemma toy_digest : digest20 toyH.
Proof. intros k t. unfold toyH. rewrite firstn_length, app_length, zeros_length. lia. Qed.
Definition toy (s m : Z) (tw : bool) (i : list Z) : ctl :=
  mkC s m tw (repeat 85 400) (repeat 7 16) (repeat 9 32) (repeat 3 16) (repeat 3 16) [] [] i [] []
    (mkSA AF_INET 1 [192;0;2;1]) (mkSA AF_INET 861 [192;0;2;2]).
Lemma toy_wf : forall s m tw i, wf (toy s m tw i).
Proof. intros. repeat split. Qed.
Lemma toy_quiet : forall s m tw i, quiet (toy s m tw i).
Proof. intros. constructor. Qed.
