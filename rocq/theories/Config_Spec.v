(** Vocabulary for the statements about the configuration *)
From Coq Require Import ZArith List Bool String.
From Verif Require Import Base Config_Model Options_Spec.
Import ListNotations.
Open Scope Z_scope.

Definition key_of (o : op) : list Z := match o with SetPointer k _ _ _ => k | SetNumber k _ _ _ _ => k | Delete k => k end.

(** the operation stores a value; it fails *)
Definition stores (o : op) (k : list Z) (v : Z) : Prop :=
  match o with SetPointer k' v' a b => k = k' /\ v = v' /\ a = true /\ b = true | SetNumber k' n j a b => k = k' /\ v = j * 2 ^ 32 + n /\ a = true /\ b = true | Delete _ => False end.
Definition full (o : op) : Prop := match o with SetPointer _ _ a b => a = true /\ b = false | SetNumber _ _ _ a b => a = true /\ b = false | Delete _ => False end.
Definition is_delete (o : op) : Prop := match o with Delete _ => True | _ => False end.

(** after [l] the value of [k] is [v]: it was stored and nothing that has to do with k has happened since but failures *)
Definition holds (l : list op) (k : list Z) (v : Z) : Prop :=
  exists before o after, (l = before ++ o :: after)%list /\ stores o k v /\
    forall o', In o' after -> key_of o' = k -> ~ is_delete o' /\ forall v', ~ stores o' k v'.
(** after [l] there is no value for [k]: none was stored, or it was deleted *)
Definition absent (l : list op) (k : list Z) : Prop := forall v, ~ holds l k v.

(** the keys of the library (owamp.h 515-726) and of the daemon (policy.h 59, 68, policy.c 2275) *)
Open Scope string_scope.
Definition library_keys : list (list Z) := map chars
  ["OWPInterruptIO"; "OWPTestPortRange"; "OWPGetPF"; "OWPCheckControlPolicy"; "OWPCheckTestPolicy"; "OWPCheckFetchPolicy"; "OWPTestComplete"; "OWPOpenFile";
   "OWPCloseFile"; "OWPChildWait"; "OWPDetachProcesses"; "OWPKeyDerivationCount"; "TWPTestTimeout"; "OWPEndDelay"; "OWPIPv4Only"; "OWPIPv6Only";
   "OWPDPOLICY"; "OWPDPOLICY_NODE"; "OWPDPOLICY_FILEINFO"].
Close Scope string_scope.

(** a decimal numeral and its value *)
Definition numeral (s : list Z) : Prop := s <> [] /\ Forall (fun c => 48 <= c <= 57) s.
Definition value (s : list Z) : Z := fold_left (fun a c => 10 * a + (c - 48)) s 0.
