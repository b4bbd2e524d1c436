(** Vocabulary for the statements about the limits file: how limit lines are written and what they mean. *)
From Coq Require Import ZArith List Bool.
From Verif Require Import Base Policy_Model Policy_Spec Limits_Model.
Import ListNotations.
Open Scope Z_scope.

(** name, separator and value of a pair, with white space around *)
Record pairtxt := mkTxt { px_pre : list Z; px_key : list Z; px_sep : list Z; px_val : list Z; px_post : list Z }.
Definition render_pair (p : pairtxt) : list Z := px_pre p ++ px_key p ++ px_sep p ++ px_val p ++ px_post p.
Definition is_space (c : Z) : Prop := c = 32 \/ 9 <= c <= 13.
Definition pair_wf (p : pairtxt) : Prop :=
  Forall is_space (px_pre p) /\ Forall is_space (px_post p) /\
  Forall (fun c => ~ is_space c /\ c <> 61 /\ c <> 44) (px_key p) /\
  px_key p <> [] /\ px_sep p <> [] /\ Forall (fun c => is_space c \/ c = 61) (px_sep p) /\
  Forall (fun c => ~ is_space c /\ c <> 44) (px_val p) /\ hd 0 (px_val p) <> 61.
Fixpoint render_pairs (l : list pairtxt) : list Z :=
  match l with [] => [] | [p] => render_pair p | p :: r => render_pair p ++ 44 :: render_pairs r end.
Definition is_blank (c : Z) : Prop := c = 32 \/ c = 9 \/ c = 10.
(** NAME with PAIR, PAIR, ... *)
Definition render_line (name ws1 wd : list Z) (ws2 : Z) (l : list pairtxt) : list Z := name ++ ws1 ++ wd ++ ws2 :: render_pairs l.

(** what a pair says *)
Inductive item := IParent (name : list Z) | ILimit (lim v : Z).
Definition lower (s : list Z) : list Z := map (fun c => if (65 <=? c) && (c <=? 90) then c + 32 else c) s.
Definition says (strtonum : list Z -> option Z) (p : pairtxt) (it : item) : Prop :=
  match it with
  | IParent n => lower (px_key p) = w_parent /\ px_val p = n
  | ILimit lim v =>
      (lower (px_key p) = w_bandwidth /\ lim = LimBandwidth \/ lower (px_key p) = w_disk /\ lim = LimDisk \/ lower (px_key p) = w_test_sessions /\ lim = LimTestSessions) /\
        strtonum (px_val p) = Some v \/
      (lower (px_key p) = w_delete_on_fetch /\ lim = LimDeleteOnFetch \/ lower (px_key p) = w_allow_open_mode /\ lim = LimAllowOpenMode) /\
        (lower (px_val p) = w_on /\ v = 1 \/ lower (px_val p) = w_off /\ v = 0)
  end.
Fixpoint limits_of (l : list item) : list (Z * Z) := match l with [] => [] | IParent _ :: r => limits_of r | ILimit lim v :: r => (lim, v) :: limits_of r end.
Fixpoint parents_of (l : list item) : list (list Z) := match l with [] => [] | IParent n :: r => n :: parents_of r | _ :: r => parents_of r end.

(** the limits of a class: its own, and those of the parent for which it has none *)
Definition effective (own inherited lims : list (Z * Z)) : Prop :=
  NoDup (map fst lims) /\ forall lim v, In (lim, v) lims <-> In (lim, v) own \/ (In (lim, v) inherited /\ ~ In lim (map fst own)).
