(** Model of the parser of the limits file: /repo/owamp/owamp/owampd/policy.c 158-723.  Lines are lists of octets other than NUL, as
    delivered by I2GetConfLine (I2util, not modelled).  I2util's number parser, the numeric address parser of getaddrinfo and
    strtoul are parameters. *)
From Coq Require Import ZArith List Bool.
From Verif Require Import Base Policy_Model.
Import ListNotations.
Open Scope Z_scope.

(** I2WSPACESET (I2util): tab, newline, space *)
Definition wspace (c : Z) : bool := (c =? 32) || (c =? 9) || (c =? 10).
(** isspace in the C locale *)
Definition isspace (c : Z) : bool := (c =? 32) || ((9 <=? c) && (c <=? 13)).
Definition comma (c : Z) : bool := c =? 44.
Definition equals (c : Z) : bool := c =? 61.
Definition tolower (c : Z) : Z := if (65 <=? c) && (c <=? 90) then c + 32 else c.
(** strncasecmp(s, k, strlen(k)+1) == 0 for a lower-case k *)
Definition same_word (s k : list Z) : bool := eqb_octets (map tolower s) k.

Fixpoint skip_while (p : Z -> bool) (s : list Z) : list Z := match s with [] => [] | c :: r => if p c then skip_while p r else s end.
(** the longest prefix without [p], and the rest *)
Fixpoint span_not (p : Z -> bool) (s : list Z) : list Z * list Z :=
  match s with [] => ([], []) | c :: r => if p c then ([], s) else let (a, b) := span_not p r in (c :: a, b) end.
(** strtok: the token and what the next call continues with (the delimiter that ended the token is consumed) *)
Definition strtok (d : Z -> bool) (s : list Z) : option (list Z * list Z) :=
  match skip_while d s with
  | [] => None
  | s' => let (a, b) := span_not d s' in Some (a, match b with [] => [] | _ :: r => r end)
  end.

Definition w_with : list Z := [119; 105; 116; 104].
Definition w_parent : list Z := [112; 97; 114; 101; 110; 116].
Definition w_bandwidth : list Z := [98; 97; 110; 100; 119; 105; 100; 116; 104].
Definition w_disk : list Z := [100; 105; 115; 107].
Definition w_delete_on_fetch : list Z := [100; 101; 108; 101; 116; 101; 95; 111; 110; 95; 102; 101; 116; 99; 104].
Definition w_allow_open_mode : list Z := [97; 108; 108; 111; 119; 95; 111; 112; 101; 110; 95; 109; 111; 100; 101].
Definition w_test_sessions : list Z := [116; 101; 115; 116; 95; 115; 101; 115; 115; 105; 111; 110; 115].
Definition w_on : list Z := [111; 110].
Definition w_off : list Z := [111; 102; 102].
Definition w_default : list Z := [100; 101; 102; 97; 117; 108; 116].
Definition w_net : list Z := [110; 101; 116].
Definition w_user : list Z := [117; 115; 101; 114].
Definition w_limit : list Z := [108; 105; 109; 105; 116].
Definition w_assign : list Z := [97; 115; 115; 105; 103; 110].

(** policy.c 133-140 and 287-306: the limit of a name, without the special one *)
Definition lim_of_name (s : list Z) : option Z :=
  if same_word s w_bandwidth then Some LimBandwidth
  else if same_word s w_disk then Some LimDisk
  else if same_word s w_delete_on_fetch then Some LimDeleteOnFetch
  else if same_word s w_allow_open_mode then Some LimAllowOpenMode
  else if same_word s w_test_sessions then Some LimTestSessions else None.

(** outcome of parsing: refused; reading (and possibly writing) beyond the end of the string; done *)
Inductive pres (A : Type) := PErr | POver | POk (a : A).
Arguments PErr {A}. Arguments POver {A}. Arguments POk {A} _.

(** policy.c 238-254: name and value of one pair.  If there is no white space or '=' after the name, the loop in 244 runs over the
    end of the string. *)
Definition split_pair (s : list Z) : pres (list Z * list Z) :=
  let (name, r) := span_not (fun c => isspace c || equals c) (skip_while isspace s) in
  match r with
  | [] => POver
  | _ :: r => POk (name, fst (span_not isspace (skip_while (fun c => isspace c || equals c) r)))
  end.

(** tnode.parent and the first tnode.ilim elements of limtemp *)
Record ltemp := mkLt { lt_parent : option nat; lt_lims : list (Z * Z) }.

(** policy.c 439-623: a configured network, its address as 4 or 16 octets *)
Section ORACLES.
(** I2StrToNum: a number with optional unit (I2util) *)
Variable strtonum : list Z -> option Z.
(** getaddrinfo with AI_NUMERICHOST: 4 or 16 octets *)
Variable numhost : list Z -> option (list Z).
(** (unsigned long)(int)strtoul(s,&end,10) with *end == 0 *)
Variable strtoul : list Z -> option Z.

(** policy.c 314-342: the value of a limit *)
Definition lim_value (lim : Z) (s : list Z) : option Z :=
  match lim_type lim with
  | LimInt => strtonum s
  | _ => if same_word s w_on then Some 1 else if same_word s w_off then Some 0 else None
  end.

(** policy.c 231-345: one pair.  [maxlim] is 5 (637-641). *)
Definition parse_pair (t : tree) (lt : ltemp) (s : list Z) : pres ltemp :=
  if 5 <=? Z.of_nat (length (lt_lims lt)) then PErr else
  match split_pair s with
  | PErr => PErr
  | POver => POver
  | POk (name, val) =>
      if same_word name w_parent then
        match t, lt_parent lt with
        | [], _ => PErr
        | _, Some _ => PErr
        | _, None => match find_class val t with Some i => POk (mkLt (Some i) (lt_lims lt)) | None => PErr end
        end
      else match lim_of_name name with
           | None => PErr
           | Some lim =>
               match find_lim lim (lt_lims lt) with
               | Some _ => PErr
               | None => match lim_value lim val with Some v => POk (mkLt (lt_parent lt) (lt_lims lt ++ [(lim, v)])) | None => PErr end
               end
           end
  end.
(** policy.c 228-346: the loop.  Every pass consumes at least one octet. *)
Fixpoint parse_pairs (fuel : nat) (t : tree) (lt : ltemp) (s : list Z) : pres ltemp :=
  match strtok comma s with
  | None => POk lt
  | Some (p, r) =>
      match fuel with
      | O => PErr
      | S fuel => match parse_pair t lt p with POk lt' => parse_pairs fuel t lt' r | x => x end
      end
  end.
(** policy.c 351-363: limits of the parent that were not overridden *)
Fixpoint inherit (pl : list (Z * Z)) (own : list (Z * Z)) : list (Z * Z) :=
  match pl with
  | [] => own
  | (lim, v) :: r => inherit r (match find_lim lim own with Some _ => own | None => own ++ [(lim, v)] end)
  end.

(** policy.c 174-415: parselimitline (malloc does not fail) *)
Definition parse_limit_line (t : tree) (line : list Z) : pres tree :=
  match strtok wspace line with
  | None => PErr
  | Some (cname, r) =>
      if 80 <? Z.of_nat (length cname) then PErr else
      match find_class cname t with
      | Some _ => PErr
      | None =>
          match strtok wspace r with
          | None => PErr
          | Some (w, r) =>
              if negb (same_word w w_with) then PErr else
              match parse_pairs (length r) t (mkLt None []) r with
              | PErr => PErr
              | POver => POver
              | POk lt =>
                  let done lims := POk (t ++ [mkNode cname (lt_parent lt) lims (repeat 0 (length lims))]) in
                  match lt_parent lt with
                  | Some p => match nth_error t p with Some pn => done (inherit (nd_lims pn) (lt_lims lt)) | None => PErr end
                  | None => match t with [] => done (lt_lims lt) | _ => PErr end
                  end
              end
          end
      end
  end.

(** policy.c 531-563: no bits of the address beyond the mask; [i] counts nbytes up *)
Fixpoint rest_zero (l : list Z) : bool := match l with [] => true | b :: r => (b =? 0) && rest_zero r end.
Definition net_ok (mask sz : Z) (addr : list Z) : bool :=
  let nbytes := Z.to_nat (mask / 8) in
  let nbits := mask mod 8 in
  (if mask / 8 <? sz then Z.land (byte nbytes addr) (Z.lnot (Z.shiftl 255 (8 - nbits))) =? 0 else true) &&
  rest_zero (firstn (Z.to_nat sz - S nbytes) (skipn (S nbytes) addr)).

(** the part before the first '/' and, if there is one, the part after it *)
Definition split_mask (s : list Z) : list Z * option (list Z) :=
  let (a, b) := span_not (fun c => c =? 47) s in (a, match b with [] => None | _ :: r => Some r end).

(** policy.c 439-563: addr/mask.  The empty mask is refused first. *)
Definition parse_net (s : list Z) : option pid :=
  let (host, mask) := split_mask s in
  match mask with Some [] => None | _ =>
  match numhost host with
  | None => None
  | Some a =>
      let sz := Z.of_nat (length a) in
      match (match mask with
             | None => Some (sz * 8)
             | Some m => match strtoul m with Some n => if (n <? 1) || (sz * 8 <? n) then None else Some n | None => None end
             end) with
      | None => None
      | Some n => let addr := a ++ zeros (16 - length a) in if net_ok n sz addr then Some (PidNet n sz addr) else None
      end
  end end.

(** I2HashStore: assumed to replace the value of a key that exists *)
Definition ident_store (k : pid) (v : nat) (l : idents) : idents := (k, v) :: filter (fun e => negb (pid_eqb k (fst e))) l.

(** policy.c 417-623: parseassignline.  [known]: is there a passphrase for the user? *)
Definition parse_assign_line (known : list Z -> bool) (t : tree) (l : idents) (line : list Z) : option idents :=
  match strtok wspace line with
  | None => None
  | Some (kind, r) =>
      match (if same_word kind w_default then match ident_fetch PidDefault l with Some _ => None | None => Some (PidDefault, r) end
             else if same_word kind w_net then
               match strtok wspace r with
               | Some (a, r) => match parse_net a with Some k => Some (k, r) | None => None end
               | None => None
               end
             else if same_word kind w_user then
               match strtok wspace r with
               | Some (u, r) => if (81 <=? Z.of_nat (length u)) || negb (known u) then None else Some (PidUser (u ++ zeros (81 - length u)), r)
               | None => None
               end
             else None) with
      | None => None
      | Some (k, r) =>
          match strtok wspace r with
          | None => None
          | Some (c, _) => match find_class c t with Some i => Some (ident_store k i l) | None => None end
          end
      end
  end.

(** policy.c 625-723: parselimits *)
Definition prefix_word (k s : list Z) : option (list Z) :=
  if same_word (firstn (length k) s) k then Some (skip_while isspace (skipn (length k) s)) else None.
Definition parse_line (known : list Z -> bool) (t : tree) (l : idents) (line : list Z) : pres (tree * idents) :=
  match prefix_word w_limit line with
  | Some r => match parse_limit_line t r with POk t' => POk (t', l) | PErr => PErr | POver => POver end
  | None =>
      match prefix_word w_assign line with
      | Some r => match parse_assign_line known t l r with Some l' => POk (t, l') | None => PErr end
      | None => PErr
      end
  end.
Fixpoint parse_lines (known : list Z -> bool) (t : tree) (l : idents) (lines : list (list Z)) : pres (tree * idents) :=
  match lines with
  | [] => POk (t, l)
  | x :: r => match parse_line known t l x with POk (t', l') => parse_lines known t' l' r | y => y end
  end.
Definition parse_conf (known : list Z -> bool) (lines : list (list Z)) : pres (tree * idents) :=
  match parse_lines known [] [] lines with
  | POk ([], l) => match parse_limit_line [] (w_default ++ [32] ++ w_with) with POk t => POk (t, l) | PErr => PErr | POver => POver end
  | x => x
  end.
End ORACLES.
