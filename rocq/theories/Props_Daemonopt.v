(** Property theorems C150-C154: the options of the daemon and the installation of its policy.
    The numbers of the file are those of C101 ([conf_number]); strings of port ranges as in C55 (Port_Spec.v). *)
From Coq Require Import String ZArith List Bool QArith Lia ZifyBool ZifyNat.
From Verif Require Import Base BaseLemmas Double Double_Proofs Port_Model Port_Spec Port_Proofs Props_Port Options_Model Options_Spec Config_Model Daemonopt_Model.
Import ListNotations.
Open Scope Z_scope.
Local Arguments chars s%string.
Local Open Scope string_scope.

(** ** What the manual pages say (nwampd_conf_desc.man, nwampd_opts.man) *)

Definition manual (tw : bool) : list (string * setting) :=
  [("facility", Facility); ("loglevel", LogLevel); ("loglocation", LogLocation); ("rootfolly", AllowRoot); ("datadir", Datadir); ("user", User);
   ("group", Group); ("verbose", Verbose); ("authmode", Authmode); ("srcnode", Srcnode); ("vardir", Vardir); ("dieby", Dieby);
   ("controltimeout", ControlTimeout); ("pbkdf2_count", Pbkdf2Count); ("enddelay", EndDelay); ("maxcontrolsessions", MaxControl)] ++
  (if tw then [("testtimeout", TestTimeout)] else [("diskfudge", Diskfudge)]).
Local Close Scope string_scope.

(** capital and small letters do not matter in a key *)
Definition key_is (key : list Z) (name : string) : Prop := map lower key = chars name.

Section Spec.
Variable facility : list Z -> option Z.
Variable strtod : list Z -> option (real * bool).
Variable tw : bool.

(** the value that the text of a line means for the setting; [None]: it has no meaning *)
Definition meaning (s : setting) (val : list Z) : option value :=
  match s with
  | Datadir | User | Group | Authmode | Srcnode | Vardir => Some (Text val)
  | LogLocation | AllowRoot | Verbose => Some (Flag true)
  | Facility => match facility val with Some f => Some (Num f) | None => None end
  | LogLevel => match report_level val with Some f => Some (Num f) | None => None end
  | Dieby | ControlTimeout | Pbkdf2Count | MaxControl | TestTimeout => match conf_number val with Some n => Some (Num n) | None => None end
  | Diskfudge => match strtod val with Some (Fin q, false) => if Qle_bool 1 q && Qle_bool q 10 then Some (Real (Fin q)) else None | _ => None end
  | EndDelay => match strtod val with
                | Some (Fin q, false) => if Qle_bool 0 q then Some (Real (Fin q)) else None
                | Some (PosInf, false) => Some (Real PosInf)
                | _ => None end
  | Foreground => None
  end.
(** a line sets the setting to the value *)
Definition line_sets (e : list Z * list Z * Z) (s : setting) (v : value) : Prop :=
  exists name, In (name, s) (manual tw) /\ key_is (fst (fst e)) name /\ meaning s (snd (fst e)) = Some v.
(** an option of the command line sets the setting to the value *)
Definition arg_sets (a : arg) (s : setting) (v : value) : Prop :=
  match a with
  | A t => s = Authmode /\ v = Text t | D t => s = Datadir /\ v = Text t | E t => s = Facility /\ exists f, facility t = Some f /\ v = Num f
  | F => s = AllowRoot /\ v = Flag true | G t => s = Group /\ v = Text t | R t => s = Vardir /\ v = Text t | S t => s = Srcnode /\ v = Text t
  | U t => s = User /\ v = Text t | V => s = Verbose /\ v = Flag true | ZZ => s = Foreground /\ v = Flag true
  | C _ | H | P _ | Unknown => False
  end.
(** the last element of the list for which the relation holds for some value gives [v] *)
Definition last_sets {X} (r : X -> value -> Prop) (l : list X) (v : value) : Prop :=
  exists before x after, l = before ++ x :: after /\ r x v /\ Forall (fun y => forall w, ~ r y w) after.
Definition never {X} (r : X -> value -> Prop) (l : list X) : Prop := Forall (fun y => forall w, ~ r y w) l.

(** the file that is read *)
Definition dir_of (args : list arg) (d : option (list Z)) : Prop :=
  match d with
  | None => Forall (fun a => match a with C _ => False | _ => True end) args
  | Some s => exists before after, args = before ++ C s :: after /\ Forall (fun a => match a with C _ => False | _ => True end) after
  end.
(** no key begins with one of two names without being that name *)
Definition exact (e : list Z * list Z * Z) : Prop :=
  (begins_with (fst (fst e)) (chars "maxcontrolsessions") = true -> key_is (fst (fst e)) "maxcontrolsessions") /\
  (tw = true -> begins_with (fst (fst e)) (chars "testtimeout") = true -> key_is (fst (fst e)) "testtimeout").
End Spec.

(** ** Lemmas *)

Fixpoint last_of {X} (f : X -> option value) (l : list X) : option value :=
  match l with [] => None | x :: r => match last_of f r with Some v => Some v | None => f x end end.
Lemma last_of_spec : forall X (f : X -> option value) r l, (forall x v, f x = Some v <-> r x v) ->
  match last_of f l with Some v => last_sets r l v | None => never r l end.
Proof.
  intros X f r l K. induction l as [|x l IH]; cbn [last_of]; [constructor|].
  destruct (last_of f l) as [v|] eqn:L.
  - destruct IH as (b & y & a & -> & R & N). exists (x :: b), y, a. auto.
  - destruct (f x) as [v|] eqn:F.
    + exists [], x, l. split; [reflexivity|]. split; [now apply K|exact IH].
    + constructor; [|exact IH]. intros w R. apply K in R. congruence.
Qed.
Lemma last_sets_det : forall X (r : X -> value -> Prop) l v w, (forall x a b, r x a -> r x b -> a = b) -> last_sets r l v -> last_sets r l w -> v = w.
Proof.
  intros X r l v w D (b & x & a & -> & R & N) (b' & x' & a' & E & R' & N').
  revert b' E. induction b as [|y b IH]; intros [|y' b'] E; cbn in E.
  - assert (x = x') by congruence. subst. eapply D; eauto.
  - assert (a = b' ++ x' :: a') by congruence. subst. apply Forall_app in N. destruct N as (_ & N). inversion N; subst. exfalso. eapply H1; eauto.
  - assert (b ++ x :: a = a') by congruence. subst. apply Forall_app in N'. destruct N' as (_ & N'). inversion N'; subst. exfalso. eapply H1; eauto.
  - apply (IH b'). congruence.
Qed.
Lemma last_never : forall X (r : X -> value -> Prop) l v, last_sets r l v -> never r l -> False.
Proof. intros X r l v (b & x & a & -> & R & _) N. apply Forall_app in N. destruct N as (_ & N). inversion N; subst. eapply H1; eauto. Qed.

Lemma same_name_spec : forall k n, same_name k (chars n) = true <-> key_is k n.
Proof. intros. unfold same_name, key_is. apply eqb_octets_spec. Qed.
Lemma parse_ports_get : forall o s, get (fst (parse_ports o s)) = get o.
Proof.
  intros o s. unfold parse_ports. repeat match goal with |- context [match ?x with _ => _ end] => destruct x; try reflexivity end.
Qed.

Section Lemmas.
Variable facility : list Z -> option Z.
Variable strtod : list Z -> option (real * bool).
Variable tw : bool.

Definition eff (e : list Z * list Z * Z) (s : setting) : option value :=
  if existsb (fun p => eqb_octets (map lower (fst (fst e))) (chars (fst p)) && if setting_eq (snd p) s then true else false) (manual tw)
  then meaning facility strtod s (snd (fst e)) else None.
Lemma eff_spec : forall e s v, eff e s = Some v <-> line_sets facility strtod tw e s v.
Proof.
  intros e s v. unfold eff, line_sets. split.
  - destruct (existsb _ _) eqn:X; [|discriminate]. intros M. apply existsb_exists in X. destruct X as ((n & s') & I & B).
    cbn [fst snd] in B. apply andb_true_iff in B. destruct B as (B1 & B2). destruct (setting_eq s' s); [subst|discriminate].
    exists n. split; [exact I|]. split; [now apply eqb_octets_spec|exact M].
  - intros (n & I & K & M). replace (existsb _ _) with true; [exact M|]. symmetry. apply existsb_exists. exists (n, s). split; [exact I|].
    cbn [fst snd]. rewrite K, eqb_octets_refl. destruct (setting_eq s s); [reflexivity|congruence].
Qed.

Lemma set_get : forall o s v x, get (set o s v) x = if setting_eq s x then v else get o x.
Proof. reflexivity. Qed.


(** the lines of [conf_line], without the comparison of the key *)
Lemma conf_line_cases : forall o key val o', (tw = true -> begins_with key (chars "testtimeout") = true -> key_is key "testtimeout") ->
  (begins_with key (chars "maxcontrolsessions") = true -> key_is key "maxcontrolsessions") ->
  conf_line facility strtod tw o key val = Some o' ->
  (key_is key "testports" /\ parse_ports o val = (o', true)) \/
  exists nm s v, In (nm, s) (manual tw) /\ key_is key nm /\ meaning facility strtod s val = Some v /\ o' = set o s v.
Proof.
  intros o key val o' X2 X1 L. unfold conf_line in L.
  assert (PUT: forall nm s w, In (nm, s) (manual tw) -> key_is key nm -> meaning facility strtod s val = w ->
     match w with Some v => Some (set o s v) | None => None end = Some o' ->
     exists nm s v, In (nm, s) (manual tw) /\ key_is key nm /\ meaning facility strtod s val = Some v /\ o' = set o s v).
  { intros nm s [v|] I K M Q; [|discriminate]. injection Q as <-. exists nm, s, v. auto. }
  destruct (same_name key (chars "facility")) eqn:K; [right; apply (PUT "facility"%string Facility _ ltac:(cbn; tauto) (proj1 (same_name_spec _ _) K) eq_refl L)|clear K].
  destruct (same_name key (chars "loglevel")) eqn:K; [right; apply (PUT "loglevel"%string LogLevel _ ltac:(cbn; tauto) (proj1 (same_name_spec _ _) K) eq_refl L)|clear K].
  destruct (same_name key (chars "loglocation")) eqn:K; [right; apply (PUT "loglocation"%string LogLocation _ ltac:(cbn; tauto) (proj1 (same_name_spec _ _) K) eq_refl L)|clear K].
  destruct (same_name key (chars "rootfolly")) eqn:K; [right; apply (PUT "rootfolly"%string AllowRoot _ ltac:(cbn; tauto) (proj1 (same_name_spec _ _) K) eq_refl L)|clear K].
  destruct (same_name key (chars "datadir")) eqn:K; [right; apply (PUT "datadir"%string Datadir _ ltac:(cbn; tauto) (proj1 (same_name_spec _ _) K) eq_refl L)|clear K].
  destruct (same_name key (chars "user")) eqn:K; [right; apply (PUT "user"%string User _ ltac:(cbn; tauto) (proj1 (same_name_spec _ _) K) eq_refl L)|clear K].
  destruct (same_name key (chars "group")) eqn:K; [right; apply (PUT "group"%string Group _ ltac:(cbn; tauto) (proj1 (same_name_spec _ _) K) eq_refl L)|clear K].
  destruct (same_name key (chars "verbose")) eqn:K; [right; apply (PUT "verbose"%string Verbose _ ltac:(cbn; tauto) (proj1 (same_name_spec _ _) K) eq_refl L)|clear K].
  destruct (same_name key (chars "authmode")) eqn:K; [right; apply (PUT "authmode"%string Authmode _ ltac:(cbn; tauto) (proj1 (same_name_spec _ _) K) eq_refl L)|clear K].
  destruct (same_name key (chars "srcnode")) eqn:K; [right; apply (PUT "srcnode"%string Srcnode _ ltac:(cbn; tauto) (proj1 (same_name_spec _ _) K) eq_refl L)|clear K].
  destruct (same_name key (chars "testports")) eqn:K.
  { left. split; [now apply same_name_spec|]. destruct (parse_ports o val) as [x []]; [congruence|discriminate]. }
  clear K.
  destruct (same_name key (chars "vardir")) eqn:K; [right; apply (PUT "vardir"%string Vardir _ ltac:(cbn; tauto) (proj1 (same_name_spec _ _) K) eq_refl L)|clear K].
  destruct (negb tw && same_name key (chars "diskfudge")) eqn:K.
  { apply andb_true_iff in K. destruct K as (T & K). right. apply (PUT "diskfudge"%string Diskfudge (meaning facility strtod Diskfudge val)).
    - destruct tw; [discriminate|]. cbn; tauto.
    - now apply same_name_spec.
    - reflexivity.
    - rewrite <- L. unfold conf_real, meaning. destruct (strtod val) as [[[q| | |] []]|]; cbn [at_least at_most andb]; try reflexivity. }
  clear K.
  destruct (same_name key (chars "dieby")) eqn:K; [right; apply (PUT "dieby"%string Dieby _ ltac:(cbn; tauto) (proj1 (same_name_spec _ _) K) eq_refl L)|clear K].
  destruct (same_name key (chars "controltimeout")) eqn:K; [right; apply (PUT "controltimeout"%string ControlTimeout _ ltac:(cbn; tauto) (proj1 (same_name_spec _ _) K) eq_refl L)|clear K].
  destruct (same_name key (chars "pbkdf2_count")) eqn:K; [right; apply (PUT "pbkdf2_count"%string Pbkdf2Count _ ltac:(cbn; tauto) (proj1 (same_name_spec _ _) K) eq_refl L)|clear K].
  destruct (same_name key (chars "enddelay")) eqn:K.
  { right. apply (PUT "enddelay"%string EndDelay _ ltac:(cbn; tauto) (proj1 (same_name_spec _ _) K) eq_refl).
    rewrite <- L. unfold conf_real, meaning. destruct (strtod val) as [[[q| | |] []]|]; cbn [at_least at_most andb]; try reflexivity. }
  clear K.
  destruct (begins_with key (chars "maxcontrolsessions")) eqn:K; [right; apply (PUT "maxcontrolsessions"%string MaxControl _ ltac:(cbn; tauto) (X1 eq_refl) eq_refl L)|clear K].
  destruct (tw && begins_with key (chars "testtimeout")) eqn:K; [|discriminate].
  apply andb_true_iff in K. destruct K as (T & K). right. apply (PUT "testtimeout"%string TestTimeout (meaning facility strtod TestTimeout val)).
  - rewrite T. cbn. tauto.
  - auto.
  - reflexivity.
  - exact L.
Qed.

(** a key of the manual names one setting, and none of them is "testports" *)
Definition uniq (tw : bool) : bool :=
  forallb (fun p => forallb (fun q => if eqb_octets (chars (fst p)) (chars (fst q)) then (if setting_eq (snd p) (snd q) then true else false) else true) (manual tw)
                    && negb (eqb_octets (chars (fst p)) (chars "testports"))) (manual tw).
Lemma uniq_ok : uniq tw = true. Proof. destruct tw; vm_compute; reflexivity. Qed.
Lemma key_one : forall key a s b s', In (a, s) (manual tw) -> In (b, s') (manual tw) -> key_is key a -> key_is key b -> s = s'.
Proof.
  intros key a s b s' I I' K K'. pose proof uniq_ok as Q. unfold uniq in Q. rewrite forallb_forall in Q. specialize (Q _ I). cbn [fst snd] in Q.
  apply andb_true_iff in Q. destruct Q as (Q & _). rewrite forallb_forall in Q. specialize (Q _ I'). cbn [fst snd] in Q.
  unfold key_is in *. rewrite <- K, <- K', eqb_octets_refl in Q. destruct (setting_eq s s'); [assumption|discriminate].
Qed.
Lemma key_not_ports : forall key a s, In (a, s) (manual tw) -> key_is key a -> ~ key_is key "testports".
Proof.
  intros key a s I K K'. pose proof uniq_ok as Q. unfold uniq in Q. rewrite forallb_forall in Q. specialize (Q _ I). cbn [fst snd] in Q.
  apply andb_true_iff in Q. destruct Q as (_ & Q). unfold key_is in *. rewrite <- K, <- K', eqb_octets_refl in Q. discriminate.
Qed.

Lemma conf_line_get : forall o key val n o', exact tw (key, val, n) -> conf_line facility strtod tw o key val = Some o' ->
  forall s, get o' s = match eff (key, val, n) s with Some v => v | None => get o s end.
Proof.
  intros o key val n o' (X1 & X2) L s. cbn [fst snd] in X1, X2. destruct (conf_line_cases o key val o' X2 X1 L) as [(K & PP)|(nm & s' & v & I & K & M & ->)].
  - assert (EF: eff (key, val, n) s = None).
    { destruct (eff (key, val, n) s) as [w|] eqn:W; [|reflexivity]. apply eff_spec in W. destruct W as (nm & I & K' & _). exfalso. eapply key_not_ports; eauto. }
    rewrite EF. pose proof (parse_ports_get o val) as Q. rewrite PP in Q. cbn [fst] in Q. now rewrite Q.
  - rewrite set_get. destruct (setting_eq s' s) as [<-|N].
    + assert (W: eff (key, val, n) s' = Some v) by (apply eff_spec; exists nm; auto). now rewrite W.
    + destruct (eff (key, val, n) s) as [w|] eqn:W; [|reflexivity]. apply eff_spec in W. destruct W as (nm' & I' & K' & _). exfalso. apply N.
      eapply key_one; eauto.
Qed.

Lemma conf_lines_get : forall l o rc b o', Forall (exact tw) l -> conf_lines facility strtod tw o rc l b = inl o' ->
  b = None /\ forall s, get o' s = match last_of (fun e => eff e s) l with Some v => v | None => get o s end.
Proof.
  induction l as [|[[key val] n] l IH]; intros o rc b o' X L; cbn [conf_lines] in L.
  - destruct b; [discriminate|]. injection L as <-. split; [reflexivity|]. intros s. reflexivity.
  - inversion X; subst. destruct (conf_line facility strtod tw o key val) as [o1|] eqn:L1; [|discriminate].
    destruct (IH _ _ _ _ H2 L) as (B & G). split; [exact B|]. intros s. rewrite G. cbn [last_of].
    destruct (last_of _ l); [reflexivity|]. now apply (conf_line_get _ _ _ n _ H1).
Qed.

Definition aeff (a : arg) (s : setting) : option value :=
  match a, s with
  | A t, Authmode | D t, Datadir | G t, Group | R t, Vardir | S t, Srcnode | U t, User => Some (Text t)
  | E t, Facility => match facility t with Some f => Some (Num f) | None => None end
  | F, AllowRoot | V, Verbose | ZZ, Foreground => Some (Flag true)
  | _, _ => None
  end.
Lemma aeff_spec : forall a s v, aeff a s = Some v <-> arg_sets facility a s v.
Proof.
  intros a s v. destruct a, s; cbn; split; intros X; try discriminate; try contradiction;
  try (injection X as <-; auto); try (destruct X as (? & X); try discriminate; congruence).
  - destruct (facility s0) as [f|]; [|discriminate]. injection X as <-. split; [reflexivity|]. exists f. auto.
  - destruct X as (_ & f & -> & ->). reflexivity.
Qed.

Definition in2 (s : setting) : bool := match s with Facility | Foreground => true | _ => false end.
Lemma pass2_get : forall l o o', pass2 facility o l = Goes o' -> portspec o' = portspec o /\ portrec o' = portrec o /\
  Forall (fun a => match a with E t => facility t <> None | _ => True end) l /\
  forall s, get o' s = match (if in2 s then last_of (fun a => aeff a s) l else None) with Some v => v | None => get o s end.
Proof.
  induction l as [|a l IH]; intros o o' Q; cbn [pass2] in Q.
  - injection Q as <-. repeat split; auto. intros s. destruct (in2 s); reflexivity.
  - assert (STEP: forall o1, pass2 facility o1 l = Goes o' -> (match a with E t => facility t <> None | _ => True end) -> portspec o1 = portspec o -> portrec o1 = portrec o ->
       (forall s, get o1 s = match (if in2 s then aeff a s else None) with Some v => v | None => get o s end) ->
       portspec o' = portspec o /\ portrec o' = portrec o /\ Forall (fun a => match a with E t => facility t <> None | _ => True end) (a :: l) /\
       forall s, get o' s = match (if in2 s then last_of (fun a => aeff a s) (a :: l) else None) with Some v => v | None => get o s end).
    { intros o1 Q1 V P1 P2 G1. destruct (IH _ _ Q1) as (A1 & A2 & A3 & A4). split; [congruence|]. split; [congruence|]. split; [constructor; assumption|].
      intros s. rewrite A4, G1. cbn [last_of]. destruct (in2 s); [|reflexivity]. destruct (last_of _ l); reflexivity. }
    destruct a; try (apply (STEP o Q I eq_refl eq_refl); intros []; reflexivity).
    + destruct (facility s) as [f|] eqn:W; [|discriminate]. apply (STEP _ Q ltac:(congruence) eq_refl eq_refl). intros []; cbn; rewrite ?W; reflexivity.
    + apply (STEP _ Q I eq_refl eq_refl). intros []; reflexivity.
Qed.

Lemma pass3_get : forall l o o', pass3 o l = Goes o' ->
  forall s, get o' s = match (if in2 s then None else last_of (fun a => aeff a s) l) with Some v => v | None => get o s end.
Proof.
  induction l as [|a l IH]; intros o o' Q; cbn [pass3] in Q.
  - injection Q as <-. intros s. destruct (in2 s); reflexivity.
  - assert (STEP: forall o1, pass3 o1 l = Goes o' ->
       (forall s, get o1 s = match (if in2 s then None else aeff a s) with Some v => v | None => get o s end) ->
       forall s, get o' s = match (if in2 s then None else last_of (fun a => aeff a s) (a :: l)) with Some v => v | None => get o s end).
    { intros o1 Q1 G1 s. rewrite (IH _ _ Q1), G1. cbn [last_of]. destruct (in2 s); [reflexivity|]. destruct (last_of _ l); reflexivity. }
    destruct a; try discriminate; try (apply (STEP _ Q); intros []; reflexivity).
    destruct (parse_ports o s) as [o1 ok] eqn:PP. destruct ok; [|discriminate]. apply (STEP _ Q).
    pose proof (parse_ports_get o s) as GG. rewrite PP in GG. cbn [fst] in GG. intros []; rewrite GG; reflexivity.
Qed.

Lemma confdir_of : forall l, dir_of l (confdir l).
Proof.
  intros l. unfold confdir. induction l as [|a l IH] using rev_ind; [constructor|].
  rewrite fold_left_app. cbn [fold_left]. set (d := fold_left _ l None) in *. destruct a.
  2: { exists l, []. auto. }
  all: destruct d as [x|]; [destruct IH as (b & a' & -> & N); exists b; eexists; split; [rewrite <- app_assoc; reflexivity|]; apply Forall_app; auto
                           |apply Forall_app; auto].
Qed.
Lemma dir_det : forall l d d', dir_of l d -> dir_of l d' -> d = d'.
Proof.
  assert (Q: forall l s, (exists b a, l = b ++ C s :: a /\ Forall (fun a => match a with C _ => False | _ => True end) a) ->
     Forall (fun a => match a with C _ => False | _ => True end) l -> False).
  { intros l s (b & a & -> & _) N. apply Forall_app in N. destruct N as (_ & N). inversion N; subst. assumption. }
  intros l [s|] [s'|] D D'; cbn [dir_of] in *; try (exfalso; eapply Q; eassumption); [|reflexivity].
  destruct D as (b & a & -> & N), D' as (b' & a' & W & N'). f_equal. revert b' W. induction b as [|y b IH]; intros [|y' b'] W; cbn in W.
  - congruence.
  - assert (a = b' ++ C s' :: a') by congruence. subst. exfalso. apply Forall_app in N. destruct N as (_ & N). inversion N; subst. assumption.
  - assert (b ++ C s :: a = a') by congruence. subst. exfalso. apply Forall_app in N'. destruct N' as (_ & N'). inversion N'; subst. assumption.
  - apply (IH b'). congruence.
Qed.
End Lemmas.

(** ** C150 *)

Definition path_of (tw : bool) (d : option (list Z)) : list Z := match d with Some d => d ++ [47] ++ conf_name tw | None => conf_name tw end.
Definition lines_of (fopen : list Z -> option conf) (tw : bool) (d : option (list Z)) : list (list Z * list Z * Z) :=
  match fopen (path_of tw d) with Some c => entries c | None => [] end.
(** what holds without an option (nwampd_conf_desc.man; [Null]: none, or that of the library) *)
Definition default (tw : bool) (s : setting) : value :=
  match s with
  | Facility => Num 24 | LogLevel => Num 6 | LogLocation | AllowRoot | Verbose | Foreground => Flag false
  | Datadir | User | Group | Authmode | Srcnode | Vardir | EndDelay => Null
  | Diskfudge => Real (Fin 1) | Dieby => Num 30 | ControlTimeout => Num (if tw then 900 else 1800) | Pbkdf2Count | MaxControl | TestTimeout => Num 0
  end.

Lemma options_inv : forall facility strtod tw fopen args n o, options facility strtod tw fopen args n = Goes o ->
  exists o1 o2, load_config facility strtod tw fopen (confdir args) (initial tw) = Goes o1 /\ pass2 facility o1 args = Goes o2 /\ pass3 o2 args = Goes o /\ n = O.
Proof.
  intros facility strtod tw fopen args n o Q. unfold options in Q.
  destruct (load_config _ _ _ _ _ _) as [o1|] eqn:L; [|discriminate]. destruct (pass2 facility o1 args) as [o2|] eqn:P2; [|discriminate].
  destruct (pass3 o2 args) as [o3|] eqn:P3; [|discriminate]. destruct n; [|discriminate]. injection Q as <-. exists o1, o2. auto.
Qed.
Lemma path_inv : forall tw d p, conf_path tw d = Some p -> p = path_of tw d /\ Z.of_nat (length p) <= MAXPATHLEN.
Proof.
  intros tw [d|] p Q; cbn in Q.
  - destruct (MAXPATHLEN <? _) eqn:B; [discriminate|]. assert (p = d ++ [47] ++ conf_name tw) by (cbn; congruence). subst p. split; [reflexivity|].
    rewrite !app_length. cbn [length]. lia.
  - injection Q as <-. split; [reflexivity|]. unfold MAXPATHLEN. destruct tw; vm_compute; discriminate.
Qed.
Lemma load_inv : forall facility strtod tw fopen d o o1, load_config facility strtod tw fopen d o = Goes o1 ->
  conf_path tw d = Some (path_of tw d) /\
  match fopen (path_of tw d) with Some c => conf_lines facility strtod tw o (Z.of_nat (length (path_of tw d))) (entries c) (bad c) = inl o1 | None => d = None /\ o1 = o end.
Proof.
  intros facility strtod tw fopen d o o1 L. unfold load_config in L. destruct (conf_path tw d) as [p|] eqn:Q; [|discriminate].
  destruct (path_inv _ _ _ Q) as (-> & _). split; [reflexivity|]. destruct (fopen (path_of tw d)) as [c|].
  - destruct (conf_lines _ _ _ _ _ _ _); congruence.
  - destruct d; [discriminate|]. split; congruence.
Qed.

(** Not true for two keys that are compared as prefixes (C151), for dieby ([C150_dieby_refuted]), and for the test ports (C152). *)
Theorem C150_precedence_partial : forall facility strtod tw fopen args n o d, options facility strtod tw fopen args n = Goes o -> dir_of args d ->
  Forall (exact tw) (lines_of fopen tw d) -> forall s,
  (forall v, last_sets (fun a w => arg_sets facility a s w) args v -> get o s = v) /\
  (never (fun a w => arg_sets facility a s w) args ->
     (forall v, last_sets (fun e w => line_sets facility strtod tw e s w) (lines_of fopen tw d) v -> get o s = v) /\
     (never (fun e w => line_sets facility strtod tw e s w) (lines_of fopen tw d) -> s <> Dieby -> get o s = default tw s)).
Proof.
  intros facility strtod tw fopen args n o d Q DO X s. destruct (options_inv _ _ _ _ _ _ _ Q) as (o1 & o2 & L & P2 & P3 & _).
  rewrite (dir_det _ _ _ (confdir_of args) DO) in L. destruct (load_inv _ _ _ _ _ _ _ L) as (_ & L').
  assert (G1: get o1 s = match last_of (fun e => eff facility strtod tw e s) (lines_of fopen tw d) with Some v => v | None => get (initial tw) s end).
  { unfold lines_of in *. destruct (fopen (path_of tw d)) as [c|].
    - apply (conf_lines_get _ _ _ _ _ _ _ _ X L').
    - destruct L' as (_ & ->). reflexivity. }
  destruct (pass2_get _ _ _ _ P2) as (_ & _ & _ & G2). pose proof (pass3_get facility _ _ _ P3 s) as G3. specialize (G2 s).
  assert (G: get o s = match last_of (fun a => aeff facility a s) args with Some v => v | None => get o1 s end).
  { rewrite G3, G2. destruct (in2 s); destruct (last_of _ args); reflexivity. }
  pose proof (last_of_spec _ _ _ args (fun x v => aeff_spec facility x s v)) as LA.
  pose proof (last_of_spec _ _ _ (lines_of fopen tw d) (fun x v => eff_spec facility strtod tw x s v)) as LF.
  assert (DA: forall x a b, arg_sets facility x s a -> arg_sets facility x s b -> a = b) by (intros x a b HA HB; apply aeff_spec in HA, HB; congruence).
  assert (DF: forall x a b, line_sets facility strtod tw x s a -> line_sets facility strtod tw x s b -> a = b) by (intros x a b HA HB; apply eff_spec in HA, HB; congruence).
  rewrite G, G1. clear G G1 G2 G3. split.
  - intros v LV. destruct (last_of _ args) as [w|]; [exact (last_sets_det _ _ _ _ _ DA LA LV)|]. exfalso; eapply last_never; eassumption.
  - intros NV. destruct (last_of _ args) as [w|]; [exfalso; exact (last_never _ _ _ _ LA NV)|]. split.
    + intros v LV. destruct (last_of _ (lines_of _ _ _)) as [w|]; [exact (last_sets_det _ _ _ _ _ DF LF LV)|]. exfalso; eapply last_never; eassumption.
    + intros NF ND. destruct (last_of _ (lines_of _ _ _)) as [w|]; [exfalso; exact (last_never _ _ _ _ LF NF)|]. destruct s; try reflexivity. congruence.
Qed.
Print Assumptions C150_precedence_partial.

(** The manual page says 30. *)
Theorem C150_dieby_refuted : forall facility strtod tw, exists o, options facility strtod tw (fun _ => None) [] 0 = Goes o /\ get o Dieby = Num 5 /\ default tw Dieby = Num 30.
Proof. intros. eexists. split; [reflexivity|]. split; reflexivity. Qed.
Print Assumptions C150_dieby_refuted.

(** twice in the file, once on the command line *)
Definition sample : conf := Conf [(chars "DataDir", chars "/a", 1); (chars "user", chars "u", 2); (chars "datadir", chars "/b", 1); (chars "dieby", chars "7", 1)] None.
Definition sample_open (p : list Z) : option conf := if eqb_octets p (chars "/etc/owamp-server.conf") then Some sample else None.
Example C150_witness : exists o, options (fun _ => None) (fun _ => None) false sample_open [U (chars "x"); C (chars "/etc"); U (chars "w")] 0 = Goes o /\
  get o Datadir = Text (chars "/b") /\ get o User = Text (chars "w") /\ get o Dieby = Num 7 /\ get o Group = Null /\
  Forall (exact false) (lines_of sample_open false (Some (chars "/etc"))).
Proof.
  eexists. split; [vm_compute; reflexivity|]. repeat split; try reflexivity.
  change (lines_of sample_open false (Some (chars "/etc"))) with (entries sample). unfold sample. cbn [entries].
  repeat constructor; unfold begins_with, key_is; cbn [fst snd]; vm_compute; try discriminate.
Qed.

(** ** C151 *)

(** a text for a range of ports: one number, or two with a dash between them; anything may follow the second *)
Definition port_text (s : list Z) (low high : Z) : Prop :=
  (exists sp1 sg d sp2 neg, s = sp1 ++ sg ++ d ++ sp2 /\ space_string sp1 /\ sign_string sg neg /\ digit_string d /\ space_string sp2 /\
     low = Port_Spec.value d /\ high = low /\ low <= 65535 /\ (neg = true -> low = 0)) \/
  (exists sp1 sg1 d1 sp2 sp3 sg2 d2 rest n1 n2, s = sp1 ++ sg1 ++ d1 ++ sp2 ++ [45] ++ sp3 ++ sg2 ++ d2 ++ rest /\
     space_string sp1 /\ sign_string sg1 n1 /\ digit_string d1 /\ space_string sp2 /\ space_string sp3 /\ sign_string sg2 n2 /\ digit_string d2 /\ no_digit rest /\
     low = Port_Spec.value d1 /\ high = Port_Spec.value d2 /\ low <= high <= 65535 /\ (n1 = true -> low = 0) /\ (n2 = true -> high = 0)).
Definition after_ports (o : opts) (low high : Z) : opts :=
  if (high =? 0) && (low =? 0) then Opts (get o) (portspec o) (low, high) else Opts (get o) true (low, high).

Lemma ports_text : forall o s low high, port_text s low high -> parse_ports o s = (after_ports o low high, true).
Proof.
  intros o s low high [(sp1 & sg & d & sp2 & neg & -> & S1 & SG & D & S2 & -> & -> & B & N)|
    (sp1 & sg1 & d1 & sp2 & sp3 & sg2 & d2 & rest & n1 & n2 & -> & S1 & G1 & D1 & S2 & S3 & G2 & D2 & NR & -> & -> & B & N1 & N2)]; unfold parse_ports, after_ports.
  - assert (V: 0 <= Port_Spec.value d) by (destruct D; apply (value_from_nonneg d 0); auto; lia).
    assert (ND: no_digit sp2) by (rewrite <- (app_nil_r sp2); apply no_digit_space; cbn; auto).
    rewrite (parse_port_app sp1 sg neg d sp2) by auto.
    replace (if neg then Port_Spec.value d =? 0 else Port_Spec.value d <=? 65535) with true by (destruct neg; [rewrite N by reflexivity; reflexivity|lia]).
    assert (K: skip_space sp2 = []) by (rewrite <- (app_nil_r sp2) at 1; apply skip_space_app; auto). rewrite K. cbn [fst snd].
    destruct (_ && _); reflexivity.
  - assert (V1: 0 <= Port_Spec.value d1) by (destruct D1; apply (value_from_nonneg d1 0); auto; lia).
    assert (V2: 0 <= Port_Spec.value d2) by (destruct D2; apply (value_from_nonneg d2 0); auto; lia).
    assert (ND: no_digit (sp2 ++ [45] ++ sp3 ++ sg2 ++ d2 ++ rest)) by (apply no_digit_space; auto; cbn; lia).
    rewrite (parse_port_app sp1 sg1 n1 d1) by auto.
    replace (if n1 then Port_Spec.value d1 =? 0 else Port_Spec.value d1 <=? 65535) with true by (destruct n1; [rewrite N1 by reflexivity; reflexivity|lia]).
    rewrite skip_space_app by (auto; cbn; lia). change ([45] ++ sp3 ++ sg2 ++ d2 ++ rest) with (45 :: (sp3 ++ sg2 ++ d2 ++ rest)). cbv beta iota.
    rewrite (parse_port_app sp3 sg2 n2 d2 rest) by auto.
    replace (if n2 then Port_Spec.value d2 =? 0 else Port_Spec.value d2 <=? 65535) with true by (destruct n2; [rewrite N2 by reflexivity; reflexivity|lia]).
    replace (Port_Spec.value d2 <? Port_Spec.value d1) with false by lia. cbn [fst snd]. destruct (_ && _); reflexivity.
Qed.
Lemma ports_inv : forall o s o', parse_ports o s = (o', true) -> exists low high, port_text s low high /\ o' = after_ports o low high.
Proof.
  intros o s o' Q. assert (T: exists low high, port_text s low high).
  { unfold parse_ports in Q. destruct (parse_port s) as [[l r]|] eqn:P; [|discriminate].
    apply parse_port_inv in P. destruct P as (sp1 & sg1 & n1 & d1 & -> & A1 & A2 & A3 & A4 & A5 & A6 & A7).
    destruct (skip_space_inv r) as (sp2 & R1 & R2 & _). destruct (skip_space r) as [|c r'] eqn:K.
    - exists l, l. left. exists sp1, sg1, d1, sp2, n1. rewrite R1, app_nil_r. repeat split; auto; try apply A3; lia.
    - destruct (Z.eq_dec c 45) as [->|N].
      + destruct (parse_port r') as [[h r'']|] eqn:P; [|discriminate]. destruct (Z.ltb_spec h l); [discriminate|].
        apply parse_port_inv in P. destruct P as (sp3 & sg2 & n2 & d2 & -> & B1 & B2 & B3 & B4 & B5 & B6 & B7). exists l, h. right.
        exists sp1, sg1, d1, sp2, sp3, sg2, d2, r'', n1, n2. rewrite R1. repeat split; auto; try (apply A3 || apply B3); lia.
      + exfalso. destruct c as [|p|p]; try discriminate. do 7 (destruct p as [p|p|]; try discriminate; try lia). }
  destruct T as (low & high & T). exists low, high. split; [exact T|]. rewrite (ports_text o _ _ _ T) in Q. congruence.
Qed.

(** a line that has a meaning *)
Definition good_line (facility : list Z -> option Z) (strtod : list Z -> option (real * bool)) (tw : bool) (e : list Z * list Z * Z) : Prop :=
  (exists s v, line_sets facility strtod tw e s v) \/ (key_is (fst (fst e)) "testports" /\ exists low high, port_text (snd (fst e)) low high).
(** an option that has a meaning *)
Definition good_arg (facility : list Z -> option Z) (a : arg) : Prop :=
  match a with E t => facility t <> None | P t => exists low high, port_text t low high | H | Unknown => False | _ => True end.

Lemma good_line_goes : forall facility strtod tw o key val n, good_line facility strtod tw (key, val, n) -> conf_line facility strtod tw o key val <> None.
Proof.
  intros facility strtod tw o key val n [(s & v & nm & I & K & M)|(K & low & high & T)]; cbn [fst snd] in *; unfold conf_line, same_name, begins_with; rewrite <- !firstn_map;
  unfold key_is in K; rewrite K.
  - assert (J: In (nm, s) (manual tw)) by exact I. unfold manual in J.
    destruct tw; cbn [app In] in J; repeat (destruct J as [J|J]; [injection J as <- <-|]); try contradiction;
    repeat match goal with |- context [eqb_octets ?a ?b] => let r := eval vm_compute in (eqb_octets a b) in change (eqb_octets a b) with r; cbv iota; cbn [negb andb] end;
    cbn [meaning] in M; unfold conf_num, conf_real;
    try discriminate;
    repeat match type of M with match ?x with _ => _ end = Some _ => destruct x eqn:?; try discriminate end; try discriminate; cbn [at_least at_most]; try discriminate;
    try match goal with H : Qle_bool _ _ = true |- _ => rewrite H; discriminate | H : _ && _ = true |- _ => rewrite H; discriminate end.
  - repeat match goal with |- context [eqb_octets ?a ?b] => let r := eval vm_compute in (eqb_octets a b) in change (eqb_octets a b) with r; cbv iota; cbn [negb andb] end.
    rewrite (ports_text o _ _ _ T). discriminate.
Qed.
Lemma goes_good_line : forall facility strtod tw o key val n o', exact tw (key, val, n) -> conf_line facility strtod tw o key val = Some o' -> good_line facility strtod tw (key, val, n).
Proof.
  intros facility strtod tw o key val n o' (X1 & X2) L. destruct (conf_line_cases _ _ _ _ _ _ _ X2 X1 L) as [(K & PP)|(nm & s & v & I & K & M & _)].
  - right. split; [exact K|]. destruct (ports_inv _ _ _ PP) as (low & high & T & _). eauto.
  - left. exists s, v, nm. auto.
Qed.
Lemma lines_good : forall facility strtod tw l o rc b, Forall (exact tw) l ->
  ((exists o', conf_lines facility strtod tw o rc l b = inl o') <-> Forall (good_line facility strtod tw) l /\ b = None).
Proof.
  intros facility strtod tw. induction l as [|[[key val] n] l IH]; intros o rc b X; cbn [conf_lines].
  - destruct b; split; intros Q; try (destruct Q; discriminate); [split; [constructor|reflexivity]|eauto].
  - inversion X; subst. destruct (conf_line facility strtod tw o key val) as [o1|] eqn:L.
    + rewrite (IH o1 (rc + n) b H2). pose proof (goes_good_line _ _ _ _ _ _ n _ H1 L). split; intros (Q1 & Q2); split; auto. now inversion Q1.
    + split; [intros (? & ?); discriminate|]. intros (Q & _). inversion Q; subst. exfalso. eapply good_line_goes; eassumption.
Qed.
Lemma pass2_goes : forall facility l o, (exists o', pass2 facility o l = Goes o') <-> Forall (fun a => match a with E t => facility t <> None | _ => True end) l.
Proof.
  intros facility. induction l as [|a l IH]; intros o; [split; [constructor|eexists; reflexivity]|].
  split.
  - intros (o' & Q). cbn [pass2] in Q. destruct a; try (constructor; [exact I|]; eapply IH; eexists; exact Q).
    destruct (facility s) eqn:W; [|discriminate]. constructor; [congruence|]. eapply IH; eexists; exact Q.
  - intros Q. inversion Q; subst. cbn [pass2]. destruct a; try (now apply IH). destruct (facility s); [now apply IH|congruence].
Qed.
Lemma pass3_goes : forall l o, (exists o', pass3 o l = Goes o') <-> Forall (fun a => match a with P t => exists low high, port_text t low high | H | Unknown => False | _ => True end) l.
Proof.
  induction l as [|a l IH]; intros o; [split; [constructor|eexists; reflexivity]|].
  split.
  - intros (o' & Q). cbn [pass3] in Q. destruct a; try discriminate; try (constructor; [exact I|]; eapply IH; eexists; exact Q).
    destruct (parse_ports o s) as [o1 []] eqn:W; [|discriminate]. destruct (ports_inv _ _ _ W) as (low & high & T & _). constructor; [eauto|]. eapply IH; eexists; exact Q.
  - intros Q. inversion Q; subst. cbn [pass3]. destruct a; try (now apply IH); try contradiction. destruct H1 as (low & high & T).
    rewrite (ports_text o _ _ _ T). now apply IH.
Qed.

(** The daemon goes on exactly if the path fits, a directory that is given has the file, and everything in the file and on the command line has a meaning.
    Not true for keys that only begin like one of two keys ([C151_prefix_refuted]). *)
Theorem C151_accepted_partial : forall facility strtod tw fopen args n d, dir_of args d -> Forall (exact tw) (lines_of fopen tw d) ->
  ((exists o, options facility strtod tw fopen args n = Goes o) <->
   Z.of_nat (length (path_of tw d)) <= 4096 /\ (d <> None -> fopen (path_of tw d) <> None) /\
   (forall c, fopen (path_of tw d) = Some c -> Forall (good_line facility strtod tw) (entries c) /\ bad c = None) /\
   Forall (good_arg facility) args /\ n = O).
Proof.
  intros facility strtod tw fopen args n d DO X. split.
  - intros (o & Q). destruct (options_inv _ _ _ _ _ _ _ Q) as (o1 & o2 & L & P2 & P3 & N).
    rewrite (dir_det _ _ _ (confdir_of args) DO) in L. destruct (load_inv _ _ _ _ _ _ _ L) as (PA & L'). destruct (path_inv _ _ _ PA) as (_ & LE).
    split; [exact LE|]. unfold lines_of in X. destruct (fopen (path_of tw d)) as [c|].
    + split; [discriminate|]. split.
      * intros c' W. injection W as <-. eapply lines_good; eauto.
      * split; [|exact N]. assert (F2: exists o', pass2 facility o1 args = Goes o') by eauto. apply pass2_goes in F2. assert (F3: exists o', pass3 o2 args = Goes o') by eauto. apply pass3_goes in F3.
        rewrite Forall_forall in *. intros a I. specialize (F2 a I). specialize (F3 a I). destruct a; cbn; auto.
    + destruct L' as (-> & ->). split; [congruence|]. split; [discriminate|].
      split; [|exact N]. assert (F2: exists o', pass2 facility (initial tw) args = Goes o') by eauto. apply pass2_goes in F2. assert (F3: exists o', pass3 o2 args = Goes o') by eauto. apply pass3_goes in F3.
      rewrite Forall_forall in *. intros a I. specialize (F2 a I). specialize (F3 a I). destruct a; cbn; auto.
  - intros (LE & DF & CF & GA & ->). assert (PA: conf_path tw d = Some (path_of tw d)).
    { destruct d as [d|]; [|reflexivity]. unfold conf_path, path_of in *. rewrite !app_length in LE. cbn [length] in LE. unfold MAXPATHLEN.
      destruct (4096 <? _) eqn:B; [lia|reflexivity]. }
    assert (L: exists o1, load_config facility strtod tw fopen d (initial tw) = Goes o1).
    { unfold load_config. rewrite PA. unfold lines_of in X. destruct (fopen (path_of tw d)) as [c|].
      - destruct (CF c eq_refl) as (C1 & C2). destruct (proj2 (lines_good facility strtod tw (entries c) (initial tw) (Z.of_nat (length (path_of tw d))) (bad c) X)) as (o1 & ->); eauto.
      - destruct d; [exfalso; apply DF; congruence|eauto]. }
    destruct L as (o1 & L). unfold options. rewrite (dir_det _ _ _ (confdir_of args) DO), L.
    destruct (proj2 (pass2_goes facility args o1)) as (o2 & ->).
    { rewrite Forall_forall in *. intros a I. specialize (GA a I). destruct a; cbn in *; auto. }
    destruct (proj2 (pass3_goes args o2)) as (o3 & ->).
    { rewrite Forall_forall in *. intros a I. specialize (GA a I). destruct a; cbn in *; auto. }
    eauto.
Qed.
Print Assumptions C151_accepted_partial.
Example C151_witness : dir_of [C (chars "/etc")] (Some (chars "/etc")) /\ Forall (good_line (fun _ => None) (fun _ => None) false) (entries sample) /\
  ~ good_line (fun _ => None) (fun _ => None) false (chars "datadirs", chars "/a", 1).
Proof.
  split; [exists [], []; auto|]. split.
  - unfold sample; cbn [entries].
    apply Forall_cons; [left; exists Datadir, (Text (chars "/a")), "datadir"%string; split; [cbn; tauto|split; vm_compute; reflexivity]|].
    apply Forall_cons; [left; exists User, (Text (chars "u")), "user"%string; split; [cbn; tauto|split; vm_compute; reflexivity]|].
    apply Forall_cons; [left; exists Datadir, (Text (chars "/b")), "datadir"%string; split; [cbn; tauto|split; vm_compute; reflexivity]|].
    apply Forall_cons; [left; exists Dieby, (Num 7), "dieby"%string; split; [cbn; tauto|split; vm_compute; reflexivity]|]. constructor.
  - intros [(s & v & nm & I & K & _)|(K & _)]; [|vm_compute in K; discriminate].
    cbn [fst] in K. unfold manual in I. cbn [app In] in I.
    repeat (destruct I as [I|I]; [injection I as <- <-; vm_compute in K; discriminate|]). contradiction.
Qed.

(** A key that begins with "maxcontrolsessions" and goes on is taken for that key. *)
Theorem C151_prefix_refuted : forall facility strtod tw rest val n, rest <> [] -> conf_number val = Some n ->
  let key := chars "maxcontrolsessions" ++ rest in
  (exists o, options facility strtod tw (fun _ => Some (Conf [(key, val, 1)] None)) [] 0 = Goes o /\ get o MaxControl = Num n) /\
  ~ good_line facility strtod tw (key, val, 1).
Proof.
  intros facility strtod tw rest val n R CN key. split.
  - assert (L: conf_line facility strtod tw (initial tw) key val = Some (set (initial tw) MaxControl (Num n))).
    { assert (B: begins_with key (chars "maxcontrolsessions") = true).
      { unfold begins_with, key. rewrite firstn_app, Nat.sub_diag, firstn_O, app_nil_r, firstn_all. vm_compute. reflexivity. }
      unfold conf_line. rewrite B. unfold same_name, conf_num. rewrite CN. unfold key. rewrite !map_app.
      change (map lower (chars "maxcontrolsessions")) with (109 :: skipn 1 (chars "maxcontrolsessions")). cbn [app].
      repeat match goal with |- context [eqb_octets (109 :: ?x) (chars ?y)] => change (eqb_octets (109 :: x) (chars y)) with false; cbv iota; rewrite ?andb_false_r end.
      reflexivity. }
    eexists. unfold options, load_config. cbn [confdir fold_left conf_path]. cbn [entries bad conf_lines]. rewrite L. cbn [pass2 pass3]. split; [reflexivity|]. reflexivity.
  - intros [(s & v & nm & I & K & _)|(K & _)]; cbn [fst] in K; unfold key_is, key in K; rewrite map_app in K.
    + destruct rest as [|c rest]; [congruence|]. unfold manual in I.
      destruct tw; cbn [app In] in I; repeat (destruct I as [I|I]; [injection I as <- <-; vm_compute in K; discriminate|]); contradiction.
    + vm_compute in K. discriminate.
Qed.
Print Assumptions C151_prefix_refuted.
Example C151_prefix_witness : conf_number (chars "5") = Some 5. Proof. reflexivity. Qed.

(** An option that does not exist (or -h) ends the daemon with status 0, as if nothing were wrong. *)
Theorem C151_status_refuted : forall facility strtod tw n, options facility strtod tw (fun _ => None) [Unknown] n = Exits 0 None.
Proof. reflexivity. Qed.
Print Assumptions C151_status_refuted.

(** ** C152 *)

(** the texts for the test ports: those of the file, then those of the command line *)
Definition port_texts (lines : list (list Z * list Z * Z)) (args : list arg) : list (list Z) :=
  map (fun e => snd (fst e)) (filter (fun e => same_name (fst (fst e)) (chars "testports")) lines) ++
  flat_map (fun a => match a with P t => [t] | _ => [] end) args.

Definition says (t : list Z) (r : Z * Z) : Prop := port_text t (fst r) (snd r).
(** the options after a list of ranges *)
Definition after_all (o : opts) (l : list (Z * Z)) : opts := fold_left (fun o r => after_ports o (fst r) (snd r)) l o.
Lemma after_ports_eta : forall o r, get (after_ports o (fst r) (snd r)) = get o /\ portrec (after_ports o (fst r) (snd r)) = r /\
  portspec (after_ports o (fst r) (snd r)) = portspec o || negb ((snd r =? 0) && (fst r =? 0)).
Proof.
  intros o (a, b). unfold after_ports. cbn [fst snd]. destruct ((b =? 0) && (a =? 0)); cbn [get portrec portspec negb]; rewrite ?orb_false_r, ?orb_true_r; auto.
Qed.
Lemma lines_ports : forall facility strtod tw l o rc b o', Forall (exact tw) l -> conf_lines facility strtod tw o rc l b = inl o' ->
  exists rs, Forall2 says (port_texts l []) rs /\ portspec o' = portspec (after_all o rs) /\ portrec o' = portrec (after_all o rs).
Proof.
  intros facility strtod tw. unfold port_texts. cbn [flat_map]. induction l as [|[[key val] n] l IH]; intros o rc b o' X L; cbn [conf_lines] in L.
  - destruct b; [discriminate|]. injection L as <-. exists []. cbn. auto.
  - inversion X; subst. destruct (conf_line facility strtod tw o key val) as [o1|] eqn:L1; [|discriminate].
    destruct (IH _ _ _ _ H2 L) as (rs & R1 & R2 & R3). rewrite app_nil_r in *. destruct H1 as (X1 & X2). cbn [filter fst snd] in *.
    destruct (conf_line_cases _ _ _ _ _ _ _ X2 X1 L1) as [(K & PP)|(nm & s & v & I & K & M & ->)].
    + destruct (ports_inv _ _ _ PP) as (low & high & T & ->). rewrite (proj2 (same_name_spec _ _) K). cbn [map fst snd].
      exists ((low, high) :: rs). split; [constructor; assumption|]. cbn [after_all fold_left fst snd]. auto.
    + assert (W: same_name key (chars "testports") = false).
      { destruct (same_name key (chars "testports")) eqn:W; [|reflexivity]. exfalso. apply same_name_spec in W. eapply key_not_ports; eauto. }
      rewrite W. exists rs. split; [assumption|]. rewrite R2, R3. clear. split.
      * unfold after_all. generalize o. assert (G: forall rs a b, portspec a = portspec b -> portspec (fold_left (fun o r => after_ports o (fst r) (snd r)) rs a) = portspec (fold_left (fun o r => after_ports o (fst r) (snd r)) rs b)).
        { clear. induction rs as [|r rs IH]; intros a b E; [exact E|]. cbn [fold_left]. apply IH.
          rewrite (proj2 (proj2 (after_ports_eta a r))), (proj2 (proj2 (after_ports_eta b r))), E. reflexivity. }
        intros o0. now apply G.
      * unfold after_all. destruct rs as [|r rs] using rev_ind; [reflexivity|]. rewrite !fold_left_app. cbn [fold_left].
        now rewrite (proj1 (proj2 (after_ports_eta _ r))), (proj1 (proj2 (after_ports_eta _ r))).
Qed.
Lemma after_all_spec : forall rs o, portspec (after_all o rs) = portspec o || existsb (fun r => negb ((snd r =? 0) && (fst r =? 0))) rs.
Proof.
  induction rs as [|r rs IH]; intros o; cbn [existsb]; [now rewrite orb_false_r|]. unfold after_all in *. cbn [fold_left]. rewrite IH.
  rewrite (proj2 (proj2 (after_ports_eta o r))). now rewrite orb_assoc.
Qed.
Lemma after_all_rec : forall rs o r, portrec (after_all o (rs ++ [r])) = r.
Proof. intros. unfold after_all. rewrite fold_left_app. cbn [fold_left]. apply after_ports_eta. Qed.
Lemma last_more : forall A (l : list A) a d, last (a :: l) d = last l a.
Proof. intros A. induction l as [|b l IH]; intros a d; [reflexivity|]. change (last (a :: b :: l) d) with (last (b :: l) d). now rewrite !IH. Qed.
Lemma pass3_ports : forall l o o', pass3 o l = Goes o' ->
  exists rs, Forall2 says (port_texts [] l) rs /\ portspec o' = portspec o || existsb (fun r => negb ((snd r =? 0) && (fst r =? 0))) rs /\
    portrec o' = last rs (portrec o).
Proof.
  unfold port_texts. cbn [filter map app]. induction l as [|a l IH]; intros o o' Q; cbn [pass3] in Q.
  - injection Q as <-. exists []. cbn. rewrite orb_false_r. auto.
  - assert (STEP: forall o1, pass3 o1 l = Goes o' -> portspec o1 = portspec o -> portrec o1 = portrec o -> (match a with P _ => False | _ => True end) ->
      exists rs, Forall2 says (flat_map (fun a => match a with P t => [t] | _ => [] end) (a :: l)) rs /\ portspec o' = portspec o || existsb (fun r => negb ((snd r =? 0) && (fst r =? 0))) rs /\
        portrec o' = last rs (portrec o)).
    { intros o1 Q1 S1 R1 NP. destruct (IH _ _ Q1) as (rs & A1 & A2 & A3). exists rs. rewrite <- S1, <- R1. destruct a; try contradiction; auto. }
    destruct a; try discriminate; try (now apply (STEP _ Q)).
    destruct (parse_ports o s) as [o1 []] eqn:PP; [|discriminate]. destruct (ports_inv _ _ _ PP) as (low & high & T & ->).
    destruct (IH _ _ Q) as (rs & A1 & A2 & A3). exists ((low, high) :: rs). pose proof (after_ports_eta o (low, high)) as (_ & E2 & E3). cbn [fst snd] in *.
    split; [constructor; assumption|]. split; [rewrite A2, E3, <- orb_assoc; reflexivity|]. rewrite A3, E2. symmetry. apply last_more.
Qed.

(** The last text counts, and without a text, or if all are 0, the system chooses.  Not true if 0 is to undo an earlier range ([C152_zero_refuted]). *)
Theorem C152_ports_partial : forall facility strtod tw fopen args n o d, options facility strtod tw fopen args n = Goes o -> dir_of args d ->
  Forall (exact tw) (lines_of fopen tw d) ->
  exists ranges, Forall2 says (port_texts (lines_of fopen tw d) args) ranges /\
    (Forall (fun r => r = (0, 0)) ranges -> test_ports o = None) /\
    (forall before r, ranges = before ++ [r] -> r <> (0, 0) -> test_ports o = Some r).
Proof.
  intros facility strtod tw fopen args n o d Q DO X. destruct (options_inv _ _ _ _ _ _ _ Q) as (o1 & o2 & L & P2 & P3 & _).
  rewrite (dir_det _ _ _ (confdir_of args) DO) in L. destruct (load_inv _ _ _ _ _ _ _ L) as (_ & L').
  assert (F: exists rs, Forall2 says (port_texts (lines_of fopen tw d) []) rs /\ portspec o1 = portspec (after_all (initial tw) rs) /\ portrec o1 = portrec (after_all (initial tw) rs)).
  { unfold lines_of in *. destruct (fopen (path_of tw d)) as [c|].
    - eapply lines_ports; eauto.
    - destruct L' as (_ & ->). exists []. cbn. repeat split; constructor. }
  destruct F as (rs & F1 & F2 & F3). destruct (pass2_get _ _ _ _ P2) as (S2 & R2 & _ & _). destruct (pass3_ports _ _ _ P3) as (rs' & G1 & G2 & G3).
  exists (rs ++ rs'). split.
  { unfold port_texts in *. cbn [flat_map filter map app] in *. rewrite app_nil_r in F1. apply Forall2_app; assumption. }
  rewrite after_all_spec in F2. cbn [portspec initial orb] in F2.
  assert (PS: portspec o = existsb (fun r => negb ((snd r =? 0) && (fst r =? 0))) (rs ++ rs')) by (rewrite existsb_app, G2, S2, F2; reflexivity).
  unfold test_ports. split.
  - intros Z0. replace (portspec o) with false; [reflexivity|]. rewrite PS. symmetry. apply not_true_iff_false. intros E. apply existsb_exists in E.
    destruct E as (r & I & E). rewrite Forall_forall in Z0. rewrite (Z0 r I) in E. discriminate.
  - intros b r E NZ. replace (portspec o) with true.
    + f_equal. rewrite G3, R2, F3. destruct rs' as [|x rs'] using rev_ind.
      * rewrite app_nil_r in E. subst rs. cbn [last]. apply after_all_rec.
      * rewrite app_assoc in E. apply app_inj_tail in E. destruct E as (_ & ->). apply last_last.
    + symmetry. rewrite PS, E, existsb_app. apply orb_true_iff. right. cbn [existsb]. destruct r as (x, y). cbn [fst snd].
      destruct (Z.eqb_spec y 0), (Z.eqb_spec x 0); subst; try reflexivity. congruence.
Qed.
Print Assumptions C152_ports_partial.

(** A range of the file is not undone by -P 0: the range from 0 to 0 is put into the context, and for one random number the daemon asks for port 1
    instead of a port of the choice of the system. *)
Theorem C152_zero_refuted : forall facility strtod, exists o,
  options facility strtod false (fun _ => Some (Conf [(chars "testports", chars "8760-9960", 1)] None)) [P (chars "0")] 0 = Goes o /\
  test_ports o = Some (0, 0) /\
  choose_port 1 false true 0 None 4294967295 (fun _ _ => BindOK) = SBound 0 [0] /\
  choose_port 1 false true 0 (test_ports o) 4294967295 (fun _ _ => BindOK) = SBound 1 [1].
Proof. intros. eexists. split; [reflexivity|]. split; [reflexivity|]. split; vm_compute; reflexivity. Qed.
Print Assumptions C152_zero_refuted.
Example C152_witness : exists o, options (fun _ => None) (fun _ => None) false (fun _ => Some (Conf [(chars "testports", chars "8760-9960", 1)] None)) [P (chars "5000 - 6000")] 0 = Goes o /\
  test_ports o = Some (5000, 6000).
Proof. eexists. split; reflexivity. Qed.

(** ** C153 *)

Definition line_number (before : list (list Z * list Z * Z)) (n : Z) : Z := fold_right (fun e k => snd e + k) n before.
Lemma conf_lines_row : forall facility strtod tw l o rc b row, Forall (exact tw) l -> conf_lines facility strtod tw o rc l b = inr row ->
  exists before n, row = rc + line_number before n /\ Forall (good_line facility strtod tw) before /\
    ((exists e after, l = before ++ e :: after /\ n = snd e /\ ~ good_line facility strtod tw e) \/ (l = before /\ b = Some n)).
Proof.
  intros facility strtod tw. induction l as [|[[key val] k] l IH]; intros o rc b row X L; cbn [conf_lines] in L.
  - destruct b as [n|]; [|discriminate]. injection L as <-. exists [], n. cbn. auto.
  - inversion X; subst. destruct (conf_line facility strtod tw o key val) as [o1|] eqn:L1.
    + destruct (IH _ _ _ _ H2 L) as (bf & n & -> & G & W). exists ((key, val, k) :: bf), n. cbn [line_number fold_right snd]. split; [unfold line_number; lia|].
      split; [constructor; [eapply goes_good_line; eauto|assumption]|].
      destruct W as [(e & af & -> & -> & NG)|(-> & ->)]; [left; exists e, af; auto|right; auto].
    + injection L as <-. exists [], k. split; [reflexivity|]. split; [constructor|]. left. exists (key, val, k), l. cbn. repeat split.
      intros G. exact (good_line_goes _ _ _ o _ _ _ G L1).
Qed.
(** The row in the message about the file is the number of the faulty line plus the length of the name of the file: always too large. *)
Theorem C153_row_refuted : forall facility strtod tw fopen args n d status row, dir_of args d -> Forall (exact tw) (lines_of fopen tw d) ->
  options facility strtod tw fopen args n = Exits status (Some row) ->
  exists c before k, fopen (path_of tw d) = Some c /\ status = 1 /\ row = line_number before k + Z.of_nat (length (path_of tw d)) /\ line_number before k < row /\
    Forall (good_line facility strtod tw) before /\
    ((exists e after, entries c = before ++ e :: after /\ k = snd e /\ ~ good_line facility strtod tw e) \/ (entries c = before /\ bad c = Some k)).
Proof.
  intros facility strtod tw fopen args n d status row DO X Q. unfold options in Q. rewrite (dir_det _ _ _ (confdir_of args) DO) in Q.
  assert (P2: forall l o s r, pass2 facility o l = Exits s r -> r = None).
  { induction l as [|a l IH]; intros o s r W; [discriminate|]. cbn [pass2] in W. destruct a; try (eapply IH; eassumption).
    destruct (facility s0); [eapply IH; eassumption|congruence]. }
  assert (P3: forall l o s r, pass3 o l = Exits s r -> r = None).
  { induction l as [|a l IH]; intros o s r W; [discriminate|]. cbn [pass3] in W. destruct a; try (eapply IH; eassumption); try congruence.
    destruct (parse_ports o s0) as [o1 []]; [eapply IH; eassumption|congruence]. }
  destruct (load_config facility strtod tw fopen d (initial tw)) as [o1|st rw] eqn:L.
  { destruct (pass2 facility o1 args) as [o2|st rw] eqn:Q2; [|assert (rw = None) by (eapply P2; eauto); congruence].
    destruct (pass3 o2 args) as [o3|st rw] eqn:Q3; [|assert (rw = None) by (eapply P3; eauto); congruence]. destruct n; discriminate. }
  assert (st = status /\ rw = Some row) as (-> & ->) by (split; congruence). clear Q. unfold load_config in L. unfold lines_of in X.
  destruct (conf_path tw d) as [p|] eqn:PA; [|discriminate]. destruct (path_inv _ _ _ PA) as (-> & _).
  destruct (fopen (path_of tw d)) as [c|]; [|destruct d; discriminate].
  destruct (conf_lines _ _ _ _ _ _ _) as [|rw] eqn:CL; [discriminate|]. assert (rw = row /\ status = 1) as (-> & ->) by (split; congruence).
  destruct (conf_lines_row _ _ _ _ _ _ _ _ X CL) as (bf & k & -> & G & W). exists c, bf, k.
  assert (0 < Z.of_nat (length (path_of tw d))).
  { destruct d as [d|]; cbn [path_of]; [rewrite !app_length; cbn [length]; lia|destruct tw; vm_compute; reflexivity]. }
  repeat split; auto; lia.
Qed.
Print Assumptions C153_row_refuted.
Example C153_witness : options (fun _ => None) (fun _ => None) false (fun _ => Some (Conf [(chars "user", chars "u", 2); (chars "usr", chars "u", 1)] None)) [] 0 = Exits 1 (Some (3 + 17)).
Proof. reflexivity. Qed.

(** ** C154 *)

Definition closes (f : nat) (l : list action) : nat := length (filter (fun a => match a with Close g => Nat.eqb f g | _ => false end) l).
Definition hooks (l : list action) : list nat := flat_map (fun a => match a with Install n => [n] | _ => [] end) l.
(** the names of the two files *)
Definition pfs_file (dir prefix : list Z) : list Z := dir ++ [47] ++ prefix ++ chars ".pfs".
Definition limits_file (dir prefix : list Z) : list Z := dir ++ [47] ++ prefix ++ chars ".limits".

Lemma policy_path_spec : forall dir prefix suffix p, policy_path dir prefix suffix = Some p ->
  p = dir ++ [47] ++ prefix ++ suffix /\ Z.of_nat (length p) <= 4096.
Proof.
  intros dir prefix suffix p Q. unfold policy_path, MAXPATHLEN in Q. destruct (4096 <? _) eqn:B1; [discriminate|]. destruct (4096 <? Z.of_nat (_ + (_ + 1))) eqn:B2; [discriminate|].
  assert (p = dir ++ [47] ++ prefix ++ suffix) by (injection Q as <-; reflexivity). subst. split; [reflexivity|]. rewrite !app_length. cbn [length]. lia.
Qed.
Lemma policy_path_fits : forall dir prefix suffix, Z.of_nat (length (dir ++ [47] ++ prefix ++ suffix)) <= 4096 -> policy_path dir prefix suffix = Some (dir ++ [47] ++ prefix ++ suffix).
Proof.
  intros dir prefix suffix L. rewrite !app_length in L. cbn [length] in L. unfold policy_path, MAXPATHLEN.
  destruct (Z.ltb_spec 4096 (Z.of_nat (length prefix + length suffix))); [lia|].
  destruct (Z.ltb_spec 4096 (Z.of_nat (length prefix + length suffix + (length dir + 1)))); [lia|]. reflexivity.
Qed.
Lemma pfs_fits : forall dir prefix, Z.of_nat (length (limits_file dir prefix)) <= 4096 -> Z.of_nat (length (pfs_file dir prefix)) <= 4096.
Proof. intros dir prefix. unfold limits_file, pfs_file. rewrite !app_length. change (length (chars ".limits")) with 7%nat. change (length (chars ".pfs")) with 4%nat. lia. Qed.
Lemma installs_all : forall set k n l, installs set n k = (l, true) -> hooks l = seq n k /\ (forall i, (n <= i < n + k)%nat -> set i = true) /\ forall f, closes f l = O.
Proof.
  intros set. induction k as [|k IH]; intros n l Q; cbn [installs] in Q.
  - injection Q as <-. repeat split; auto. intros; lia.
  - destruct (set n) eqn:SN; [|discriminate]. destruct (installs set (Datatypes.S n) k) as [l' ok] eqn:I. assert (ok = true) by congruence. assert (l = Install n :: l') by congruence. subst.
    destruct (IH _ _ I) as (A1 & A2 & A3). cbn [hooks flat_map seq app]. fold (hooks l'). rewrite A1. split; [reflexivity|]. split.
    + intros i B. destruct (Nat.eq_dec i n) as [->|]; [assumption|]. apply A2. lia.
    + intros f. apply A3.
Qed.
Lemma installs_closes : forall set k n f, closes f (fst (installs set n k)) = O.
Proof.
  intros set. induction k as [|k IH]; intros n f; cbn [installs]; [reflexivity|]. destruct (set n); [|reflexivity].
  specialize (IH (Datatypes.S n) f). destruct (installs set (Datatypes.S n) k). exact IH.
Qed.

(** If a policy is returned: both names fit, each file was read without error or does not exist, and the policy and all seven hooks are in place, in order. *)
Theorem C154_installed : forall w dir prefix l, install w dir prefix = (l, true) ->
  Z.of_nat (length (pfs_file dir prefix)) <= 4096 /\ Z.of_nat (length (limits_file dir prefix)) <= 4096 /\
  w_open w (pfs_file dir prefix) <> OpenError /\ w_open w (limits_file dir prefix) <> OpenError /\
  w_pfs w (match w_open w (pfs_file dir prefix) with Stream f => Some f | _ => None end) = true /\
  w_limits w (match w_open w (limits_file dir prefix) with Stream f => Some f | _ => None end) = true /\
  hooks l = [0; 1; 2; 3; 4; 5; 6; 7]%nat /\ forall i, (i < 8)%nat -> w_set w i = true.
Proof.
  intros w dir prefix l Q. unfold install in Q.
  destruct (policy_path dir prefix suffix_pfs) as [p|] eqn:PP; [|discriminate]. apply policy_path_spec in PP. destruct PP as (-> & L1).
  change (dir ++ [47] ++ prefix ++ suffix_pfs) with (pfs_file dir prefix) in *.
  assert (OK: w_open w (pfs_file dir prefix) <> OpenError) by (intros E; rewrite E in Q; discriminate).
  destruct (open_error (w_open w (pfs_file dir prefix))); [discriminate|].
  destruct (policy_path dir prefix suffix_limits) as [p|] eqn:PP; [|discriminate]. apply policy_path_spec in PP. destruct PP as (-> & L2).
  change (dir ++ [47] ++ prefix ++ suffix_limits) with (limits_file dir prefix) in *.
  assert (OL: w_open w (limits_file dir prefix) <> OpenError) by (intros E; rewrite E in Q; discriminate).
  destruct (open_error (w_open w (limits_file dir prefix))); [discriminate|].
  repeat (split; [assumption|]).
  change (match w_open w (pfs_file dir prefix) with Stream f => Some f | _ => None end) with (stream (w_open w (pfs_file dir prefix))).
  change (match w_open w (limits_file dir prefix) with Stream f => Some f | _ => None end) with (stream (w_open w (limits_file dir prefix))).
  generalize dependent (stream (w_open w (pfs_file dir prefix))). generalize dependent (stream (w_open w (limits_file dir prefix))). intros lfp kfp Q.
  destruct (w_pfs w kfp); [|discriminate]. destruct (w_limits w lfp); [|discriminate]. cbn [negb] in Q.
  destruct (match kfp with Some f => negb (w_close w f) | None => false end); [discriminate|].
  destruct (match lfp with Some f => negb (w_close w f) | None => false end); [discriminate|].
  destruct (installs (w_set w) 0 8) as [i ok] eqn:I. assert (ok = true) by congruence. subst ok.
  destruct (installs_all _ _ _ _ I) as (A1 & A2 & _). split; [reflexivity|]. split; [reflexivity|]. split; [|intros j B; apply A2; lia].
  assert (l = close_if kfp ++ close_if lfp ++ i) by congruence. subst l. unfold hooks in *. rewrite !flat_map_app, A1. destruct kfp, lfp; reflexivity.
Qed.
Print Assumptions C154_installed.

(** Whatever happens, a file that was opened is closed exactly once, if fclose never fails.  Not true otherwise ([C154_twice_refuted]). *)
Theorem C154_closed_partial : forall w dir prefix f, (forall g, w_close w g = true) ->
  let k := w_open w (pfs_file dir prefix) in let m := w_open w (limits_file dir prefix) in k <> m \/ k = NoFile ->
  Z.of_nat (length (limits_file dir prefix)) <= 4096 ->
  closes f (fst (install w dir prefix)) = if match k with OpenError => false | Stream g => Nat.eqb f g | NoFile => false end then 1%nat
    else if match k with OpenError => false | _ => match m with Stream g => Nat.eqb f g | _ => false end end then 1%nat else 0%nat.
Proof.
  intros w dir prefix f CL k m NE LE. unfold install.
  pose proof (policy_path_fits dir prefix suffix_limits LE) as PL. pose proof (policy_path_fits dir prefix suffix_pfs (pfs_fits _ _ LE)) as PK.
  change (dir ++ [47] ++ prefix ++ suffix_limits) with (limits_file dir prefix) in *. change (dir ++ [47] ++ prefix ++ suffix_pfs) with (pfs_file dir prefix) in *.
  rewrite PK, PL. clear PK PL LE. subst k m. revert NE. generalize (w_open w (pfs_file dir prefix)) as k. generalize (w_open w (limits_file dir prefix)) as m. intros m k NE.
  pose proof (installs_closes (w_set w) 8 0 f) as IC. destruct (installs (w_set w) 0 8) as [i ok]. cbn [fst] in IC. unfold closes in *.
  destruct k as [a| |]; cbn [open_error]; [| |reflexivity].
  - destruct m as [b| |]; cbn [stream open_error close_if app fst].
    + rewrite (CL a), (CL b). cbn [negb]. assert (a <> b) by (destruct NE; congruence).
      destruct (w_pfs w (Some a)); cbn [negb]; [destruct (w_limits w (Some b)); cbn [negb]|]; cbn [fst app filter];
      destruct (Nat.eqb_spec f a), (Nat.eqb_spec f b); subst; try congruence; cbn [length]; rewrite ?IC; reflexivity.
    + rewrite (CL a). cbn [negb].
      destruct (w_pfs w (Some a)); cbn [negb]; [destruct (w_limits w None); cbn [negb]|]; cbn [fst app filter]; destruct (Nat.eqb_spec f a); cbn [length]; rewrite ?IC; reflexivity.
    + cbn [filter]. destruct (Nat.eqb_spec f a); reflexivity.
  - destruct m as [b| |]; cbn [stream open_error close_if app fst]; [| |reflexivity].
    + rewrite (CL b). cbn [negb].
      destruct (w_pfs w None); cbn [negb]; [destruct (w_limits w (Some b)); cbn [negb]|]; cbn [fst app filter]; destruct (Nat.eqb_spec f b); cbn [length]; rewrite ?IC; reflexivity.
    + destruct (w_pfs w None); cbn [negb]; [destruct (w_limits w None); cbn [negb]|]; cbn [fst app filter length]; rewrite ?IC; reflexivity.
Qed.
Print Assumptions C154_closed_partial.

(** If fclose fails for the file of the pass phrases, it is called again for the same stream, which is not defined. *)
Theorem C154_twice_refuted : forall w dir prefix f, Z.of_nat (length (limits_file dir prefix)) <= 4096 -> w_open w (pfs_file dir prefix) = Stream f -> w_open w (limits_file dir prefix) = NoFile ->
  w_pfs w (Some f) = true -> w_limits w None = true -> w_close w f = false -> install w dir prefix = ([Close f; Close f], false).
Proof.
  intros w dir prefix f LE K L PK PL CF. unfold install.
  pose proof (policy_path_fits dir prefix suffix_limits LE) as P1. pose proof (policy_path_fits dir prefix suffix_pfs (pfs_fits _ _ LE)) as P2.
  change (dir ++ [47] ++ prefix ++ suffix_limits) with (limits_file dir prefix) in *. change (dir ++ [47] ++ prefix ++ suffix_pfs) with (pfs_file dir prefix) in *.
  rewrite P2, P1, K, L. cbn [stream open_error]. rewrite PK, PL, CF. reflexivity.
Qed.
Print Assumptions C154_twice_refuted.
Example C154_witness : forall ok, fst (install (World (fun p => if eqb_octets p (chars "/e/o.pfs") then Stream 3 else NoFile) (fun _ => true) (fun _ => true) (fun _ => ok) (fun _ => true)) (chars "/e") (chars "o")) =
  if ok then [Close 3; Install 0; Install 1; Install 2; Install 3; Install 4; Install 5; Install 6; Install 7] else [Close 3; Close 3].
Proof. destruct ok; vm_compute; reflexivity. Qed.

(** ** C155 *)

(** the letters of the modes; small letters count as well.  Their numbers are those of the protocol *)
Definition letters (tw : bool) : list (Z * Z * Z) := [(79, 111, 0); (65, 97, 1); (69, 101, 2)] ++ (if tw then [(77, 109, 3)] else []).
Lemma mode_bits : forall tw c b, MODE_BITS tw c = Some b -> exists big small i, In (big, small, i) (letters tw) /\ (c = big \/ c = small) /\ b = 2 ^ i.
Proof.
  intros tw c b. unfold MODE_BITS, upper. intros Q.
  destruct ((97 <=? c) && (c <=? 122)) eqn:B;
  repeat match type of Q with (if ?x then _ else _) = _ => destruct x eqn:?; [injection Q as <-|] end; try discriminate; unfold letters;
  [exists 79, 111, 0|exists 65, 97, 1|exists 69, 101, 2|exists 77, 109, 3|exists 79, 111, 0|exists 65, 97, 1|exists 69, 101, 2|exists 77, 109, 3];
  (split; [cbn; destruct tw; cbn in *; try discriminate; tauto|]); (split; [lia|reflexivity]).
Qed.
Lemma mode_letter : forall tw big small i c, In (big, small, i) (letters tw) -> c = big \/ c = small -> MODE_BITS tw c = Some (2 ^ i).
Proof.
  intros tw big small i c I D. unfold letters in I. destruct tw; cbn [app In] in I;
  repeat (destruct I as [I|I]; [injection I as <- <- <-; destruct D as [-> | ->]; reflexivity|]); contradiction.
Qed.
Lemma letters_det : forall tw a b i a' b' i' c, In (a, b, i) (letters tw) -> In (a', b', i') (letters tw) -> c = a \/ c = b -> c = a' \/ c = b' -> i = i'.
Proof. intros. pose proof (mode_letter _ _ _ _ _ H H1). pose proof (mode_letter _ _ _ _ _ H0 H2). assert (2 ^ i = 2 ^ i') by congruence.
  unfold letters in *. destruct tw; cbn [app In] in H, H0; intuition (try congruence; repeat match goal with E : (_, _, _) = (_, _, _) |- _ => injection E as <- <- <- end; try lia; try reflexivity).
Qed.
Lemma auth_modes_spec : forall tw s m m', auth_modes tw m s = Some m' -> 0 <= m ->
  forall j, 0 <= j -> Z.testbit m' j = Z.testbit m j || existsb (fun c => match MODE_BITS tw c with Some b => Z.testbit b j | None => false end) s.
Proof.
  intros tw. induction s as [|c s IH]; intros m m' Q M j J; cbn [auth_modes] in Q.
  - injection Q as <-. cbn. now rewrite orb_false_r.
  - destruct (MODE_BITS tw c) as [b|] eqn:B; [|discriminate]. assert (0 <= b).
    { destruct (mode_bits _ _ _ B) as (? & ? & i & I & _ & ->). apply Z.pow_nonneg. lia. }
    rewrite (IH _ _ Q (proj2 (Z.lor_nonneg m b) (conj M H)) j J). cbn [existsb]. rewrite B, Z.lor_spec, orb_assoc. reflexivity.
Qed.
Lemma auth_modes_goes : forall tw s m, (exists m', auth_modes tw m s = Some m') <-> Forall (fun c => exists big small i, In (big, small, i) (letters tw) /\ (c = big \/ c = small)) s.
Proof.
  intros tw. induction s as [|c s IH]; intros m; cbn [auth_modes].
  - split; [constructor|eauto].
  - split.
    + intros (m' & Q). destruct (MODE_BITS tw c) as [b|] eqn:B; [|discriminate]. constructor; [|eapply IH; eauto].
      destruct (mode_bits _ _ _ B) as (x & y & i & I & D & _). eauto.
    + intros F. inversion F; subst. destruct H1 as (x & y & i & I & D). rewrite (mode_letter _ _ _ _ _ I D). now apply IH.
Qed.

(** The modes that are offered are those whose letters occur; any other letter ends the daemon. *)
Theorem C155_modes : forall tw s,
  ((exists m, auth_mode tw (Text s) = Some m) <-> Forall (fun c => exists big small i, In (big, small, i) (letters tw) /\ (c = big \/ c = small)) s) /\
  forall m, auth_mode tw (Text s) = Some m ->
    (forall big small i, In (big, small, i) (letters tw) -> (Z.testbit m i = true <-> In big s \/ In small s)) /\
    (forall j, 0 <= j -> Z.testbit m j = true -> exists big small, In (big, small, j) (letters tw)).
Proof.
  intros tw s. split; [apply auth_modes_goes|]. intros m Q. cbn [auth_mode] in Q.
  assert (SP: forall j, 0 <= j -> Z.testbit m j = true <-> exists c b, In c s /\ MODE_BITS tw c = Some b /\ Z.testbit b j = true).
  { intros j J. rewrite (auth_modes_spec _ _ _ _ Q ltac:(lia) j J), Z.bits_0. cbn [orb]. rewrite existsb_exists. split.
    - intros (c & I & W). destruct (MODE_BITS tw c) as [b|] eqn:B; [|discriminate]. exists c, b. auto.
    - intros (c & b & I & B & W). exists c. rewrite B. auto. }
  assert (NN: forall a b i, In (a, b, i) (letters tw) -> 0 <= i).
  { intros a b i I. unfold letters in I. destruct tw; cbn [app In] in I; repeat (destruct I as [I|I]; [injection I as <- <- <-; lia|]); contradiction. }
  split.
  - intros big small i I. rewrite (SP i (NN _ _ _ I)). split.
    + intros (c & b & IC & B & W). destruct (mode_bits _ _ _ B) as (x & y & k & IK & D & ->). pose proof (NN _ _ _ IK).
      rewrite Z.pow2_bits_eqb in W by assumption. apply Z.eqb_eq in W. subst k.
      assert (c = big \/ c = small).
      { unfold letters in I, IK. destruct tw; cbn [app In] in I, IK; repeat (destruct I as [I|I]; [injection I as <- <- <-|]); try contradiction;
        repeat (destruct IK as [IK|IK]; [first [injection IK as <- <-; tauto|discriminate]|]); contradiction. }
      destruct H0; subst; auto.
    + intros D. assert (exists c, In c s /\ (c = big \/ c = small)) as (c & IC & DC) by (destruct D; eauto).
      exists c, (2 ^ i). split; [assumption|]. split; [eapply mode_letter; eauto|]. rewrite Z.pow2_bits_eqb by eauto. apply Z.eqb_refl.
  - intros j J W. apply SP in W; [|assumption]. destruct W as (c & b & IC & B & W). destruct (mode_bits _ _ _ B) as (x & y & k & IK & D & ->).
    rewrite Z.pow2_bits_eqb in W by eauto. apply Z.eqb_eq in W. subst k. eauto.
Qed.
Print Assumptions C155_modes.
(** Without the option all modes are offered. *)
Theorem C155_default : forall tw m, auth_mode tw Null = Some m -> forall j, 0 <= j -> (Z.testbit m j = true <-> exists big small, In (big, small, j) (letters tw)).
Proof.
  intros tw m Q j J. assert (m = if tw then 15 else 7) by (cbn in Q; congruence). subst m. split.
  - intros W. assert (j < 4). { destruct (Z.ltb_spec j 4); [assumption|]. exfalso. rewrite Z.bits_above_log2 in W; [discriminate|destruct tw; lia|]. destruct tw; cbn; lia. }
    assert (j = 0 \/ j = 1 \/ j = 2 \/ j = 3) as [->|[->|[->| ->]]] by lia; unfold letters; destruct tw; cbn in *; try discriminate; eauto 8.
  - intros (a & b & I). unfold letters in I. destruct tw; cbn [app In] in I; repeat (destruct I as [I|I]; [injection I as <- <- <-; reflexivity|]); contradiction.
Qed.
Print Assumptions C155_default.
(** A line "authmode" without a value gives a server that offers no mode at all. *)
Theorem C155_none_refuted : forall facility strtod tw, exists o, options facility strtod tw (fun _ => Some (Conf [(chars "authmode", [], 1)] None)) [] 0 = Goes o /\ auth_mode tw (get o Authmode) = Some 0.
Proof. intros. eexists. split; reflexivity. Qed.
Print Assumptions C155_none_refuted.
Example C155_witness : auth_mode false (Text (chars "aE")) = Some 6 /\ auth_mode false (Text (chars "AM")) = None /\ auth_mode true (Text (chars "AM")) = Some 10.
Proof. repeat split. Qed.
