(** Storyboard files (.osb): variables, and the sections of the file (C38, C39). *)
From Coq Require Import String List NArith ZArith Bool.
From Verif Require Import Str Num Nom Dec Parsers Storyboard NormalEvents Events Osb SpecWf SpecText SpecTypes
  SpecCmd SpecEvents SpecFile.
Import ListNotations.
Local Open Scope N_scope.

(** ** variables *)
Definition no_dollar (s : str) : bool := negb (contains_char 36 s).
(** The name ends at the equals sign; the value is the rest of the line, not empty. *)
Definition var_ok (x : variable) : bool :=
  no_dollar (var_name x) && forallb (fun c => negb (c =? 61) && negb (c =? 10) && negb (c =? 13)) (var_name x)
  && negb (is_empty (var_value x)) && no_dollar (var_value x) && one_line (var_value x).
(** Of two variables, the first one first: no name begins with the other, and the value of
    the second one does not begin with a character of the first name. *)
Definition told_apart (x y : variable) : bool :=
  negb (starts_with (var_name x) (var_name y)) && negb (starts_with (var_name y) (var_name x))
  && match var_value y with c :: _ => negb (contains_char c (var_name x)) | [] => true end.
Fixpoint vars_ok (vs : list variable) : bool :=
  match vs with
  | [] => true
  | x :: vs' => var_ok x && forallb (told_apart x) vs' && vars_ok vs'
  end.
(** What reading needs: the names are told apart, and putting one value in makes no new
    reference. *)
Fixpoint vars_readable (vs : list variable) : bool :=
  match vs with
  | [] => true
  | x :: vs' =>
      no_dollar (var_name x) && no_dollar (var_value x)
      && forallb (fun y => negb (starts_with (var_name x) (var_name y)) && negb (starts_with (var_name y) (var_name x))) vs'
      && vars_readable vs'
  end.
(** A text that refers to variables: as it is written, and what it stands for. *)
Inductive tok := TChar (c : char) | TRef (x : variable).
Definition show (t : tok) : str := match t with TChar c => [c] | TRef x => lit "$" ++ var_name x end.
Definition full (t : tok) : str := match t with TChar c => [c] | TRef x => var_value x end.
Definition shows (l : list tok) : str := flat_map show l.
Definition fulls (l : list tok) : str := flat_map full l.
(** plain characters and the variables of [vs] *)
Definition tok_of (vs : list variable) (t : tok) : Prop :=
  match t with TChar c => c <> 36 | TRef x => In x vs end.
(** One line of the events and the line without references that it stands for: the lines of
    the events themselves and the names of the commands never refer to variables. *)
Inductive stands_for (vs : list variable) : str -> str -> Prop :=
| sf_event l : indented l = false -> stands_for vs l l
| sf_plain l : no_dollar l = true -> stands_for vs l l
| sf_command h l : indented h = true -> forallb (fun x => (x <? 128) && negb (x =? 44)) h = true -> no_dollar h = true ->
    Forall (tok_of vs) l -> stands_for vs (h ++ lit "," ++ shows l) (h ++ lit "," ++ fulls l).
(** the decimals of a command: the only fields that can hold any text *)
Definition cmd_decs (c : command) : list decimal :=
  match cmd_props c with
  | PFade _ _ s l | PMoveX _ _ s l | PMoveY _ _ s l | PScale _ _ s l | PRotate _ _ s l => s :: l
  | PMove _ _ x | PVectorScale _ _ x => fst (ct_start x) :: snd (ct_start x) :: concat (map pair_decs (ct_rest x))
  | _ => []
  end.
Definition cmd_no_dollar (c : command) : bool := forallb (fun d => no_dollar (print_decimal d)) (cmd_decs c).
Fixpoint tree_no_dollar (c : command) : bool :=
  cmd_no_dollar c &&
  match c with
  | mk_cmd _ (PLoop _ cs) | mk_cmd _ (PTrigger _ _ _ cs) => forallb tree_no_dollar cs
  | _ => true
  end.
Definition osb_event_ok (e : event) : bool := event_ok 14%Z e && forallb tree_no_dollar (commands_of e).

(** ** the file *)
(** a line of the [Variables] section *)
Definition variable_line (l : str) (x : variable) : Prop :=
  l = lit "$" ++ var_name x ++ lit "=" ++ var_value x
  /\ forallb (fun c => negb (c =? 61) && negb (c =? 10)) (var_name x) = true.
Definition variables_are (body : str) (vs : list variable) : Prop :=
  Forall2 variable_line (filter (fun l => negb (is_blank l)) (lines body)) vs.
Definition osb_names : list str := [lit "Variables"; lit "Events"].
(** [osb_layout s pre secs tail]: as [SpecFile.file_layout], without a version line *)
Definition osb_layout (s : str) (pre : list str) (secs : list sec) (tail : list str) : Prop :=
  lines s = pre ++ flat_map sec_all secs ++ tail /\ forallb pre_ok pre = true /\ forallb sec_ok secs = true.
(** the variables that the sections [secs] define *)
Definition defined (secs : list sec) (o : option (list variable)) : Prop :=
  match o with
  | Some vs => exists x, In x secs /\ sec_name x = lit "Variables" /\ variables_are (sec_body x) vs
  | None => forall x, In x secs -> sec_name x <> lit "Variables"
  end.
Definition vars_or_none (o : option (list variable)) : list variable := match o with Some vs => vs | None => [] end.
(** The value that the sections describe: the events are read with the variables of the
    sections before them. *)
Definition osb_is (dbg : bool) (secs : list sec) (o : osb) : Prop :=
  defined secs (osb_variables o)
  /\ match osb_events o with
     | Some l => exists before x rest vs, secs = before ++ x :: rest /\ sec_name x = lit "Events"
         /\ defined before vs /\ events_from_str_vars dbg (vars_or_none vs) (sec_body x) 14%Z = ROk (Some l)
     | None => forall x, In x secs -> sec_name x <> lit "Events"
     end.
Definition osb_all_read (dbg : bool) (secs : list sec) (o : osb) : Prop :=
  NoDup (map sec_name secs) /\ Forall (fun x => In (sec_name x) osb_names) secs /\ osb_is dbg secs o.
(** What is wrong with the section [x] after [before]; [vs] are the variables so far. *)
Inductive osb_complaint (dbg : bool) (before : list sec) (vs : list variable) (x : sec) : Z -> osb_err -> Prop :=
| osb_duplicate : In (sec_name x) (map sec_name before) -> osb_complaint dbg before vs x 0 OsbDuplicateSections
| osb_unknown : ~ In (sec_name x) (map sec_name before) -> ~ In (sec_name x) osb_names ->
    osb_complaint dbg before vs x 0 OsbUnknownSection
| osb_bad_variable k l more good :
    ~ In (sec_name x) (map sec_name before) -> sec_name x = lit "Variables" ->
    lines (sec_body x) = good ++ l :: more -> k = Z.of_nat (length good) ->
    (exists vs, Forall2 variable_line (filter (fun l => negb (is_blank l)) good) vs) ->
    is_blank l = false -> (forall y, ~ variable_line l y) ->
    osb_complaint dbg before vs x (1 + Z.of_nat (sec_gap x) + k)
      (OsbVariable (if starts_with_char 36 l then VarMissingEquals else VarMissingHeader))
| osb_bad_event k e :
    ~ In (sec_name x) (map sec_name before) -> sec_name x = lit "Events" ->
    events_from_str_vars dbg vs (sec_body x) 14%Z = RErr (mk_line_err k e) ->
    osb_complaint dbg before vs x (1 + Z.of_nat (sec_gap x) + k) (OsbEvents e).

(** ** files that can be written *)
Definition osb_ok (o : osb) : bool :=
  match osb_variables o with
  | Some vs => vars_ok vs && (negb (is_empty vs) || is_absent (osb_events o))
  | None => true
  end
  && match osb_events o with Some l => negb (is_empty l) && forallb osb_event_ok l | None => true end.
