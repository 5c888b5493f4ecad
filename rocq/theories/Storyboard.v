(** src/osu_file/events/storyboard: storyboard commands and their value types. *)
From Coq Require Import String List NArith ZArith Bool.
From Verif Require Import Str Num Nom Dec Parsers Unicode.
Import ListNotations.
Local Open Scope N_scope.

(** [Variable] (osb/types.rs:11-15). *)
Record variable := mk_var { var_name : str; var_value : str }.

(** [SampleSet] (storyboard/types.rs:135-169). *)
Inductive sb_sample_set := SbAll | SbNormal | SbSoft | SbDrum.
Definition sb_sample_set_from_str (s : str) : res (option sb_sample_set) unit :=
  if str_eqb s (lit "All") then ROk (Some SbAll)
  else if str_eqb s (lit "Normal") then ROk (Some SbNormal)
  else if str_eqb s (lit "Soft") then ROk (Some SbSoft)
  else if str_eqb s (lit "Drum") then ROk (Some SbDrum)
  else RErr tt.
Definition sb_sample_set_to_string (x : sb_sample_set) : str :=
  match x with SbAll => lit "All" | SbNormal => lit "Normal" | SbSoft => lit "Soft"
             | SbDrum => lit "Drum" end.

(** [Addition] (storyboard/types.rs:171-202). *)
Inductive addition := AdWhistle | AdFinish | AdClap.
Definition addition_from_str (s : str) : res (option addition) unit :=
  if str_eqb s (lit "Whistle") then ROk (Some AdWhistle)
  else if str_eqb s (lit "Finish") then ROk (Some AdFinish)
  else if str_eqb s (lit "Clap") then ROk (Some AdClap)
  else RErr tt.
Definition addition_to_string (x : addition) : str :=
  match x with AdWhistle => lit "Whistle" | AdFinish => lit "Finish" | AdClap => lit "Clap" end.

(** [TriggerType] (storyboard/types.rs:8-19). *)
Inductive trigger_type :=
| TtHitSound (sample_set additions_sample_set : option sb_sample_set)
             (add : option addition) (custom : option Z)
| TtPassing
| TtFailing.

(** storyboard/error.rs:197-208. *)
Inductive trigger_err := TtTooManyHitSoundFields | TtUnknownTriggerType | TtUnknownHitSoundType.

(** The split before upper case and numeric characters
    (storyboard/types.rs:39-54). *)
Fixpoint tt_fields (first : bool) (builder : str) (s : str) : list str :=
  match s with
  | [] => [builder]
  | c :: s' => if negb first && (is_uppercase c || is_numeric c)
               then builder :: tt_fields false [c] s'
               else tt_fields false (builder ++ [c]) s'
  end.

(** The state of the loop over the fields (storyboard/types.rs:60-65). *)
Record tt_state := mk_tt { tt_ss : option sb_sample_set; tt_as : option sb_sample_set;
                           tt_add : option addition; tt_custom : option Z }.
(** The inner [loop] (storyboard/types.rs:68-95): at most five iterations, so the
    fuel given below always suffices. *)
Fixpoint tt_attempt (fuel : nat) (idx : nat) (field : str) (st : tt_state)
  : res (nat * tt_state) trigger_err :=
  match fuel with
  | O => RPanic PFuel
  | S f =>
      match idx with
      | 0%nat =>
          match v_unwrap (sb_sample_set_from_str field) with
          | ROk x => ROk (1%nat, mk_tt (Some x) (tt_as st) (tt_add st) (tt_custom st))
          | _ => tt_attempt f 1 field st
          end
      | 1%nat =>
          match v_unwrap (sb_sample_set_from_str field) with
          | ROk x => ROk (2%nat, mk_tt (tt_ss st) (Some x) (tt_add st) (tt_custom st))
          | _ => tt_attempt f 2 field st
          end
      | 2%nat =>
          match v_unwrap (addition_from_str field) with
          | ROk x => ROk (3%nat, mk_tt (tt_ss st) (tt_as st) (Some x) (tt_custom st))
          | _ => tt_attempt f 3 field st
          end
      | 3%nat =>
          match parse_usize field with
          | ROk x => ROk (4%nat, mk_tt (tt_ss st) (tt_as st) (tt_add st) (Some x))
          | _ => RErr TtUnknownHitSoundType
          end
      | _ => RPanic PUnreachable
      end
  end.
Fixpoint tt_loop (idx : nat) (fields : list str) (st : tt_state) : res tt_state trigger_err :=
  match fields with
  | [] => ROk st
  | f :: fs => rbind (tt_attempt 5 idx f st) (fun '(idx', st') => tt_loop idx' fs st')
  end.
(** [TriggerType::from_str] (storyboard/types.rs:21-110). *)
Definition trigger_type_from_str (s : str) : res (option trigger_type) trigger_err :=
  let s := trim s in
  if str_eqb s (lit "Passing") then ROk (Some TtPassing)
  else if str_eqb s (lit "Failing") then ROk (Some TtFailing)
  else match strip_prefix (lit "HitSound") s with
       | Some [] => ROk (Some (TtHitSound None None None None))
       | Some t =>
           let fields := tt_fields true [] t in
           if Nat.ltb 4 (length fields) then RErr TtTooManyHitSoundFields
           else rmap (fun st => Some (TtHitSound (tt_ss st) (tt_as st) (tt_add st) (tt_custom st)))
                     (tt_loop 0 fields (mk_tt None None None None))
       | None => RErr TtUnknownTriggerType
       end.
Definition opt_str {A} (f : A -> str) (o : option A) : str :=
  match o with Some a => f a | None => [] end.
(** [TriggerType::to_string] (storyboard/types.rs:112-133). *)
Definition trigger_type_to_string (t : trigger_type) : str :=
  match t with
  | TtHitSound ss ass add custom =>
      lit "HitSound" ++ opt_str sb_sample_set_to_string ss
      ++ opt_str sb_sample_set_to_string ass ++ opt_str addition_to_string add
      ++ opt_str print_Z custom
  | TtPassing => lit "Passing"
  | TtFailing => lit "Failing"
  end.

(** [Easing] (storyboard/types.rs:204-335). *)
Inductive easing :=
| EzLinear | EzEasingOut | EzEasingIn | EzQuadIn | EzQuadOut | EzQuadInOut | EzCubicIn
| EzCubicOut | EzCubicInOut | EzQuartIn | EzQuartOut | EzQuartInOut | EzQuintIn
| EzQuintOut | EzQuintInOut | EzSineIn | EzSineOut | EzSineInOut | EzExpoIn | EzExpoOut
| EzExpoInOut | EzCircIn | EzCircOut | EzCircInOut | EzElasticIn | EzElasticOut
| EzElasticHalfOut | EzElasticQuarterOut | EzElasticInOut | EzBackIn | EzBackOut
| EzBackInOut | EzBounceIn | EzBounceOut | EzBounceInOut | EzOther (z : Z).
Definition easing_of_Z (z : Z) : easing :=
  match z with
  | 0 => EzLinear | 1 => EzEasingOut | 2 => EzEasingIn | 3 => EzQuadIn | 4 => EzQuadOut
  | 5 => EzQuadInOut | 6 => EzCubicIn | 7 => EzCubicOut | 8 => EzCubicInOut
  | 9 => EzQuartIn | 10 => EzQuartOut | 11 => EzQuartInOut | 12 => EzQuintIn
  | 13 => EzQuintOut | 14 => EzQuintInOut | 15 => EzSineIn | 16 => EzSineOut
  | 17 => EzSineInOut | 18 => EzExpoIn | 19 => EzExpoOut | 20 => EzExpoInOut
  | 21 => EzCircIn | 22 => EzCircOut | 23 => EzCircInOut | 24 => EzElasticIn
  | 25 => EzElasticOut | 26 => EzElasticHalfOut | 27 => EzElasticQuarterOut
  | 28 => EzElasticInOut | 29 => EzBackIn | 30 => EzBackOut | 31 => EzBackInOut
  | 32 => EzBounceIn | 33 => EzBounceOut | 34 => EzBounceInOut
  | _ => EzOther z
  end%Z.
Definition easing_to_Z (e : easing) : Z :=
  match e with
  | EzLinear => 0 | EzEasingOut => 1 | EzEasingIn => 2 | EzQuadIn => 3 | EzQuadOut => 4
  | EzQuadInOut => 5 | EzCubicIn => 6 | EzCubicOut => 7 | EzCubicInOut => 8
  | EzQuartIn => 9 | EzQuartOut => 10 | EzQuartInOut => 11 | EzQuintIn => 12
  | EzQuintOut => 13 | EzQuintInOut => 14 | EzSineIn => 15 | EzSineOut => 16
  | EzSineInOut => 17 | EzExpoIn => 18 | EzExpoOut => 19 | EzExpoInOut => 20
  | EzCircIn => 21 | EzCircOut => 22 | EzCircInOut => 23 | EzElasticIn => 24
  | EzElasticOut => 25 | EzElasticHalfOut => 26 | EzElasticQuarterOut => 27
  | EzElasticInOut => 28 | EzBackIn => 29 | EzBackOut => 30 | EzBackInOut => 31
  | EzBounceIn => 32 | EzBounceOut => 33 | EzBounceInOut => 34
  | EzOther z => z
  end%Z.
Definition easing_to_string (e : easing) : str := print_Z (easing_to_Z e).

(** [Parameter] (storyboard/types.rs:337-368). *)
Inductive parameter := PaFlipH | PaFlipV | PaAdditive.
Definition parameter_to_string (p : parameter) : str :=
  match p with PaFlipH => lit "H" | PaFlipV => lit "V" | PaAdditive => lit "A" end.
Definition parameter_from_str (s : str) : res (option parameter) unit :=
  if str_eqb s (lit "H") then ROk (Some PaFlipH)
  else if str_eqb s (lit "V") then ROk (Some PaFlipV)
  else if str_eqb s (lit "A") then ROk (Some PaAdditive)
  else RErr tt.

(** [ContinuingFields] (cmds/types.rs:3-7), at the crate's instance [Decimal] and
    for the setters at any type. *)
Record continuing (T : Type) := mk_cont { ct_start : T * T; ct_rest : list (T * option T) }.
Arguments mk_cont {T} ct_start ct_rest.
Arguments ct_start {T} c.
Arguments ct_rest {T} c.
(** [Vec::get] with a [usize] index. *)
Definition get_z {A} (l : list A) (i : Z) : option A :=
  if (i <? Z.of_nat (length l))%Z then nth_error l (Z.to_nat i) else None.
Definition last_opt {A} (l : list A) : option A := nth_error (rev l) 0.
Fixpoint set_last {A} (f : A -> A) (l : list A) : list A :=
  match l with
  | [] => []
  | [x] => [f x]
  | x :: l' => x :: set_last f l'
  end.
Fixpoint set_nth {A} (n : nat) (a : A) (l : list A) : list A :=
  match l, n with
  | [], _ => []
  | _ :: l', O => a :: l'
  | x :: l', S k => x :: set_nth k a l'
  end.
Definition is_none {A} (o : option A) : bool := match o with None => true | Some _ => false end.
Definition is_some {A} (o : option A) : bool := negb (is_none o).
(** [.iter().enumerate().any(..)]. *)
Fixpoint any_i {A} (f : nat -> A -> bool) (i : nat) (l : list A) : bool :=
  match l with [] => false | x :: l' => f i x || any_i f (S i) l' end.
(** [ContinuingFields::new] (cmds/types.rs:10-24). *)
Definition cont_new {T} (start : T * T) (rest : list (T * option T)) : res (continuing T) unit :=
  if any_i (fun i x => is_none (snd x) && negb (Nat.eqb i (length rest - 1))) 0 rest
  then RErr tt else ROk (mk_cont start rest).
(** [push_continuing_fields] (cmds/types.rs:38-59); [dbg] says whether overflow
    checks are on. *)
Definition cont_push {T} (dbg : bool) (c : continuing T) (f : T * option T)
  : run (continuing T) :=
  match last_opt (ct_rest c) with
  | Some (_, None) =>
      rbind (usize_arith dbg (Z.of_nat (length (ct_rest c)) - 2)) (fun i =>
        let last_field := match get_z (ct_rest c) i with
                          | Some x => snd x
                          | None => Some (snd (ct_start c))
                          end in
        ROk (mk_cont (ct_start c)
               (set_last (fun x => (fst x, last_field)) (ct_rest c) ++ [f])))
  | _ => ROk (mk_cont (ct_start c) (ct_rest c ++ [f]))
  end.
Inductive cont_set_err := CsIndexOutOfBounds | CsInvalidSecondFieldOption.
(** [set_continuing_fields] (cmds/types.rs:61-78). *)
Definition cont_set {T} (dbg : bool) (c : continuing T) (index : Z) (f : T * option T)
  : res (continuing T) cont_set_err :=
  rbind (usize_arith dbg (Z.of_nat (length (ct_rest c)) - 1)) (fun last =>
    if negb (index =? last)%Z && is_none (snd f) then RErr CsInvalidSecondFieldOption
    else match get_z (ct_rest c) index with
         | Some _ => ROk (mk_cont (ct_start c) (set_nth (Z.to_nat index) f (ct_rest c)))
         | None => RErr CsIndexOutOfBounds
         end).
(** [Display] (cmds/types.rs:81-97). *)
Definition cont_to_string {T} (p : T -> str) (c : continuing T) : str :=
  join (lit ",")
    ([p (fst (ct_start c)); p (snd (ct_start c))]
     ++ flat_map (fun f => [p (fst f)] ++ match snd f with Some x => [p x] | None => [] end)
                 (ct_rest c)).

(** Storyboard [Colours] (cmds/types.rs:99-103). *)
Definition u8x3 : Type := Z * option Z * option Z.
Record sb_colours := mk_sbc { sbc_start : Z * Z * Z; sbc_rest : list u8x3 }.
Inductive colour_field := CfGreen | CfBlue.
(** [Colours::new] (cmds/types.rs:106-123). *)
Fixpoint sbc_check (n : nat) (i : nat) (l : list u8x3) : option colour_field :=
  match l with
  | [] => None
  | (_, g, b) :: l' =>
      if negb (Nat.eqb i (n - 1)) && is_none g then Some CfGreen
      else if negb (Nat.eqb i (n - 1)) && is_none b then Some CfBlue
      else if is_none g && is_some b then Some CfBlue
      else sbc_check n (S i) l'
  end.
Definition sbc_new (start : Z * Z * Z) (rest : list u8x3) : res sb_colours colour_field :=
  match sbc_check (length rest) 0 rest with
  | Some e => RErr e
  | None => ROk (mk_sbc start rest)
  end.
(** [push_continuing_rgbs] (cmds/types.rs:137-166). *)
Definition sbc_push (dbg : bool) (c : sb_colours) (f : u8x3) : run sb_colours :=
  let '(_, sg, sb) := sbc_start c in
  match last_opt (sbc_rest c) with
  | Some (_, None, _) =>
      rbind (usize_arith dbg (Z.of_nat (length (sbc_rest c)) - 2)) (fun i =>
        let lf := match get_z (sbc_rest c) i with Some (_, g, _) => g | None => Some sg end in
        ROk (mk_sbc (sbc_start c)
               (set_last (fun '(r, _, b) => (r, lf, b)) (sbc_rest c) ++ [f])))
  | Some (_, Some _, None) =>
      rbind (usize_arith dbg (Z.of_nat (length (sbc_rest c)) - 2)) (fun i =>
        let lf := match get_z (sbc_rest c) i with Some (_, _, b) => b | None => Some sb end in
        ROk (mk_sbc (sbc_start c)
               (set_last (fun '(r, g, _) => (r, g, lf)) (sbc_rest c) ++ [f])))
  | _ => ROk (mk_sbc (sbc_start c) (sbc_rest c ++ [f]))
  end.
Inductive sbc_set_err := ScIndexOutOfBounds | ScInvalidFieldOption (f : colour_field).
(** [set_continuing_rgbs] (cmds/types.rs:168-195). *)
Definition sbc_set (dbg : bool) (c : sb_colours) (index : Z) (f : u8x3)
  : res sb_colours sbc_set_err :=
  let '(_, g, b) := f in
  rbind (usize_arith dbg (Z.of_nat (length (sbc_rest c)) - 1)) (fun last =>
    let is_last := (index =? last)%Z in
    if negb is_last && is_none g then RErr (ScInvalidFieldOption CfGreen)
    else if (negb is_last && is_none b) || (is_none g && is_some b)
    then RErr (ScInvalidFieldOption CfBlue)
    else match get_z (sbc_rest c) index with
         | Some _ => ROk (mk_sbc (sbc_start c) (set_nth (Z.to_nat index) f (sbc_rest c)))
         | None => RErr ScIndexOutOfBounds
         end).
(** [Colours::to_string] (cmds/types.rs:198-218). *)
Definition opt_list {A} (o : option A) : list A := match o with Some a => [a] | None => [] end.
Definition sbc_to_string (c : sb_colours) : str :=
  let '(r, g, b) := sbc_start c in
  join (lit ",") (map print_Z ([r; g; b]
    ++ flat_map (fun '(r, g, b) => [r] ++ opt_list g ++ opt_list b) (sbc_rest c))).

(** [Command], [CommandProperties] (cmds/mod.rs:24-28, 285-349). *)
Inductive command := mk_cmd (start_time : option Z) (properties : cmd_properties)
with cmd_properties :=
| PFade (e : easing) (end_time : option Z) (start : decimal) (cont : list decimal)
| PMove (e : easing) (end_time : option Z) (c : continuing decimal)
| PMoveX (e : easing) (end_time : option Z) (start : decimal) (cont : list decimal)
| PMoveY (e : easing) (end_time : option Z) (start : decimal) (cont : list decimal)
| PScale (e : easing) (end_time : option Z) (start : decimal) (cont : list decimal)
| PVectorScale (e : easing) (end_time : option Z) (c : continuing decimal)
| PRotate (e : easing) (end_time : option Z) (start : decimal) (cont : list decimal)
| PColour (e : easing) (end_time : option Z) (c : sb_colours)
| PParameter (e : easing) (end_time : option Z) (p : parameter) (cont : list parameter)
| PLoop (loop_count : Z) (commands : list command)
| PTrigger (t : trigger_type) (end_time : option Z) (group : option Z)
           (commands : list command).
Definition cmd_start (c : command) : option Z := let 'mk_cmd s _ := c in s.
Definition cmd_props (c : command) : cmd_properties := let 'mk_cmd _ p := c in p.
(** The [commands] of a [Loop] or [Trigger]. *)
Definition cmd_subs (c : command) : option (list command) :=
  match cmd_props c with
  | PLoop _ cs => Some cs
  | PTrigger _ _ _ cs => Some cs
  | _ => None
  end.
Definition cmd_set_subs (cs : list command) (c : command) : command :=
  match c with
  | mk_cmd s (PLoop n _) => mk_cmd s (PLoop n cs)
  | mk_cmd s (PTrigger t e g _) => mk_cmd s (PTrigger t e g cs)
  | _ => c
  end.

(** [continuing_to_string], [continuing_versioned_to_string] (cmds/mod.rs:30-64). *)
Definition continuing_to_string {T} (p : T -> str) (l : list T) : str :=
  match l with [] => [] | _ => lit "," ++ join (lit ",") (map p l) end.

(** [variable_replace] (cmds/mod.rs:76-86). *)
Definition var_ref (x : variable) : str := lit "$" ++ var_name x.
Fixpoint subst_vars (vars : list variable) (cmd : str) : str :=
  match vars with
  | [] => cmd
  | x :: vars' =>
      subst_vars vars' (if contains (var_value x) cmd
                        then replace (var_value x) (var_ref x) cmd else cmd)
  end.
Definition variable_replace (vars : list variable) (header cmd : str) : str :=
  header ++ lit "," ++ subst_vars vars cmd.

Definition opt_Z (o : option Z) : str := opt_str print_Z o.
(** The header letter of a command and the text after its comma, before variables
    are put in (cmds/mod.rs:89-279). *)
Definition cmd_parts (c : command) : str * str :=
  let st := opt_Z (cmd_start c) in
  let timed e et rest :=
    easing_to_string e ++ lit "," ++ st ++ lit "," ++ opt_Z et ++ lit "," ++ rest in
  match cmd_props c with
  | PFade e et s l => (lit "F", timed e et (print_decimal s ++ continuing_to_string print_decimal l))
  | PMove e et x => (lit "M", timed e et (cont_to_string print_decimal x))
  | PMoveX e et s l => (lit "MX", timed e et (print_decimal s ++ continuing_to_string print_decimal l))
  | PMoveY e et s l => (lit "MY", timed e et (print_decimal s ++ continuing_to_string print_decimal l))
  | PScale e et s l => (lit "S", timed e et (print_decimal s ++ continuing_to_string print_decimal l))
  | PVectorScale e et x => (lit "V", timed e et (cont_to_string print_decimal x))
  | PRotate e et s l => (lit "R", timed e et (print_decimal s ++ continuing_to_string print_decimal l))
  | PColour e et x => (lit "C", timed e et (sbc_to_string x))
  | PParameter e et p l =>
      (lit "P", timed e et (parameter_to_string p ++ continuing_to_string parameter_to_string l))
  | PLoop n _ => (lit "L", st ++ lit "," ++ print_Z n)
  | PTrigger t et g _ =>
      (lit "T",
       trigger_type_to_string t
       ++ (if is_some (cmd_start c) || is_some et || is_some g then lit "," else [])
       ++ (match cmd_start c with
           | Some x => print_Z x ++ (if is_some et || is_some g then lit "," else [])
           | None => if is_some et || is_some g then lit "," else []
           end)
       ++ (match et with
           | Some x => print_Z x ++ (if is_some g then lit "," else [])
           | None => if is_some g then lit "," else []
           end)
       ++ opt_Z g)
  end.
(** [Command::to_string_variables] (cmds/mod.rs:73-282). *)
Definition cmd_to_string (vars : list variable) (c : command) : str :=
  let (h, t) := cmd_parts c in variable_replace vars h t.

(** [ParseCommandError] (storyboard/error.rs:67-193). *)
Inductive cmd_err :=
| CmdUnknownCommandType | CmdMissingStartTime | CmdInvalidStartTime | CmdMissingLoopCount
| CmdInvalidLoopCount | CmdMissingTriggerType | CmdInvalidTriggerType
| CmdInvalidGroupNumber | CmdMissingEndTime | CmdInvalidEndTime | CmdMissingEasing
| CmdInvalidEasing | CmdMissingRed | CmdMissingGreen | CmdMissingBlue | CmdInvalidRed
| CmdInvalidGreen | CmdInvalidBlue | CmdInvalidContinuingColours | CmdMissingParameterType
| CmdInvalidParameterType | CmdInvalidContinuingParameters | CmdMissingMoveX
| CmdInvalidMoveX | CmdMissingMoveY | CmdInvalidMoveY | CmdInvalidContinuingMove
| CmdMissingScaleX | CmdInvalidScaleX | CmdMissingScaleY | CmdInvalidScaleY
| CmdInvalidContinuingScales | CmdMissingStartOpacity | CmdInvalidStartOpacity
| CmdInvalidContinuingOpacities | CmdMissingStartScale | CmdInvalidStartScale
| CmdInvalidContinuingScale | CmdMissingStartRotation | CmdInvalidStartRotation
| CmdInvalidContinuingRotation.

(** The pieces of [Command::from_str] (cmds/mod.rs:351-796). *)
Notation cp := (parser cmd_err).
(** cmds/mod.rs:356-364. *)
Definition c_start_time : cp (option Z) :=
  preceded (context CmdMissingStartTime comma)
    (context CmdInvalidStartTime (pmap Some (comma_field_type parse_i32))).
(** cmds/mod.rs:365-376. *)
Definition c_end_time : cp (option Z) :=
  preceded (context CmdMissingEndTime (cut comma))
    (alt (pmap (fun _ => None) (verify comma_field is_blank))
         (cut (pmap Some (context CmdInvalidEndTime (comma_field_type parse_i32))))).
(** cmds/mod.rs:377-387. *)
Definition c_easing : cp easing :=
  cut (preceded (context CmdMissingEasing comma)
         (context CmdInvalidEasing
            (map_opt (comma_field_type parse_i32) (fun z => Some (easing_of_Z z))))).
(** cmds/mod.rs:392-400. *)
Definition c_easing_times : cp (easing * (option Z * option Z)) :=
  pair c_easing
    (alt (pmap (fun _ => (None, None)) (pair (tag (lit ",,")) (peek comma)))
         (pair c_start_time c_end_time)).
(** A field after a comma, with the two errors of [preceded(context(.., comma()),
    context(.., field))]. *)
Definition c_field {A} (missing invalid : cmd_err) (p : cp A) : cp A :=
  preceded (context missing comma) (context invalid p).
Definition c_dec : cp decimal := comma_field_type (@parse_decimal unit).
(** cmds/mod.rs:408-412, 627-631. *)
Definition c_cont_two : cp (list (decimal * option decimal)) :=
  many0 (preceded comma
    (pair c_dec (alt (pmap (fun _ => None) eof) (cut (pmap Some (preceded comma c_dec)))))).
(** [continuing_decimal_two_fields] behind its header (cmds/mod.rs:401-429), also
    the body of [move_] (lines 635-649). *)
Definition c_two_body (m1 i1 m2 i2 ic : cmd_err)
  : cp ((easing * (option Z * option Z)) * continuing decimal) :=
  cut (pbind c_easing_times (fun t =>
       pbind (c_field m1 i1 c_dec) (fun x =>
       pbind (c_field m2 i2 c_dec) (fun y =>
       pmap (fun l => (t, mk_cont (x, y) l))
         (terminated c_cont_two (context ic eof)))))).
(** [continuing_decimal_fields] (cmds/mod.rs:430-445). *)
Definition c_one (header : str) (m1 i1 ic : cmd_err)
  : cp ((easing * (option Z * option Z)) * decimal * list decimal) :=
  preceded (tag header)
    (cut (pbind c_easing_times (fun t =>
          pbind (c_field m1 i1 c_dec) (fun x =>
          pmap (fun l => (t, x, l))
            (terminated (many0 (preceded comma c_dec)) (context ic eof)))))).

(** cmds/mod.rs:447-466. *)
Definition c_loop : cp command :=
  pmap (fun '(st, n) => mk_cmd st (PLoop n []))
    (preceded (tag (lit "L"))
       (cut (pair (alt (pmap (fun _ => None) (pair comma (peek comma))) c_start_time)
                  (c_field CmdMissingLoopCount CmdInvalidLoopCount
                     (map_res prest parse_u32))))).

(** cmds/mod.rs:468-498. *)
Definition c_trigger_nothing : cp (option Z * option Z) :=
  alt (pmap (fun _ => (None, None)) (verify prest is_blank))
      (pmap (fun _ => (None, None)) (verify prest (fun s => str_eqb s (lit ",")))).
Definition c_trigger_group : cp (option Z * option Z) :=
  pmap (fun g => (None, Some g))
    (preceded (pair comma comma)
       (context CmdInvalidGroupNumber (cut (consume_rest_type parse_i32)))).
Definition c_trigger_end : cp (option Z * option Z) :=
  pmap (fun e => (Some e, None))
    (preceded comma (context CmdInvalidEndTime (cut (consume_rest_type parse_i32)))).
Definition c_trigger_all : cp (option Z * option Z) :=
  pbind (preceded comma (comma_field_type parse_i32)) (fun e =>
  pmap (fun g => (Some e, Some g))
    (preceded comma (context CmdInvalidGroupNumber (cut (consume_rest_type parse_i32))))).
(** cmds/mod.rs:500-541. *)
Definition c_trigger : cp command :=
  pmap (fun '(t, (st, (e, g))) => mk_cmd st (PTrigger t e g []))
    (preceded (pair (tag (lit "T")) (context CmdMissingTriggerType (cut comma)))
       (cut (pair (context CmdInvalidTriggerType
                     (map_res comma_field (fun s => v_unwrap (trigger_type_from_str s))))
            (pair (alt (pmap (fun _ => None) (pair comma (peek comma)))
                  (alt (pmap (fun _ => None) (verify prest is_blank))
                       c_start_time))
                  (alt c_trigger_all (alt c_trigger_group
                    (alt c_trigger_nothing c_trigger_end))))))).

(** cmds/mod.rs:542-591. *)
Definition c_u8 : cp Z := comma_field_type parse_u8.
Definition c_cont_colour : cp (option Z) :=
  alt (pmap (fun _ => None) eof) (pmap Some (preceded comma c_u8)).
Definition c_colour : cp command :=
  preceded (tag (lit "C"))
    (cut (pbind c_easing_times (fun '(e, (st, et)) =>
          pbind (c_field CmdMissingRed CmdInvalidRed c_u8) (fun r =>
          pbind (c_field CmdMissingGreen CmdInvalidGreen c_u8) (fun g =>
          pbind (c_field CmdMissingBlue CmdInvalidBlue c_u8) (fun b =>
          pmap (fun l => mk_cmd st (PColour e et (mk_sbc (r, g, b) l)))
            (terminated
               (many0 (preceded comma
                         (pbind c_u8 (fun r =>
                          pbind c_cont_colour (fun g =>
                          pmap (fun b => (r, g, b)) c_cont_colour)))))
               (context CmdInvalidContinuingColours eof)))))))).
(** cmds/mod.rs:592-624. *)
Definition c_parameter : cp command :=
  preceded (tag (lit "P"))
    (cut (pbind c_easing_times (fun '(e, (st, et)) =>
          pbind (c_field CmdMissingParameterType CmdInvalidParameterType
                   (comma_field_versioned_type parameter_from_str)) (fun p =>
          pmap (fun l => mk_cmd st (PParameter e et p l))
            (terminated (many0 (preceded comma (comma_field_versioned_type parameter_from_str)))
                        (context CmdInvalidContinuingParameters eof)))))).
(** cmds/mod.rs:625-665. *)
Definition c_move : cp command :=
  pmap (fun '((e, (st, et)), x) => mk_cmd st (PMove e et x))
    (preceded (pair (tag (lit "M")) (peek comma))
       (c_two_body CmdMissingMoveX CmdInvalidMoveX CmdMissingMoveY CmdInvalidMoveY
                   CmdInvalidContinuingMove)).
(** cmds/mod.rs:666-686. *)
Definition c_vector_scale : cp command :=
  pmap (fun '((e, (st, et)), x) => mk_cmd st (PVectorScale e et x))
    (preceded (tag (lit "V"))
       (c_two_body CmdMissingScaleX CmdInvalidScaleX CmdMissingScaleY CmdInvalidScaleY
                   CmdInvalidContinuingScales)).
(** cmds/mod.rs:687-771. *)
Definition c_fade : cp command :=
  pmap (fun '((e, (st, et)), x, l) => mk_cmd st (PFade e et x l))
    (c_one (lit "F") CmdMissingStartOpacity CmdInvalidStartOpacity CmdInvalidContinuingOpacities).
Definition c_move_x : cp command :=
  pmap (fun '((e, (st, et)), x, l) => mk_cmd st (PMoveX e et x l))
    (c_one (lit "MX") CmdMissingMoveX CmdInvalidMoveX CmdInvalidContinuingMove).
Definition c_move_y : cp command :=
  pmap (fun '((e, (st, et)), x, l) => mk_cmd st (PMoveY e et x l))
    (c_one (lit "MY") CmdMissingMoveY CmdInvalidMoveY CmdInvalidContinuingMove).
Definition c_scale : cp command :=
  pmap (fun '((e, (st, et)), x, l) => mk_cmd st (PScale e et x l))
    (c_one (lit "S") CmdMissingStartScale CmdInvalidStartScale CmdInvalidContinuingScales).
Definition c_rotate : cp command :=
  pmap (fun '((e, (st, et)), x, l) => mk_cmd st (PRotate e et x l))
    (c_one (lit "R") CmdMissingStartRotation CmdInvalidStartRotation CmdInvalidContinuingRotation).
(** [c == ' ' || c == '_'] (cmds/mod.rs:355, events/mod.rs:128). *)
Definition is_indent (c : char) : bool := (c =? 32) || (c =? 95).
(** cmds/mod.rs:774-792. *)
Definition cmd_parser : cp command :=
  preceded (take_while is_indent)
    (alt c_move (alt c_rotate (alt c_scale (alt c_vector_scale (alt c_fade (alt c_parameter
    (alt c_move_y (alt c_colour (alt c_move_x (alt c_trigger (alt c_loop
      (context CmdUnknownCommandType pfail)))))))))))).
Definition cmd_from_str (s : str) : res (option command) cmd_err :=
  rmap Some (verbose_error_to_error (cmd_parser s)).
