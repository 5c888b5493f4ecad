(** Storyboard commands as the storyboard format describes them: the fields of a line,
    the commands that can be written, and command trees as indented lines.  Written
    without the model's reader and printer; only the texts of single numbers, decimals
    and triggers are taken from the model (C01, C02, C30). *)
From Coq Require Import String List NArith ZArith Bool.
From Verif Require Import Str Num Nom Dec Parsers Storyboard SpecWf SpecText SpecTypes.
Import ListNotations.
Local Open Scope N_scope.

(** ** the fields of a command line *)
Definition time_field (o : option Z) : str := match o with Some z => print_Z z | None => [] end.
(** 0 to 34 in the order of the format's easing table *)
Definition easing_table : list easing :=
  [EzLinear; EzEasingOut; EzEasingIn; EzQuadIn; EzQuadOut; EzQuadInOut; EzCubicIn; EzCubicOut;
   EzCubicInOut; EzQuartIn; EzQuartOut; EzQuartInOut; EzQuintIn; EzQuintOut; EzQuintInOut;
   EzSineIn; EzSineOut; EzSineInOut; EzExpoIn; EzExpoOut; EzExpoInOut; EzCircIn; EzCircOut;
   EzCircInOut; EzElasticIn; EzElasticOut; EzElasticHalfOut; EzElasticQuarterOut;
   EzElasticInOut; EzBackIn; EzBackOut; EzBackInOut; EzBounceIn; EzBounceOut; EzBounceInOut].
(** [z] is the number of the easing [e]. *)
Definition easing_number (e : easing) (z : Z) : Prop :=
  match e with
  | EzOther n => z = n
  | _ => (0 <= z)%Z /\ nth_error easing_table (Z.to_nat z) = Some e
  end.
Definition parameter_letter (p : parameter) : str :=
  match p with PaFlipH => lit "H" | PaFlipV => lit "V" | PaAdditive => lit "A" end.
Definition pair_fields (x : decimal * option decimal) : list str :=
  print_decimal (fst x) :: match snd x with Some y => [print_decimal y] | None => [] end.
Definition rgb_fields (x : u8x3) : list str :=
  let '(r, g, b) := x in
  print_Z r :: match g with Some g => [print_Z g] | None => [] end
  ++ match b with Some b => [print_Z b] | None => [] end.
(** Fields missing at the end of a line are left out with their commas. *)
Fixpoint optional_end (l : list (option Z)) : list str :=
  match l with
  | [] => []
  | o :: l' => match o, optional_end l' with
               | None, [] => []
               | _, fs => time_field o :: fs
               end
  end.
Definition cmd_fields (ez : Z) (c : command) : list str :=
  let timed et := [print_Z ez; time_field (cmd_start c); time_field et] in
  match cmd_props c with
  | PFade e et s l => lit "F" :: timed et ++ map print_decimal (s :: l)
  | PMove e et x =>
      lit "M" :: timed et ++ [print_decimal (fst (ct_start x)); print_decimal (snd (ct_start x))]
      ++ concat (map pair_fields (ct_rest x))
  | PMoveX e et s l => lit "MX" :: timed et ++ map print_decimal (s :: l)
  | PMoveY e et s l => lit "MY" :: timed et ++ map print_decimal (s :: l)
  | PScale e et s l => lit "S" :: timed et ++ map print_decimal (s :: l)
  | PVectorScale e et x =>
      lit "V" :: timed et ++ [print_decimal (fst (ct_start x)); print_decimal (snd (ct_start x))]
      ++ concat (map pair_fields (ct_rest x))
  | PRotate e et s l => lit "R" :: timed et ++ map print_decimal (s :: l)
  | PColour e et x =>
      let '(r, g, b) := sbc_start x in
      lit "C" :: timed et ++ [print_Z r; print_Z g; print_Z b] ++ concat (map rgb_fields (sbc_rest x))
  | PParameter e et p l => lit "P" :: timed et ++ map parameter_letter (p :: l)
  | PLoop n _ => [lit "L"; time_field (cmd_start c); print_Z n]
  | PTrigger t et g _ => lit "T" :: trigger_type_to_string t :: optional_end [cmd_start c; et; g]
  end.
Definition cmd_easing (c : command) : option easing :=
  match cmd_props c with
  | PFade e _ _ _ | PMove e _ _ | PMoveX e _ _ _ | PMoveY e _ _ _ | PScale e _ _ _
  | PVectorScale e _ _ | PRotate e _ _ _ | PColour e _ _ | PParameter e _ _ _ => Some e
  | _ => None
  end.
(** [s] is the line of [c], without indentation. *)
Definition cmd_text (c : command) (s : str) : Prop :=
  exists ez, (forall e, cmd_easing c = Some e -> easing_number e ez) /\ s = commas (cmd_fields ez c).

(** ** commands that can be written on a line *)
Definition cmd_dec (d : decimal) : bool := wf_decimal d && no_comma (print_decimal d).
Definition opt_ok {A} (f : A -> bool) (o : option A) : bool :=
  match o with Some a => f a | None => true end.
Definition easing_ok (e : easing) : bool :=
  match e with EzOther z => in_i32 z && ((z <? 0)%Z || (34 <? z)%Z) | _ => true end.
(** An end time needs a start time. *)
Definition times_ok (st et : option Z) : bool :=
  opt_ok in_i32 st && opt_ok in_i32 et
  && match st, et with None, Some _ => false | _, _ => true end.
(** Only the last entry may lack its second value. *)
Fixpoint pairs_ok (l : list (decimal * option decimal)) : bool :=
  match l with
  | [] => true
  | (x, y) :: l' =>
      cmd_dec x && opt_ok cmd_dec y
      && match y, l' with None, _ :: _ => false | _, _ => true end && pairs_ok l'
  end.
(** Only the last entry may lack its blue, or its green and blue value. *)
Fixpoint rgbs_ok (l : list u8x3) : bool :=
  match l with
  | [] => true
  | (r, g, b) :: l' =>
      in_u8 r && opt_ok in_u8 g && opt_ok in_u8 b
      && match g, b with None, Some _ => false | _, _ => true end
      && match b, l' with None, _ :: _ => false | _, _ => true end && rgbs_ok l'
  end.
Definition two_ok (x : continuing decimal) : bool :=
  cmd_dec (fst (ct_start x)) && cmd_dec (snd (ct_start x)) && pairs_ok (ct_rest x).
Definition cmd_ok (c : command) : bool :=
  let st := cmd_start c in
  match cmd_props c with
  | PFade e et s l | PMoveX e et s l | PMoveY e et s l | PScale e et s l | PRotate e et s l =>
      easing_ok e && times_ok st et && forallb cmd_dec (s :: l)
  | PMove e et x | PVectorScale e et x => easing_ok e && times_ok st et && two_ok x
  | PColour e et x =>
      let '(r, g, b) := sbc_start x in
      easing_ok e && times_ok st et && in_u8 r && in_u8 g && in_u8 b && rgbs_ok (sbc_rest x)
  | PParameter e et p l => easing_ok e && times_ok st et
  | PLoop n _ => opt_ok in_i32 st && in_u32 n
  | PTrigger t et g _ => trigger_ok t && opt_ok in_i32 st && opt_ok in_i32 et && opt_ok in_i32 g
  end.

(** ** command trees *)
(** the commands inside a loop or trigger *)
Definition body (c : command) : list command := match cmd_subs c with Some l => l | None => [] end.
(** the command on its own *)
Definition bare (c : command) : command := cmd_set_subs [] c.
(** every command with its nesting level, a command before the commands inside it *)
Fixpoint preorder (d : nat) (c : command) {struct c} : list (nat * command) :=
  (d, bare c) ::
  match c with
  | mk_cmd _ (PLoop _ cs) | mk_cmd _ (PTrigger _ _ _ cs) => concat (map (preorder (S d)) cs)
  | _ => []
  end.
Definition preorders (d : nat) (cs : list command) : list (nat * command) :=
  concat (map (preorder d) cs).
(** [pushed cs c n cs']: [cs'] is [cs] with [c] added at the end of the list that is
    reached from [cs] by entering the last command [n - 1] times. *)
Inductive pushed : list command -> command -> nat -> list command -> Prop :=
| pushed_here cs c : pushed cs c 1 (cs ++ [c])
| pushed_inside l k b c n b' :
    cmd_subs k = Some b -> pushed b c n b' ->
    pushed (l ++ [k]) c (S n) (l ++ [cmd_set_subs b' k]).
