(** What [==] on files decides (C58): the values are compared with every number and every
    path in a canonical form, and nothing else. *)
From Coq Require Import String List NArith ZArith QArith Bool Relations.
From Verif Require Import Str Num Dec Parsers General Editor Metadata Difficulty Colours TimingPoints HitObjects
  Storyboard NormalEvents Events Osb OsuFile.
Import ListNotations.
Local Open Scope N_scope.

(** the number a decimal stands for *)
Definition rdec_value (d : rdec) : Q :=
  ((if d_neg d then (-1 # 1) else 1) * inject_Z (Z.of_N (d_mant d)) / inject_Z (10 ^ Z.of_nat (d_scale d)))%Q.
(** no zeros at the end, and only one zero *)
Fixpoint strip_zeros (m : N) (sc : nat) : N * nat :=
  match sc with
  | O => (m, O)
  | S k => if m mod 10 =? 0 then strip_zeros (m / 10) k else (m, sc)
  end.
Definition canon_dec (d : rdec) : rdec :=
  let (m, sc) := strip_zeros (d_mant d) (d_scale d) in mkDec (d_neg d && negb (d_mant d =? 0)) m sc.

(** The spellings of a path: slashes next to each other are one, a dot between slashes or
    at the end of a path is nothing, and neither is a slash at the end. *)
Inductive respell : str -> str -> Prop :=
| rs_slashes a b : respell (a ++ 47 :: 47 :: b) (a ++ 47 :: b)
| rs_dot a b : respell (a ++ 47 :: 46 :: 47 :: b) (a ++ 47 :: b)
| rs_end_dot a : respell (a ++ [47; 46]) (a ++ [47])
| rs_end a : a <> [] -> respell (a ++ [47]) a.
Definition same_path : str -> str -> Prop := clos_refl_sym_trans str respell.
(** the shortest spelling *)
Fixpoint squash (s : str) : str :=
  match s with
  | [] => []
  | c :: r =>
      if c =? 47 then
        match r with
        | 47 :: _ => squash r
        | 46 :: ((47 :: _) as r') => squash r'
        | [46] => [47]
        | _ => c :: squash r
        end
      else c :: squash r
  end.
Definition cut_end (s : str) : str := match rev s with 47 :: c :: r => rev (c :: r) | _ => s end.
Definition canon_path (p : str) : str := cut_end (squash p).

(** ** every number and every path of a file *)
Definition canon_decimal (d : decimal) : decimal := match d with DNum x => DNum (canon_dec x) | DRaw s => DRaw s end.
Definition canon_pos (p : position_t) : position_t := mk_pos (canon_decimal (pos_x p)) (canon_decimal (pos_y p)).
Definition canon_general (g : general) : general :=
  match g with
  | mk_general fn li h pt cd ss sl md lb sf us ap op sp ew co sst ws sm eb ed =>
      mk_general (option_map canon_path fn) li h pt cd ss (option_map canon_decimal sl) md lb sf us ap op sp ew co sst ws sm
        eb (option_map canon_decimal ed)
  end.
Definition canon_editor (e : editor) : editor :=
  match e with
  | mk_editor bm ds bd gs tz ct =>
      mk_editor bm (option_map canon_decimal ds) (option_map canon_decimal bd) gs (option_map canon_decimal tz) ct
  end.
Definition canon_difficulty (d : difficulty) : difficulty :=
  match d with
  | mk_difficulty hp cs od ar sm st =>
      mk_difficulty (option_map canon_decimal hp) (option_map canon_decimal cs) (option_map canon_decimal od)
        (option_map canon_decimal ar) (option_map canon_decimal sm) (option_map canon_decimal st)
  end.
Definition canon_tp (t : timing_point) : timing_point :=
  match t with
  | mk_tp tm bl me ss si vo un ef => mk_tp (canon_decimal tm) (canon_decimal bl) me ss si vo un ef
  end.
Definition canon_params (p : ho_params) : ho_params :=
  match p with
  | HitCircle => HitCircle
  | Slider (mk_slide ct ps n len es es_short et et_short) =>
      Slider (mk_slide ct (map canon_pos ps) n (canon_decimal len) es es_short et et_short)
  | Spinner t => Spinner (canon_decimal t)
  | OsuManiaHold t => OsuManiaHold (canon_decimal t)
  end.
Definition canon_ho (o : hit_object) : hit_object :=
  match o with
  | mk_ho po tm pa nc cs so sa => mk_ho (canon_pos po) (canon_decimal tm) (canon_params pa) nc cs so sa
  end.
Definition canon_continuing (c : continuing decimal) : continuing decimal :=
  mk_cont (canon_decimal (fst (ct_start c)), canon_decimal (snd (ct_start c)))
    (map (fun p => (canon_decimal (fst p), option_map canon_decimal (snd p))) (ct_rest c)).
Fixpoint canon_command (c : command) : command :=
  match c with mk_cmd s p => mk_cmd s (canon_properties p) end
with canon_properties (p : cmd_properties) : cmd_properties :=
  match p with
  | PFade e t s l => PFade e t (canon_decimal s) (map canon_decimal l)
  | PMove e t c => PMove e t (canon_continuing c)
  | PMoveX e t s l => PMoveX e t (canon_decimal s) (map canon_decimal l)
  | PMoveY e t s l => PMoveY e t (canon_decimal s) (map canon_decimal l)
  | PScale e t s l => PScale e t (canon_decimal s) (map canon_decimal l)
  | PVectorScale e t c => PVectorScale e t (canon_continuing c)
  | PRotate e t s l => PRotate e t (canon_decimal s) (map canon_decimal l)
  | PColour e t c => PColour e t c
  | PParameter e t x l => PParameter e t x l
  | PLoop n l => PLoop n (map canon_command l)
  | PTrigger x t g l => PTrigger x t g (map canon_command l)
  end.
Definition canon_object_type (t : object_type) : object_type :=
  match t with
  | ObSprite f => ObSprite (canon_path f)
  | ObAnimation n d l f => ObAnimation n (canon_dec d) l (canon_path f)
  end.
Definition canon_legacy (x : legacy) : legacy :=
  match x with
  | mk_leg ly o f p cs => mk_leg ly o (canon_path f) (option_map canon_pos p) (map canon_command cs)
  end.
Definition canon_event (e : event) : event :=
  match e with
  | EComment s => EComment s
  | EBackground (mk_bg s f p cs) => EBackground (mk_bg s (canon_path f) (option_map canon_pos p) (map canon_command cs))
  | EVideo (mk_vid s f p cs sh) => EVideo (mk_vid s (canon_path f) (option_map canon_pos p) (map canon_command cs) sh)
  | EBreak b => EBreak b
  | EColourTransformation t => EColourTransformation t
  | ESpriteLegacy x => ESpriteLegacy (canon_legacy x)
  | EAnimationLegacy x => EAnimationLegacy (canon_legacy x)
  | ESampleLegacy (mk_sl t ly f v cs) => ESampleLegacy (mk_sl (canon_decimal t) ly (canon_path f) v (map canon_command cs))
  | EObject (mk_obj ly o p t cs) => EObject (mk_obj ly o (canon_pos p) (canon_object_type t) (map canon_command cs))
  | EAudioSample (mk_au t ly f v) => EAudioSample (mk_au t ly (canon_path f) v)
  end.
Definition canon_osb (o : osb) : osb := mk_osb (osb_variables o) (option_map (map canon_event) (osb_events o)).
Definition canon_file (f : osu_file) : osu_file :=
  match f with
  | mk_osu v ge ed sb me di ev ti co ho =>
      mk_osu v (option_map canon_general ge) (option_map canon_editor ed) (option_map canon_osb sb) me
        (option_map canon_difficulty di) (option_map (map canon_event) ev) (option_map (map canon_tp) ti) co
        (option_map (map canon_ho) ho)
  end.
