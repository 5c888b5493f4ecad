(** Which values reading can give: the vocabulary of C76.  Every predicate looks only at the fields
    of a value. *)
From Coq Require Import String List NArith ZArith Bool.
From Verif Require Import Str Num Dec Parsers General Editor Metadata Difficulty Colours TimingPoints HitObjects Storyboard
  NormalEvents Events Osb SpecWf SpecText SpecKv SpecSections SpecTypes SpecCmd SpecEvents.
Import ListNotations.
Local Open Scope N_scope.

(** [some_text rd x]: some text is read as [x]. *)
Definition some_text {A E} (rd : str -> res (option A) E) (x : A) : Prop := exists s, rd s = ROk (Some x).

(** ** [General] *)
(** Four fields have only the values of the version, the others are read in every version, also in
    those that do not write them. *)
Definition general_range (v : version) (g : general) : bool :=
  general_ok g
  && opt_all (fun _ => has_countdown v) (general_countdown g)
  && opt_all (fun _ => has_sample_set v) (general_sample_set g)
  && opt_all (fun _ => has_overlay v) (general_overlay_position g)
  && opt_all (has_mode v) (general_mode g).

(** ** colours *)
Definition colour_range (c : colour) : bool := colour_ok c && combo_nonneg c.

(** ** times in versions 3 and 4 *)
Definition value_of (r : rdec) : Z := if d_neg r then (- Z.of_N (d_mant r))%Z else Z.of_N (d_mant r).
(** A number that adding 24 gives: without the 24 it still fits 96 bits.  The number 24 itself comes
    from zero and has no decimal places, or 27 of them: then it was rounded. *)
Definition late_number (r : rdec) : bool :=
  let y := (value_of r - 24 * 10 ^ Z.of_nat (d_scale r))%Z in
  (Z.abs y <? 79228162514264337593543950336)%Z && (negb (y =? 0)%Z || Nat.eqb (d_scale r) 0 || Nat.eqb (d_scale r) 27).
Definition time_range (v : version) (d : decimal) : bool :=
  negb ((3 <=? v) && (v <=? 4))%Z || match d with DNum r => late_number r | DRaw _ => true end.
(** An integer is the sum of 24 and an integer of 32 bits; without overflow checks every one is. *)
Definition clock_range (dbg : bool) (v : version) (z : Z) : bool :=
  in_i32 z && (negb ((3 <=? v) && (v <=? 4))%Z || negb dbg || (-2147483624 <=? z)%Z).

(** ** timing points *)
(** Up to version 3 there are a time and a beat length, in version 4 there is nothing behind the
    volume. *)
Definition tp_range (v : version) (t : timing_point) : bool :=
  wf_dec_field (tp_time t) && time_range v (tp_time t)
  && if (4 <? v)%Z then tp_ok v t
     else match tp_uninherited t, tp_effects t with None, None => true | _, _ => false end
     && if (3 <? v)%Z
        then wf_dec_field (tp_beat_length t) && in_i32 (tp_meter t) && tp_sample_set_ok (tp_sample_set_f t)
             && sample_index_ok (tp_sample_index t) && in_i32 (tp_volume t)
        else wf_decimal (tp_beat_length t) && dec_no_nl (tp_beat_length t) && (tp_meter t =? 4)%Z && (tp_volume t =? 100)%Z
             && match tp_sample_set_f t, tp_sample_index t with TsNormal, SiIndex z => (z =? 1)%Z | _, _ => false end.

(** ** hit objects *)
Definition ho_range (v : version) (o : hit_object) : bool :=
  ho_read o && time_range v (ho_time o)
  && match ho_obj_params o with Spinner t | OsuManiaHold t => time_range v t | _ => true end.

(** ** variables *)
(** The name ends at the first equals sign; name and value may be empty. *)
Definition variable_range (x : variable) : bool :=
  forallb (fun c => negb ((c =? 61) || (c =? 10))) (var_name x) && no_nl (var_value x).

(** ** events *)
(** a file name is the text between two commas *)
Definition file_range (p : file_path) : bool := field_text p.
(** nothing, or both coordinates; the second one may have commas *)
Definition place_range (p : option position_t) : bool :=
  opt_all (fun p => wf_dec_field (pos_x p) && wf_decimal (pos_y p) && dec_no_nl (pos_y p)) p.
(** A name of an origin, or a number that is none of the names' *)
Definition origin_values (o : origin) : bool :=
  match or_type o with
  | OLeft _ => true
  | ORight z => or_short o && in_i32 z && negb ((0 <=? z) && (z <=? 9))%Z
  end.
Definition own_range (e : event) : bool :=
  match e with
  | EComment c => no_nl c
  | EBackground x => in_i32 (bg_start x) && file_range (bg_file x) && place_range (bg_pos x)
  | EVideo x => in_i32 (vi_start x) && file_range (vi_file x) && place_range (vi_pos x)
  | EBreak x => in_i32 (br_start x) && in_i32 (br_end x)
  | EColourTransformation x => in_i32 (ctr_start x) && in_u8 (ctr_r x) && in_u8 (ctr_g x) && in_u8 (ctr_b x)
  | ESpriteLegacy x | EAnimationLegacy x => file_range (lg_file x) && place_range (lg_pos x)
  | ESampleLegacy x => wf_dec_field (sl_time x) && file_range (sl_file x) && opt_all volume_ok (sl_volume x)
  | EObject x =>
      origin_values (ob_origin x) && wf_dec_field (pos_x (ob_pos x)) && wf_dec_field (pos_y (ob_pos x))
      && match ob_type x with
         | ObSprite f => file_range f
         | ObAnimation n d _ f => file_range f && in_u32 n && wf_rdec d
         end
  | EAudioSample x => in_i32 (au_time x) && file_range (au_file x) && volume_ok (au_volume x)
  end.
(** The decimals of a command are on one line. *)
Definition cmd_flat (c : command) : bool :=
  match cmd_props c with
  | PFade _ _ s l | PMoveX _ _ s l | PMoveY _ _ s l | PScale _ _ s l | PRotate _ _ s l => forallb dec_no_nl (s :: l)
  | PMove _ _ x | PVectorScale _ _ x =>
      forallb dec_no_nl (fst (ct_start x) :: snd (ct_start x) :: concat (map pair_decs (ct_rest x)))
  | _ => true
  end.
Fixpoint tree_range (c : command) : bool :=
  cmd_ok c && cmd_flat c &&
  match c with
  | mk_cmd _ (PLoop _ cs) | mk_cmd _ (PTrigger _ _ _ cs) => forallb tree_range cs
  | _ => true
  end.
Definition event_range (e : event) : bool := own_range e && forallb tree_range (commands_of e).
(** Every time that is moved is the time of an event of that version. *)
Definition clocks_range (dbg : bool) (v : version) (e : event) : bool :=
  match e with
  | EVideo x => clock_range dbg v (vi_start x)
  | EBreak x => clock_range dbg v (br_start x) && clock_range dbg v (br_end x)
  | EColourTransformation x => clock_range dbg v (ctr_start x)
  | _ => true
  end.
Definition event_in (dbg : bool) (v : version) (e : event) : bool := event_range e && clocks_range dbg v e.
