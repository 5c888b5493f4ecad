(** Times that versions 3 and 4 cannot move by 24 (C12, C13, C40). *)
From Coq Require Import String List NArith ZArith Bool.
From Verif Require Import Str Num Dec Parsers TimingPoints HitObjects Storyboard NormalEvents Events Spec SpecWf SpecText SpecSections SpecEvents.
Import ListNotations.
Local Open Scope N_scope.

(** The text of a whole number within 24 of [2 ^ 96] (what text stands for which number: C01). *)
Definition too_late (x : str) : Prop :=
  exists m, decimal_of_str x = DNum (mkDec false m 0) /\ 79228162514264337593543950312 <= m.
(** The text of an [i32] within 24 of [2 ^ 31]. *)
Definition late_i32 (x : str) : Prop := exists z, int_text true x z /\ (2147483624 <= z <= 2147483647)%Z.
(** A field ends at a comma or with the line. *)
Definition field_end (r : str) : Prop := r = [] \/ exists t, r = 44 :: t.

(** The first field of a timing point. *)
Definition late_timing (l : str) : Prop :=
  exists x r, l = x ++ r /\ no_comma x = true /\ field_end r /\ too_late x.
(** The third field of a hit object, or the end of a spinner or of a hold note: an object is
    a spinner when bit 3 of its type is set and bits 0 and 1 are not, a hold note when bit 7 is
    set and bits 0, 1 and 3 are not. *)
Definition late_object (l : str) : Prop :=
  (exists x y t r, l = commas [x; y; t] ++ r /\ forallb no_comma [x; y; t] = true /\ field_end r /\ too_late t)
  \/ (exists x y t ty z h e r, l = commas [x; y; t; ty; h; e] ++ r /\ forallb no_comma [x; y; t; ty; h; e] = true
       /\ int_text true ty z /\ (- 2 ^ 31 <= z <= 2 ^ 31 - 1)%Z /\ (exists hs, hit_sound_from_str h = ROk (Some hs))
       /\ Z.testbit z 0 = false /\ Z.testbit z 1 = false /\ Z.testbit z 3 = true
       /\ field_end r /\ too_late e)
  \/ (exists x y t ty z h e r, l = commas [x; y; t; ty; h; e] ++ lit ":" ++ r /\ forallb no_comma [x; y; t; ty; h] = true
       /\ contains_char 58 e = false
       /\ int_text true ty z /\ (- 2 ^ 31 <= z <= 2 ^ 31 - 1)%Z /\ (exists hs, hit_sound_from_str h = ROk (Some hs))
       /\ Z.testbit z 0 = false /\ Z.testbit z 1 = false /\ Z.testbit z 3 = false /\ Z.testbit z 7 = true
       /\ too_late e).
(** The time of a video, a break or a colour transformation, or the end of a break. *)
Definition late_event (l : str) : Prop :=
  (exists h x r, In h [lit "1"; lit "Video"; lit "2"; lit "Break"; lit "3"]
     /\ l = commas [h; x] ++ r /\ no_comma x = true /\ field_end r /\ late_i32 x)
  \/ (exists h x y, In h [lit "2"; lit "Break"] /\ l = commas [h; x; y] /\ no_comma x = true /\ i32_text x /\ late_i32 y).
(** What stops the reader of events at the line [l]: a bad line (C13), or a time that is too
    late, with overflow checks. *)
Definition stopped_at (dbg : bool) (evs : list event) (l : str) : Prop :=
  bad_line l /\ (indented l = true -> takes_commands evs) \/ dbg = true /\ late_event l.
