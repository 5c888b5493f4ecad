(** Values that are read on their own: names and numbers (C71). *)
From Coq Require Import String List NArith ZArith Bool.
From Verif Require Import Str Num Dec Parsers TimingPoints HitObjects Storyboard NormalEvents Spec.
Import ListNotations.
Local Open Scope N_scope.

(** [from] always answers: with a value or with an error. *)
Definition answers {A E} (from : str -> res (option A) E) : Prop :=
  forall s, (exists x, from s = ROk (Some x)) \/ exists e, from s = RErr e.
(** Whatever was read is read again from its printed text. *)
Definition settles_alone {A E} (from : str -> res (option A) E) (to : A -> str) : Prop :=
  forall s x, from s = ROk (Some x) -> from (to x) = ROk (Some x).
(** Exactly the texts of the table are read, and a value is printed as its text in the table. *)
Definition by_name {A E} (table : list (string * A)) (from : str -> res (option A) E) (to : A -> str) : Prop :=
  answers from
  /\ (forall s x, from s = ROk (Some x) <-> exists t, In (t, x) table /\ s = lit t)
  /\ (forall x, exists t, In (t, x) table /\ to x = lit t).
(** What a number means: its entry in the table or else what [other] says. *)
Definition meant {A} (table : list (Z * A)) (other : Z -> option A) (z : Z) : option A :=
  match find (fun p => (fst p =? z)%Z) table with Some p => Some (snd p) | None => other z end.
(** Exactly the numbers from [lo] to [hi] with a meaning are read, as what they mean. *)
Definition by_number {A E} (signed : bool) (lo hi : Z) (table : list (Z * A)) (other : Z -> option A)
  (from : str -> res (option A) E) : Prop :=
  answers from
  /\ forall s x, from s = ROk (Some x) <-> exists z, int_text signed s z /\ (lo <= z <= hi)%Z /\ meant table other z = Some x.
Definition by_i32 {A E} := @by_number A E true (- 2 ^ 31) (2 ^ 31 - 1).
Definition by_u8 {A E} := @by_number A E false 0 (2 ^ 8 - 1).
Definition by_u32 {A E} := @by_number A E false 0 (2 ^ 32 - 1).
Definition by_usize {A E} := @by_number A E false 0 (2 ^ 64 - 1).
Definition no_other {A} (z : Z) : option A := None.

Definition curve_names := [("B", Bezier); ("C", Centripetal); ("L", Linear); ("P", PerfectCircle)]%string.
Definition sample_set_names := [("All", SbAll); ("Normal", SbNormal); ("Soft", SbSoft); ("Drum", SbDrum)]%string.
Definition addition_names := [("Whistle", AdWhistle); ("Finish", AdFinish); ("Clap", AdClap)]%string.
Definition parameter_names := [("H", PaFlipH); ("V", PaFlipV); ("A", PaAdditive)]%string.
Definition layer_names :=
  [("Background", LyBackground); ("Fail", LyFail); ("Pass", LyPass); ("Foreground", LyForeground); ("Overlay", LyOverlay)]%string.
Definition loop_names := [("LoopForever", LoopForever); ("LoopOnce", LoopOnce)]%string.
Definition origin_names :=
  [("TopLeft", OtTopLeft); ("Centre", OtCentre); ("CentreLeft", OtCentreLeft); ("TopRight", OtTopRight);
   ("BottomCentre", OtBottomCentre); ("TopCentre", OtTopCentre); ("Custom", OtCustom); ("CentreRight", OtCentreRight);
   ("BottomLeft", OtBottomLeft); ("BottomRight", OtBottomRight)]%string.
Definition origin_numbers : list (Z * origin_type) :=
  [(0, OtTopLeft); (1, OtCentre); (2, OtCentreLeft); (3, OtTopRight); (4, OtBottomCentre);
   (5, OtTopCentre); (6, OtCustom); (7, OtCentreRight); (8, OtBottomLeft); (9, OtBottomRight)]%Z.
Definition layer_numbers : list (Z * layer_legacy) :=
  [(0, LlBackground); (1, LlFail); (2, LlPass); (3, LlForeground); (4, LlOverlay); (5, LlVideo)]%Z.
Definition ts_numbers : list (Z * tp_sample_set) := [(0, TsBeatmapDefault); (1, TsNormal); (2, TsSoft); (3, TsDrum)]%Z.
Definition ss_numbers : list (Z * sample_set) := [(0, SsNone); (1, SsNormal); (2, SsSoft); (3, SsDrum)]%Z.
(** the low four bits *)
Definition sounds_of (z : Z) : hit_sound := mk_hit_sound (Z.testbit z 0) (Z.testbit z 1) (Z.testbit z 2) (Z.testbit z 3).
(** at most one hundred *)
Definition percent (z : Z) : option Z := if (z <=? 100)%Z then Some z else None.
(** An origin is a name, or a number: of the ten, or any other. *)
Definition origin_means (s : str) (o : origin) : Prop :=
  (exists t x, In (t, x) origin_names /\ s = lit t /\ o = mk_origin (OLeft x) false)
  \/ exists z, int_text true s z /\ (- 2 ^ 31 <= z <= 2 ^ 31 - 1)%Z
     /\ o = mk_origin (match meant origin_numbers no_other z with Some x => OLeft x | None => ORight z end) true.
(** Two parts with a colon between them, the first without a colon. *)
Definition two_parts (s a b : str) : Prop := s = a ++ lit ":" ++ b /\ ~ In 58 a.
