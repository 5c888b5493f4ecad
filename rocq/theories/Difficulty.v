(** src/osu_file/difficulty: the [Difficulty] section. *)
From Coq Require Import String List NArith ZArith Bool.
From Verif Require Import Str Num Nom Dec Parsers KeyValue KvFields.
Import ListNotations.
Local Open Scope N_scope.

(** difficulty/error.rs:5-19. *)
Inductive difficulty_err := DfColonSet | DfKey | DfDup.

(** [Difficulty] (difficulty/mod.rs:16-39): every field is optional. *)
Record difficulty := mk_difficulty {
  difficulty_hp_drain_rate : option decimal;
  difficulty_circle_size : option decimal;
  difficulty_overall_difficulty : option decimal;
  difficulty_approach_rate : option decimal;
  difficulty_slider_multiplier : option decimal;
  difficulty_slider_tickrate : option decimal }.

(** [Difficulty::new] (helper/macros.rs:116-120). *)
Definition difficulty_new : difficulty := mk_difficulty None None None None None None.

(** Field assignment [section.$field = ..] (helper/macros.rs:145). *)
Definition difficulty_set_hp_drain_rate (v : option decimal) (s : difficulty) : difficulty :=
  mk_difficulty v (difficulty_circle_size s) (difficulty_overall_difficulty s) (difficulty_approach_rate s) (difficulty_slider_multiplier s) (difficulty_slider_tickrate s).
Definition difficulty_set_circle_size (v : option decimal) (s : difficulty) : difficulty :=
  mk_difficulty (difficulty_hp_drain_rate s) v (difficulty_overall_difficulty s) (difficulty_approach_rate s) (difficulty_slider_multiplier s) (difficulty_slider_tickrate s).
Definition difficulty_set_overall_difficulty (v : option decimal) (s : difficulty) : difficulty :=
  mk_difficulty (difficulty_hp_drain_rate s) (difficulty_circle_size s) v (difficulty_approach_rate s) (difficulty_slider_multiplier s) (difficulty_slider_tickrate s).
Definition difficulty_set_approach_rate (v : option decimal) (s : difficulty) : difficulty :=
  mk_difficulty (difficulty_hp_drain_rate s) (difficulty_circle_size s) (difficulty_overall_difficulty s) v (difficulty_slider_multiplier s) (difficulty_slider_tickrate s).
Definition difficulty_set_slider_multiplier (v : option decimal) (s : difficulty) : difficulty :=
  mk_difficulty (difficulty_hp_drain_rate s) (difficulty_circle_size s) (difficulty_overall_difficulty s) (difficulty_approach_rate s) v (difficulty_slider_tickrate s).
Definition difficulty_set_slider_tickrate (v : option decimal) (s : difficulty) : difficulty :=
  mk_difficulty (difficulty_hp_drain_rate s) (difficulty_circle_size s) (difficulty_overall_difficulty s) (difficulty_approach_rate s) (difficulty_slider_multiplier s) v.

(** The fields in declaration order with their key, reader and printer. *)
Definition difficulty_fields : list (field difficulty difficulty_err) := [
  mk_field (lit "HPDrainRate") from_dec to_dec difficulty_hp_drain_rate difficulty_set_hp_drain_rate;
  mk_field (lit "CircleSize") from_dec to_dec difficulty_circle_size difficulty_set_circle_size;
  mk_field (lit "OverallDifficulty") from_dec to_dec difficulty_overall_difficulty difficulty_set_overall_difficulty;
  mk_field (lit "ApproachRate") from_dec to_dec difficulty_approach_rate difficulty_set_approach_rate;
  mk_field (lit "SliderMultiplier") from_dec to_dec difficulty_slider_multiplier difficulty_set_slider_multiplier;
  mk_field (lit "SliderTickRate") from_dec to_dec difficulty_slider_tickrate difficulty_set_slider_tickrate].

Definition difficulty_errs : kv_errs difficulty_err := mk_kv_errs DfColonSet DfKey DfDup.
(** No spacing, except one space in versions 3-4 for the keys ["SliderMultipler"]
    (sic: no such key exists) and ["SliderTickRate"] (difficulty/mod.rs:33-38). *)
Definition difficulty_spacing (k : str) (v : version) : str :=
  if old_version v
  then if str_eqb k (lit "SliderTickRate") then lit " "
       else if str_eqb k (lit "SliderMultipler") then lit " " else []
  else [].

Definition difficulty_from_str
  : str -> version -> res (option difficulty) (line_err difficulty_err) :=
  kv_from_str difficulty_errs difficulty_fields difficulty_new.
Definition difficulty_to_string : difficulty -> version -> option str :=
  kv_to_string difficulty_fields difficulty_spacing.
