(** The [VersionedDefault] implementations not modelled elsewhere. *)
From Coq Require Import String List NArith ZArith Bool.
From Verif Require Import Str Num Dec Parsers General TimingPoints HitObjects Storyboard NormalEvents Events.
Import ListNotations.
Local Open Scope N_scope.

(** A [versioned_field!] with the default expression [d] (src/helper/macros.rs:73, 80, 99). *)
Definition always {A} (d : A) : version -> option A := fun _ => Some d.

(** The fields of [General] (general/mod.rs:24-41). *)
Definition audio_filename_default : version -> option str := always [].
Definition audio_lead_in_default : version -> option Z := always 0%Z.
Definition audio_hash_default (v : version) : option str := if (13 <? v)%Z then None else Some [].
Definition preview_time_default : version -> option Z := always (-1)%Z.
Definition stack_leniency_default : version -> option decimal := always (DNum (mkDec false 7 1)).
Definition letterbox_in_breaks_default : version -> option bool := always false.
Definition story_fire_in_front_default : version -> option bool := always true.
Definition use_skin_sprites_default : version -> option bool := always false.
Definition always_show_playfield_default : version -> option bool := always false.
Definition skin_preference_default : version -> option str := always [].
Definition epilepsy_warning_default : version -> option bool := always false.
Definition countdown_offset_default : version -> option Z := always 0%Z.
Definition special_style_default : version -> option bool := always false.
Definition widescreen_storyboard_default : version -> option bool := always false.
Definition samples_match_playback_rate_default : version -> option bool := always false.

(** The sections that are lists (events/mod.rs:323-327, timingpoints/mod.rs:73-77,
    hitobjects/mod.rs:66-70). *)
Definition events_default : version -> option (list event) := always [].
Definition timing_points_default : version -> option (list timing_point) := always [].
Definition hit_objects_default : version -> option (list hit_object) := always [].

(** [LoopType] (events/storyboard/sprites.rs:488-492), the sample index of a timing point
    (timingpoints/types.rs:197-201), sample set and sample index of a hit sample
    (hitobjects/types.rs:168-172, 435-439). *)
Definition loop_type_default : version -> option loop_type := always LoopForever.
Definition tp_index_default : version -> option sample_index := always SiDefault.
Definition sample_set_default : version -> option sample_set := always SsNone.
Definition ho_index_default : version -> option ho_index := always HiTimingPoint.
