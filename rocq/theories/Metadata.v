(** src/osu_file/metadata: the [Metadata] section. *)
From Coq Require Import String List NArith ZArith Bool.
From Verif Require Import Str Num Nom Dec Parsers KeyValue KvFields.
Import ListNotations.
Local Open Scope N_scope.

(** metadata/error.rs:7-23 (the [ParseIntError] variant is never produced). *)
Inductive metadata_err := MdColonSet | MdKey | MdDup.

(** [Tags] (metadata/mod.rs:21-32). *)
Definition from_tags : str -> version -> res (option (list str)) metadata_err :=
  nv (fun s =>
        match @separated_list0 unit _ _ (tag (lit " ")) (take_till (fun c => c =? 32)) s with
        | POk _ l => ROk l
        | PErr _ | PFail _ => RPanic PUnwrap
        | PPanic p => RPanic p
        end).
Definition to_tags : list str -> version -> option str := nvp (join (lit " ")).

(** [BeatmapID], [BeatmapSetID] (metadata/mod.rs:33-34): [parse().unwrap()]. *)
Definition from_id : str -> version -> res (option Z) metadata_err :=
  nv (fun s => match parse_i32 s with
               | ROk z => ROk z
               | RErr _ => RPanic PUnwrap
               | RPanic p => RPanic p
               end).

(** [Metadata] (metadata/mod.rs:36-62): every field is optional. *)
Record metadata := mk_metadata {
  metadata_title : option str;
  metadata_title_unicode : option str;
  metadata_artist : option str;
  metadata_artist_unicode : option str;
  metadata_creator : option str;
  metadata_version : option str;
  metadata_source : option str;
  metadata_tags : option (list str);
  metadata_beatmap_id : option Z;
  metadata_beatmap_set_id : option Z }.

(** [Metadata::new] (helper/macros.rs:116-120). *)
Definition metadata_new : metadata := mk_metadata None None None None None None None None None None.

(** Field assignment [section.$field = ..] (helper/macros.rs:145). *)
Definition metadata_set_title (v : option str) (s : metadata) : metadata :=
  mk_metadata v (metadata_title_unicode s) (metadata_artist s) (metadata_artist_unicode s) (metadata_creator s) (metadata_version s) (metadata_source s) (metadata_tags s) (metadata_beatmap_id s) (metadata_beatmap_set_id s).
Definition metadata_set_title_unicode (v : option str) (s : metadata) : metadata :=
  mk_metadata (metadata_title s) v (metadata_artist s) (metadata_artist_unicode s) (metadata_creator s) (metadata_version s) (metadata_source s) (metadata_tags s) (metadata_beatmap_id s) (metadata_beatmap_set_id s).
Definition metadata_set_artist (v : option str) (s : metadata) : metadata :=
  mk_metadata (metadata_title s) (metadata_title_unicode s) v (metadata_artist_unicode s) (metadata_creator s) (metadata_version s) (metadata_source s) (metadata_tags s) (metadata_beatmap_id s) (metadata_beatmap_set_id s).
Definition metadata_set_artist_unicode (v : option str) (s : metadata) : metadata :=
  mk_metadata (metadata_title s) (metadata_title_unicode s) (metadata_artist s) v (metadata_creator s) (metadata_version s) (metadata_source s) (metadata_tags s) (metadata_beatmap_id s) (metadata_beatmap_set_id s).
Definition metadata_set_creator (v : option str) (s : metadata) : metadata :=
  mk_metadata (metadata_title s) (metadata_title_unicode s) (metadata_artist s) (metadata_artist_unicode s) v (metadata_version s) (metadata_source s) (metadata_tags s) (metadata_beatmap_id s) (metadata_beatmap_set_id s).
Definition metadata_set_version (v : option str) (s : metadata) : metadata :=
  mk_metadata (metadata_title s) (metadata_title_unicode s) (metadata_artist s) (metadata_artist_unicode s) (metadata_creator s) v (metadata_source s) (metadata_tags s) (metadata_beatmap_id s) (metadata_beatmap_set_id s).
Definition metadata_set_source (v : option str) (s : metadata) : metadata :=
  mk_metadata (metadata_title s) (metadata_title_unicode s) (metadata_artist s) (metadata_artist_unicode s) (metadata_creator s) (metadata_version s) v (metadata_tags s) (metadata_beatmap_id s) (metadata_beatmap_set_id s).
Definition metadata_set_tags (v : option (list str)) (s : metadata) : metadata :=
  mk_metadata (metadata_title s) (metadata_title_unicode s) (metadata_artist s) (metadata_artist_unicode s) (metadata_creator s) (metadata_version s) (metadata_source s) v (metadata_beatmap_id s) (metadata_beatmap_set_id s).
Definition metadata_set_beatmap_id (v : option Z) (s : metadata) : metadata :=
  mk_metadata (metadata_title s) (metadata_title_unicode s) (metadata_artist s) (metadata_artist_unicode s) (metadata_creator s) (metadata_version s) (metadata_source s) (metadata_tags s) v (metadata_beatmap_set_id s).
Definition metadata_set_beatmap_set_id (v : option Z) (s : metadata) : metadata :=
  mk_metadata (metadata_title s) (metadata_title_unicode s) (metadata_artist s) (metadata_artist_unicode s) (metadata_creator s) (metadata_version s) (metadata_source s) (metadata_tags s) (metadata_beatmap_id s) v.

(** The fields in declaration order with their key, reader and printer. *)
Definition metadata_fields : list (field metadata metadata_err) := [
  mk_field (lit "Title") from_text to_text metadata_title metadata_set_title;
  mk_field (lit "TitleUnicode") from_text to_text metadata_title_unicode metadata_set_title_unicode;
  mk_field (lit "Artist") from_text to_text metadata_artist metadata_set_artist;
  mk_field (lit "ArtistUnicode") from_text to_text metadata_artist_unicode metadata_set_artist_unicode;
  mk_field (lit "Creator") from_text to_text metadata_creator metadata_set_creator;
  mk_field (lit "Version") from_text to_text metadata_version metadata_set_version;
  mk_field (lit "Source") from_text to_text metadata_source metadata_set_source;
  mk_field (lit "Tags") from_tags to_tags metadata_tags metadata_set_tags;
  mk_field (lit "BeatmapID") from_id to_int metadata_beatmap_id metadata_set_beatmap_id;
  mk_field (lit "BeatmapSetID") from_id to_int metadata_beatmap_set_id metadata_set_beatmap_set_id].

Definition metadata_errs : kv_errs metadata_err := mk_kv_errs MdColonSet MdKey MdDup.
(** No spacing (metadata/mod.rs:61). *)
Definition metadata_spacing (_ : str) (_ : version) : str := [].

Definition metadata_from_str : str -> version -> res (option metadata) (line_err metadata_err) :=
  kv_from_str metadata_errs metadata_fields metadata_new.
Definition metadata_to_string : metadata -> version -> option str :=
  kv_to_string metadata_fields metadata_spacing.
