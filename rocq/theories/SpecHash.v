(** What equal data for a hasher say about two files (C77): all paths of a file. *)
From Coq Require Import String List NArith ZArith Bool.
From Verif Require Import Str Num Dec Parsers General Editor Metadata Difficulty Colours TimingPoints HitObjects
  Storyboard NormalEvents Events Osb OsuFile.
Import ListNotations.
Local Open Scope N_scope.

(** A path that does not begin with a slash. *)
Definition relative (p : str) : bool := match p with c :: _ => negb (c =? 47) | [] => true end.
Definition paths_of_event (e : event) : list str :=
  match e with
  | EBackground x => [bg_file x]
  | EVideo x => [vi_file x]
  | ESpriteLegacy x | EAnimationLegacy x => [lg_file x]
  | ESampleLegacy x => [sl_file x]
  | EAudioSample x => [au_file x]
  | EObject x => match ob_type x with ObSprite f => [f] | ObAnimation _ _ _ f => [f] end
  | EComment _ | EBreak _ | EColourTransformation _ => []
  end.
Definition in_opt {A B} (f : A -> list B) (o : option A) : list B := match o with Some x => f x | None => [] end.
Definition paths_of_osb (o : osb) : list str := in_opt (flat_map paths_of_event) (osb_events o).
Definition paths_of_file (f : osu_file) : list str :=
  in_opt (fun g => in_opt (fun p => [p]) (general_audio_filename g)) (osu_general f)
  ++ in_opt (flat_map paths_of_event) (osu_events f) ++ in_opt paths_of_osb (osu_osb f).
Definition relative_file (f : osu_file) : bool := forallb relative (paths_of_file f).
