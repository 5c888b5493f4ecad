(** Texts that say the same in another layout, and the check that the documentation of the
    crate shows (C60). *)
From Coq Require Import String List NArith ZArith Bool Permutation.
From Verif Require Import Str Num Parsers Spec SpecText SpecKv SpecFile SpecBlank.
Import ListNotations.
Local Open Scope N_scope.

(** The text of a line after its first colon and the blanks there. *)
Definition line_value (l : str) : str := skip_blanks (tl (snd (span (fun c => negb (c =? 58)) l))).
Definition key_sections : list str := map lit ["General"; "Editor"; "Metadata"; "Difficulty"]%string.
(** The lines of a section that are not blank. *)
Definition said (x : sec) : list str := packed (lines (sec_body x)).
(** Two sections that say the same: in a section of keys and values the same keys have the same
    values, in any order and with any blanks after the colon; the other sections have the same
    lines.  Blank lines do not count. *)
Definition relaid (x y : sec) : Prop :=
  sec_name x = sec_name y
  /\ ((In (sec_name x) key_sections
       /\ forallb kv_line_ok (said x) = true /\ forallb kv_line_ok (said y) = true
       /\ Permutation (map (fun l => (line_key l, line_value l)) (said x)) (map (fun l => (line_key l, line_value l)) (said y)))
      \/ said x = said y).
(** [laid_out s v secs]: the first line of [s] is the version line, with or without byte order
    mark; blank lines and comments may follow, and then the sections. *)
Definition laid_out (s : str) (v : version) (secs : list sec) : Prop :=
  exists bom pre, (bom = [] \/ bom = [65279])
  /\ lines s = (bom ++ version_prefix ++ print_Z v) :: pre ++ flat_map sec_all secs
  /\ forallb pre_ok pre = true /\ forallb sec_ok secs = true.
