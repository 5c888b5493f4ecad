(** What the text comparison of src/lib.rs is meant to look at: the canonical form of a
    text, written on whole sections instead of line by line. *)
From Coq Require Import String List NArith ZArith Bool Permutation Sorted.
From Verif Require Import Str.
Import ListNotations.
Local Open Scope N_scope.

(** A line without the blanks around it and without byte order marks. *)
Definition norm_line (l : str) : str := filter (fun c => negb (c =? 65279)) (trim l).
(** The lines of a text that have something on them. *)
Definition text_lines (s : str) : list str := filter (fun l => negb (is_empty l)) (map norm_line (lines s)).
Definition header_line (l : str) : bool := (hd 0 l =? 91) && (last l 0 =? 93).
Definition has_colon (l : str) : bool := existsb (fun c => c =? 58) l.
Definition squeeze (l : str) : str := filter (fun c => negb (is_ws c)) l.

(** Of the lines above the first section only a version line on top counts. *)
Definition version_part (pre : list str) : list str :=
  match pre with
  | l :: _ => if starts_with (lit "osu file format v") l then [l] else []
  | [] => []
  end.
(** A section of nothing but lines with a colon is sorted, any other keeps its order; the
    lines with a colon lose all their blanks. *)
Definition plain_body (b : list str) : list str := map (fun l => if has_colon l then squeeze l else l) b.
Definition canon_body (b b' : list str) : Prop :=
  if forallb has_colon b
  then Permutation (map squeeze b) b' /\ StronglySorted (fun x y => str_leb x y = true) b'
  else b' = plain_body b.
(** Lines cut into the part above the first section and the sections. *)
Definition section_lines (x : str * list str) : list str := fst x :: snd x.
Definition cut_lines (ls pre : list str) (secs : list (str * list str)) : Prop :=
  ls = pre ++ concat (map section_lines secs)
  /\ forallb (fun l => negb (header_line l)) pre = true
  /\ forallb (fun x => header_line (fst x) && forallb (fun l => negb (header_line l)) (snd x)) secs = true.
Definition canon_section (x y : str * list str) : Prop := fst x = fst y /\ canon_body (snd x) (snd y).
Definition no_bom (s : str) : bool := forallb (fun c => negb (c =? 65279)) s.
(** Two sections that say the same. *)
Definition same_body (b c : list str) : Prop :=
  (forallb has_colon b = true /\ forallb has_colon c = true /\ Permutation (map squeeze b) (map squeeze c))
  \/ (forallb has_colon b = false /\ plain_body b = plain_body c).
Definition same_section (x y : str * list str) : Prop := fst x = fst y /\ same_body (snd x) (snd y).
(** A character of a key. *)
Definition key_char (c : char) : bool := negb (is_ws c) && negb (c =? 65279) && negb (c =? 91).
