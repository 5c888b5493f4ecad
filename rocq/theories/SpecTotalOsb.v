(** Which storyboard texts are read, refused or make the reader panic: the vocabulary of C61. *)
From Coq Require Import String List NArith ZArith Bool.
From Verif Require Import Str Num Dec Parsers Storyboard NormalEvents Events Osb Spec SpecWf SpecText SpecTypes SpecEvents SpecFile
  SpecEvSection SpecOsb SpecTotal.
Import ListNotations.
Local Open Scope N_scope.

(** the sections above [x] are read and give [g] *)
Definition osb_reaches (dbg : bool) (cs before : list chunk) (x : chunk) (g : osb) : Prop :=
  (exists rest, cs = before ++ x :: rest) /\ osb_all_read dbg (map ch_sec before) g.

(** A command whose trigger the reader gives up on. *)
Definition trigger_stops (s : str) : Prop :=
  exists ind t r, s = ind ++ lit "T," ++ t ++ r /\ forallb is_indent ind = true
    /\ no_comma t = true /\ (r = [] \/ exists r', r = 44 :: r') /\ bad_trigger (trim t).
(** A line that stops the reader, if it gets there, with the variables [vs]. *)
Definition bad_line_with (vs : list variable) (l : str) : Prop :=
  is_blank l = false /\ strip_prefix (lit "//") l = None
  /\ if indented l
     then bad_offset l \/ exists q l', searched l q /\ with_values q vs l l' /\ trigger_stops l'
     else bad_number l \/ bad_loop_type l.
