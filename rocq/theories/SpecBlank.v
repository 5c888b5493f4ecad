(** Texts that differ in blank lines only. *)
From Coq Require Import String List NArith ZArith Bool.
From Verif Require Import Str Num Parsers SpecText SpecFile.
Import ListNotations.
Local Open Scope N_scope.

(** a line of spaces, tabs and carriage returns *)
Definition blank_line (l : str) : bool := forallb layout_char l.
(** the lines that are not blank *)
Definition packed (ls : list str) : list str := filter (fun l => negb (blank_line l)) ls.
(** a result without the number of the line *)
Definition no_line {A E} (r : res A (line_err E)) : res A E :=
  match r with ROk a => ROk a | RErr e => RErr (le_err e) | RPanic p => RPanic p end.
(** the first line begins with a visible character *)
Definition visible (ls : list str) : bool :=
  match ls with (c :: _) :: _ => negb (layout_char c) | _ => false end.
(** two sections of the same name that differ in blank lines only *)
Definition same_sec (x y : sec) : Prop := sec_name x = sec_name y /\ packed (lines (sec_body x)) = packed (lines (sec_body y)).
(** the characters with the property White_Space of Unicode *)
Definition white : list char :=
  [9; 10; 11; 12; 13; 32; 133; 160; 5760; 8192; 8193; 8194; 8195; 8196; 8197; 8198; 8199; 8200; 8201; 8202; 8232; 8233; 8239; 8287; 12288].
Definition white_line (l : str) : bool := forallb (fun c => existsb (N.eqb c) white) l.
(** the lines with something else in them *)
Definition inked (ls : list str) : list str := filter (fun l => negb (white_line l)) ls.
