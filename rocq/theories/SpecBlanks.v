(** Blanks, that is spaces and tabs, in a line (C72). *)
From Coq Require Import String List NArith ZArith Bool.
From Verif Require Import Str Num Dec Parsers SpecFile SpecTotal SpecKv SpecLine SpecParts.
Import ListNotations.
Local Open Scope N_scope.

Definition without_blanks (s : str) : str := filter (fun c => negb (blank_char c)) s.
Definition with_blank (s : str) : Prop := exists c, In c s /\ blank_char c = true.
(** the body of a section of keys and values: the entries and what is left *)
Definition of_entries (es : list kv_entry) (t s : str) : Prop := s = kv_text es ++ t /\ entries_ok es = true /\ rest_after es t = true.
(** Two such bodies with the same keys and values in the same order: they differ in the blanks before a
    key and after a colon and in line breaks. *)
Definition keys_respaced (s s' : str) : Prop := exists es es' t, of_entries es t s /\ of_entries es' t s'
  /\ map (fun e => (entry_key e, entry_value e)) es = map (fun e => (entry_key e, entry_value e)) es'.
(** Likewise with as many lines between the entries, indentation being counted as one. *)
Definition keys_respaced_in_line (s s' : str) : Prop := exists es es' t, of_entries es t s /\ of_entries es' t s'
  /\ map (fun e => (entry_key e, entry_value e, rows (entry_gap e))) es = map (fun e => (entry_key e, entry_value e, rows (entry_gap e))) es'.
Definition key_sections : list string := ["General"; "Editor"; "Metadata"; "Difficulty"]%string.
Definition respaced (x x' : chunk) : Prop := ch_name x = ch_name x'
  /\ (ch_body x = ch_body x'
      \/ (exists k, In k key_sections /\ ch_name x = lit k) /\ keys_respaced (ch_body x) (ch_body x')
      \/ ch_name x = lit "Colours" /\ lines (ch_body x') = map without_blanks (lines (ch_body x))).
