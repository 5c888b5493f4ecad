(** The text of a key/value section, described on its own: a list of entries
    [key:rest] separated by line breaks. *)
From Coq Require Import String List NArith ZArith Bool.
From Verif Require Import Str Num Dec Parsers.
Import ListNotations.
Local Open Scope N_scope.

Definition blank_char (c : char) : bool := (c =? 32) || (c =? 9).
Definition break_char (c : char) : bool := (c =? 13) || (c =? 10).

(** An entry: the key, the text between the colon and the end of the line, and the
    line breaks, empty lines and indentation up to the next entry. *)
Definition kv_entry : Type := str * str * str.
Definition entry_key (e : kv_entry) : str := fst (fst e).
Definition entry_rest (e : kv_entry) : str := snd (fst e).
Definition entry_gap (e : kv_entry) : str := snd e.
Definition entry_text (e : kv_entry) : str := entry_key e ++ 58 :: entry_rest e ++ entry_gap e.
Definition kv_text (es : list kv_entry) : str := concat (map entry_text es).

Fixpoint skip_blanks (s : str) : str :=
  match s with
  | c :: s' => if blank_char c then skip_blanks s' else s
  | [] => []
  end.
(** The value of an entry: blanks after the colon do not count. *)
Definition entry_value (e : kv_entry) : str := skip_blanks (entry_rest e).

Definition head_is (f : char -> bool) (s : str) : bool :=
  match s with c :: _ => f c | [] => false end.
Definition key_ok (k : str) : bool := forallb (fun c => negb ((c =? 58) || (c =? 10))) k.
Definition rest_ok (r : str) : bool := forallb (fun c => negb (break_char c)) r.
(** nothing, or a line break followed by line breaks and blanks *)
Definition gap_ok (w : str) : bool :=
  forallb (fun c => blank_char c || break_char c) w && (is_empty w || head_is break_char w).
Definition entry_ok (e : kv_entry) : bool :=
  key_ok (entry_key e) && rest_ok (entry_rest e) && gap_ok (entry_gap e).
(** All entries but the last end in a line break, and indentation is part of the gap
    before a key, not of the key. *)
Fixpoint entries_ok (es : list kv_entry) : bool :=
  match es with
  | [] => true
  | e :: es' =>
      entry_ok e && entries_ok es'
      && match es' with
         | [] => true
         | e' :: _ => negb (is_empty (entry_gap e))
                      && negb (head_is (fun c => blank_char c || break_char c) (entry_key e'))
         end
  end.
(** What follows the last entry: a text whose first line has no colon. *)
Definition first_line (s : str) : str := fst (span (fun c => negb (c =? 10)) s).
Definition rest_after (es : list kv_entry) (t : str) : bool :=
  negb (contains_char 58 (first_line t))
  && match es with
     | [] => true
     | _ => is_empty t
            || (negb (is_empty (entry_gap (last es ([], [], []))))
                && negb (head_is (fun c => blank_char c || break_char c) t))
     end.

(** Every ['\r'] belongs to a ["\r\n"], and no line but the first starts with a blank. *)
Fixpoint unindented (s : str) : bool :=
  match s with
  | [] => true
  | c :: s' => (if c =? 10 then negb (head_is blank_char s')
                else if c =? 13 then head_is (fun d => d =? 10) s' else true)
               && unindented s'
  end.
(** The text of a line up to its first colon. *)
Definition line_key (l : str) : str := fst (span (fun c => negb (c =? 58)) l).
(** A [key:value] line without line break and without indentation. *)
Definition kv_line_ok (l : str) : bool := contains_char 58 l && rest_ok l && negb (head_is blank_char l).

(** The error [e] at line [i] of [s] is rightly reported: line [i] has no colon (and the
    earlier lines are empty or have one), or it repeats a key, or it fails in the same
    way when read on its own (and the earlier lines are accepted on their own). *)
Definition names_bad_line {S E} (from : str -> version -> res (option S) (line_err E)) (colon dup : E)
  (s : str) (v : version) (i : Z) (e : E) : Prop :=
  exists n line, i = Z.of_nat n /\ nth_error (lines s) n = Some line
    /\ (e = colon /\ contains_char 58 line = false
        /\ (forall m l, (m < n)%nat -> nth_error (lines s) m = Some l -> l = [] \/ contains_char 58 l = true)
        \/ (forall m l, (m < n)%nat -> nth_error (lines s) m = Some l -> exists x, from l v = ROk x)
           /\ contains_char 58 line = true
           /\ (from line v = RErr (mk_line_err 0 e)
               \/ e = dup /\ exists m l, (m < n)%nat /\ nth_error (lines s) m = Some l
                    /\ contains_char 58 l = true /\ line_key l = line_key line)).
