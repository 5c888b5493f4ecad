(** Property theorems C06, C10, C11, C15, C18, C19, C20: the key/value sections
    ([General], [Editor], [Metadata], [Difficulty]). *)
From Coq Require Import String List NArith ZArith Bool Permutation.
From Verif Require Import Str Num Nom Dec Parsers KeyValue General Editor Metadata Difficulty Spec SpecWf SpecKv
  SpecText SpecSections KvSem KvSections KvTheorems KvLines KvImage KvStatements KvSamples.
Import ListNotations.
Local Open Scope N_scope.

(** C06. A section whose values fit on a line is printed as the documented lines and
    read back as the same section: everything the version can express is kept. *)
Theorem C06_general_round_trip : forall v g,
  general_ok g = true ->
  general_to_string g v = Some (text_of_lines (general_lines v g))
  /\ general_from_str (text_of_lines (general_lines v g)) v = ROk (Some (general_at v g)).
Proof. exact general_text_round_trip. Qed.
Print Assumptions C06_general_round_trip.
Theorem C06_editor_round_trip : forall v e,
  editor_ok e = true ->
  editor_to_string e v = Some (text_of_lines (editor_lines v e))
  /\ editor_from_str (text_of_lines (editor_lines v e)) v = ROk (Some (editor_at v e)).
Proof. exact editor_text_round_trip. Qed.
Print Assumptions C06_editor_round_trip.
Theorem C06_metadata_round_trip : forall v m,
  metadata_ok m = true ->
  metadata_to_string m v = Some (text_of_lines (metadata_lines m))
  /\ metadata_from_str (text_of_lines (metadata_lines m)) v = ROk (Some m).
Proof. exact metadata_text_round_trip. Qed.
Print Assumptions C06_metadata_round_trip.
Theorem C06_difficulty_round_trip : forall v d,
  difficulty_ok d = true ->
  difficulty_to_string d v = Some (text_of_lines (difficulty_lines v d))
  /\ difficulty_from_str (text_of_lines (difficulty_lines v d)) v = ROk (Some d).
Proof. exact difficulty_text_round_trip. Qed.
Print Assumptions C06_difficulty_round_trip.

(** Every section that is read meets the hypothesis, so it survives being printed. *)
Theorem C06_general_reparse : forall s v g,
  general_from_str s v = ROk (Some g) ->
  general_ok g = true
  /\ exists t, general_to_string g v = Some t /\ general_from_str t v = ROk (Some (general_at v g)).
Proof. exact general_reparse. Qed.
Print Assumptions C06_general_reparse.
(** ... unchanged, unless it has a field the version reads but does not print. *)
Theorem C06_general_reparse_same : forall s v g,
  general_from_str s v = ROk (Some g) ->
  (v <= 13)%Z \/ general_audio_hash g = None ->
  (v <= 5)%Z \/ general_editor_bookmarks g = None /\ general_editor_distance_spacing g = None ->
  exists t, general_to_string g v = Some t /\ general_from_str t v = ROk (Some g).
Proof. exact general_reparse_same. Qed.
Print Assumptions C06_general_reparse_same.
Theorem C06_editor_reparse : forall s v e,
  editor_from_str s v = ROk (Some e) ->
  editor_ok e = true
  /\ (exists t, editor_to_string e v = Some t /\ editor_from_str t v = ROk (Some (editor_at v e)))
  /\ (v = 10%Z \/ editor_current_time e = None -> editor_at v e = e).
Proof. exact editor_reparse. Qed.
Print Assumptions C06_editor_reparse.
Theorem C06_metadata_reparse : forall s v m,
  metadata_from_str s v = ROk (Some m) ->
  metadata_ok m = true
  /\ exists t, metadata_to_string m v = Some t /\ metadata_from_str t v = ROk (Some m).
Proof. exact metadata_reparse. Qed.
Print Assumptions C06_metadata_reparse.
Theorem C06_difficulty_reparse : forall s v d,
  difficulty_from_str s v = ROk (Some d) ->
  difficulty_ok d = true
  /\ exists t, difficulty_to_string d v = Some t /\ difficulty_from_str t v = ROk (Some d).
Proof. exact difficulty_reparse. Qed.
Print Assumptions C06_difficulty_reparse.

Example C06_ex :
  general_ok general1 = true /\ editor_ok editor1 = true /\ metadata_ok metadata1 = true
  /\ difficulty_ok difficulty1 = true /\ general_at 14%Z general1 <> general1
  /\ text_of_lines (difficulty_lines 4%Z difficulty1)
     = lit "HPDrainRate:5" ++ [10] ++ lit "CircleSize:4.2" ++ [10] ++ lit "ApproachRate:9.0" ++ [10]
       ++ lit "SliderMultiplier:1.4" ++ [10] ++ lit "SliderTickRate: 1"
  /\ text_of_lines (metadata_lines metadata1)
     = lit "Title:Title: the title" ++ [10] ++ lit "TitleUnicode:" ++ [10] ++ lit "Artist:a " ++ [10]
       ++ lit "Creator:me" ++ [10] ++ lit "Version:Hard" ++ [10] ++ lit "Source:" ++ [10]
       ++ lit "Tags:one  two:" ++ [10] ++ lit "BeatmapID:12" ++ [10] ++ lit "BeatmapSetID:-1".
Proof. vm_compute. repeat split. intros H. inversion H. Qed.
Example C06_ex_reparse :
  general_from_str (lit "Mode: 3" ++ [13; 10; 10] ++ lit "  EditorBookmarks:	1,-2") 9%Z
  = ROk (Some (general_set_editor_bookmarks (Some [1; -2]%Z) general_new)).
Proof. vm_compute. reflexivity. Qed.

(** C10. Reading [General], [Editor] or [Difficulty] never panics. *)
Theorem C10_general_no_panic : forall s v p, general_from_str s v <> RPanic p.
Proof. exact general_np. Qed.
Print Assumptions C10_general_no_panic.
Theorem C10_editor_no_panic : forall s v p, editor_from_str s v <> RPanic p.
Proof. exact editor_np. Qed.
Print Assumptions C10_editor_no_panic.
Theorem C10_difficulty_no_panic : forall s v p, difficulty_from_str s v <> RPanic p.
Proof. exact difficulty_np. Qed.
Print Assumptions C10_difficulty_no_panic.
Example C10_ex :
  editor_from_str (lit "Bookmarks: 1,,2") 14%Z = RErr (mk_line_err 0 EdCommaList)
  /\ editor_from_str (lit "GridSize: 99999999999") 14%Z = RErr (mk_line_err 0 (EdInt IPosOverflow)).
Proof. vm_compute. auto. Qed.

(** C11. Reading [Metadata] panics exactly when the first bad entry is an id that is not
    an [i32]. *)
Theorem C11_metadata_panics : forall s v p,
  metadata_from_str s v = RPanic p <->
  p = PUnwrap /\ exists es1 e es2 t,
    s = kv_text (es1 ++ e :: es2) ++ t /\ entries_ok (es1 ++ e :: es2) = true
    /\ rest_after (es1 ++ e :: es2) t = true /\ is_blank t = true
    /\ NoDup (map entry_key (es1 ++ [e]))
    /\ (forall x, In x es1 -> In (entry_key x) metadata_keys
                              /\ (id_key (entry_key x) -> i32_text (entry_value x)))
    /\ id_key (entry_key e) /\ ~ i32_text (entry_value e).
Proof. exact metadata_panics. Qed.
Print Assumptions C11_metadata_panics.
Example C11_ex :
  metadata_from_str (lit "Title:x" ++ [10] ++ lit "BeatmapID: 2147483648") 14%Z = RPanic PUnwrap
  /\ metadata_from_str (lit "Title:x" ++ [10] ++ lit "BeatmapSetID:") 14%Z = RPanic PUnwrap
  /\ metadata_from_str (lit "Titel:x" ++ [10] ++ lit "BeatmapID: a") 14%Z = RErr (mk_line_err 0 MdKey).
Proof. vm_compute. auto. Qed.

(** C15. In a text without indented lines (and where every ['\r'] is part of a line
    break) the reported index is the index of a line of the text; that line has no
    colon, or repeats the key of an earlier line, or gives the same error on its own,
    and the lines before it are in order. *)
Theorem C15_general_error_line : forall s v i e,
  unindented s = true -> general_from_str s v = RErr (mk_line_err i e) ->
  names_bad_line general_from_str GenColonSet GenDup s v i e.
Proof. exact general_error_line. Qed.
Print Assumptions C15_general_error_line.
Theorem C15_editor_error_line : forall s v i e,
  unindented s = true -> editor_from_str s v = RErr (mk_line_err i e) ->
  names_bad_line editor_from_str EdColonSet EdDup s v i e.
Proof. exact editor_error_line. Qed.
Print Assumptions C15_editor_error_line.
Theorem C15_metadata_error_line : forall s v i e,
  unindented s = true -> metadata_from_str s v = RErr (mk_line_err i e) ->
  names_bad_line metadata_from_str MdColonSet MdDup s v i e.
Proof. exact metadata_error_line. Qed.
Print Assumptions C15_metadata_error_line.
Theorem C15_difficulty_error_line : forall s v i e,
  unindented s = true -> difficulty_from_str s v = RErr (mk_line_err i e) ->
  names_bad_line difficulty_from_str DfColonSet DfDup s v i e.
Proof. exact difficulty_error_line. Qed.
Print Assumptions C15_difficulty_error_line.
Example C15_ex :
  let s := lit "CircleSize:1" ++ [13; 10; 10] ++ lit "HPDrainRate: 2" ++ [10] ++ lit "Circle Size:3" ++ [10] in
  unindented s = true
  /\ difficulty_from_str s 14%Z = RErr (mk_line_err 3 DfKey)
  /\ nth_error (lines s) 3 = Some (lit "Circle Size:3").
Proof. vm_compute. auto. Qed.
(** With an indented line the index points past the line, even past the end. *)
Theorem C15_indented_refuted :
  exists s i e, difficulty_from_str s 14%Z = RErr (mk_line_err i e)
    /\ (i = Z.of_nat (length (lines s)))%Z.
Proof. exact difficulty_indented. Qed.
Print Assumptions C15_indented_refuted.

(** C18. The order of the lines does not matter. *)
Theorem C18_general_permutation : forall ls ls' v x,
  forallb kv_line_ok ls = true -> Permutation ls ls' ->
  general_from_str (text_of_lines ls) v = ROk x -> general_from_str (text_of_lines ls') v = ROk x.
Proof. exact (kv_permute_lines general_errs _ _ _ general_laws). Qed.
Print Assumptions C18_general_permutation.
Theorem C18_editor_permutation : forall ls ls' v x,
  forallb kv_line_ok ls = true -> Permutation ls ls' ->
  editor_from_str (text_of_lines ls) v = ROk x -> editor_from_str (text_of_lines ls') v = ROk x.
Proof. exact (kv_permute_lines editor_errs _ _ _ editor_laws). Qed.
Print Assumptions C18_editor_permutation.
Theorem C18_metadata_permutation : forall ls ls' v x,
  forallb kv_line_ok ls = true -> Permutation ls ls' ->
  metadata_from_str (text_of_lines ls) v = ROk x -> metadata_from_str (text_of_lines ls') v = ROk x.
Proof. exact (kv_permute_lines metadata_errs _ _ _ metadata_laws). Qed.
Print Assumptions C18_metadata_permutation.
Theorem C18_difficulty_permutation : forall ls ls' v x,
  forallb kv_line_ok ls = true -> Permutation ls ls' ->
  difficulty_from_str (text_of_lines ls) v = ROk x -> difficulty_from_str (text_of_lines ls') v = ROk x.
Proof. exact (kv_permute_lines difficulty_errs _ _ _ difficulty_laws). Qed.
Print Assumptions C18_difficulty_permutation.
(** The same with blank lines and indentation between the entries. *)
Theorem C18_general_permutation_entries : forall es es' v g,
  entries_ok es = true -> entries_ok es' = true ->
  Permutation (map (fun e => (entry_key e, entry_value e)) es)
              (map (fun e => (entry_key e, entry_value e)) es') ->
  general_from_str (kv_text es) v = ROk (Some g) -> general_from_str (kv_text es') v = ROk (Some g).
Proof. exact (kv_permutation general_errs _ _ _ general_laws). Qed.
Print Assumptions C18_general_permutation_entries.
Theorem C18_editor_permutation_entries : forall es es' v g,
  entries_ok es = true -> entries_ok es' = true ->
  Permutation (map (fun e => (entry_key e, entry_value e)) es)
              (map (fun e => (entry_key e, entry_value e)) es') ->
  editor_from_str (kv_text es) v = ROk (Some g) -> editor_from_str (kv_text es') v = ROk (Some g).
Proof. exact (kv_permutation editor_errs _ _ _ editor_laws). Qed.
Print Assumptions C18_editor_permutation_entries.
Theorem C18_metadata_permutation_entries : forall es es' v g,
  entries_ok es = true -> entries_ok es' = true ->
  Permutation (map (fun e => (entry_key e, entry_value e)) es)
              (map (fun e => (entry_key e, entry_value e)) es') ->
  metadata_from_str (kv_text es) v = ROk (Some g) -> metadata_from_str (kv_text es') v = ROk (Some g).
Proof. exact (kv_permutation metadata_errs _ _ _ metadata_laws). Qed.
Print Assumptions C18_metadata_permutation_entries.
Theorem C18_difficulty_permutation_entries : forall es es' v g,
  entries_ok es = true -> entries_ok es' = true ->
  Permutation (map (fun e => (entry_key e, entry_value e)) es)
              (map (fun e => (entry_key e, entry_value e)) es') ->
  difficulty_from_str (kv_text es) v = ROk (Some g) -> difficulty_from_str (kv_text es') v = ROk (Some g).
Proof. exact (kv_permutation difficulty_errs _ _ _ difficulty_laws). Qed.
Print Assumptions C18_difficulty_permutation_entries.
Example C18_ex :
  let ls := [lit "CircleSize:1"; lit "HPDrainRate: 2"; lit "ApproachRate:	3"] in
  forallb kv_line_ok ls = true
  /\ difficulty_from_str (text_of_lines (rev ls)) 14%Z
     = ROk (Some (mk_difficulty (Some (dnum 2 0)) (Some (dnum 1 0)) None (Some (dnum 3 0)) None None)).
Proof. vm_compute. auto. Qed.

(** C19, C20. Any text is a list of entries [key:rest] and a rest without colon on its
    first line; if a key occurs twice, or is not documented, reading does not succeed. *)
Theorem C19_every_text_has_entries : forall s,
  exists es t, s = kv_text es ++ t /\ entries_ok es = true /\ rest_after es t = true.
Proof. exact every_text_has_entries. Qed.
Print Assumptions C19_every_text_has_entries.
Theorem C19_duplicate_keys : forall es t v,
  entries_ok es = true -> rest_after es t = true -> ~ NoDup (map entry_key es) ->
  (forall x, general_from_str (kv_text es ++ t) v <> ROk x)
  /\ (forall x, editor_from_str (kv_text es ++ t) v <> ROk x)
  /\ (forall x, metadata_from_str (kv_text es ++ t) v <> ROk x)
  /\ (forall x, difficulty_from_str (kv_text es ++ t) v <> ROk x).
Proof. exact duplicate_keys. Qed.
Print Assumptions C19_duplicate_keys.
Theorem C20_unknown_keys : forall es t v e,
  entries_ok es = true -> rest_after es t = true -> In e es ->
  (~ In (entry_key e) general_keys -> forall x, general_from_str (kv_text es ++ t) v <> ROk x)
  /\ (~ In (entry_key e) editor_keys -> forall x, editor_from_str (kv_text es ++ t) v <> ROk x)
  /\ (~ In (entry_key e) metadata_keys -> forall x, metadata_from_str (kv_text es ++ t) v <> ROk x)
  /\ (~ In (entry_key e) difficulty_keys -> forall x, difficulty_from_str (kv_text es ++ t) v <> ROk x).
Proof. exact unknown_keys. Qed.
Print Assumptions C20_unknown_keys.
(** In terms of lines: an accepted text has one line per key, each with a documented
    key, and nothing else. *)
Theorem C20_general_accepted_lines : forall s v x,
  unindented s = true -> general_from_str s v = ROk x ->
  NoDup (map line_key (filter (contains_char 58) (lines s)))
  /\ (forall l, In l (lines s) -> contains_char 58 l = true -> In (line_key l) general_keys)
  /\ (forall l, In l (lines s) -> contains_char 58 l = false -> is_blank l = true).
Proof. exact general_accepted_lines. Qed.
Print Assumptions C20_general_accepted_lines.
Theorem C20_editor_accepted_lines : forall s v x,
  unindented s = true -> editor_from_str s v = ROk x ->
  NoDup (map line_key (filter (contains_char 58) (lines s)))
  /\ (forall l, In l (lines s) -> contains_char 58 l = true -> In (line_key l) editor_keys)
  /\ (forall l, In l (lines s) -> contains_char 58 l = false -> is_blank l = true).
Proof. exact editor_accepted_lines. Qed.
Print Assumptions C20_editor_accepted_lines.
Theorem C20_metadata_accepted_lines : forall s v x,
  unindented s = true -> metadata_from_str s v = ROk x ->
  NoDup (map line_key (filter (contains_char 58) (lines s)))
  /\ (forall l, In l (lines s) -> contains_char 58 l = true -> In (line_key l) metadata_keys)
  /\ (forall l, In l (lines s) -> contains_char 58 l = false -> is_blank l = true).
Proof. exact metadata_accepted_lines. Qed.
Print Assumptions C20_metadata_accepted_lines.
Theorem C20_difficulty_accepted_lines : forall s v x,
  unindented s = true -> difficulty_from_str s v = ROk x ->
  NoDup (map line_key (filter (contains_char 58) (lines s)))
  /\ (forall l, In l (lines s) -> contains_char 58 l = true -> In (line_key l) difficulty_keys)
  /\ (forall l, In l (lines s) -> contains_char 58 l = false -> is_blank l = true).
Proof. exact difficulty_accepted_lines. Qed.
Print Assumptions C20_difficulty_accepted_lines.
Example C19_ex :
  let es := [(lit "CircleSize", lit "1", [10]); (lit "CircleSize", lit "1", [])] in
  entries_ok es = true /\ rest_after es [] = true
  /\ difficulty_from_str (kv_text es ++ []) 14%Z = RErr (mk_line_err 1 DfDup).
Proof. vm_compute. auto. Qed.
Example C20_ex :
  let es := [(lit "circleSize", lit "1", [10])] in
  entries_ok es = true /\ rest_after es [] = true
  /\ difficulty_from_str (kv_text es ++ []) 14%Z = RErr (mk_line_err 0 DfKey).
Proof. vm_compute. auto. Qed.
