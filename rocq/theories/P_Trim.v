(** Property theorems C24, C25 and C26: comparing texts with [osu_str_eq]. *)
From Coq Require Import String List NArith ZArith Bool Permutation Sorted.
From Verif Require Import Str Num Dec Nom Parsers KeyValue General Editor Metadata Difficulty Colours TimingPoints HitObjects
  Storyboard NormalEvents Events Osb OsuFile StrFacts Trimmer SpecTrim TrimFacts.
Import ListNotations.
Local Open Scope N_scope.

(** ** C24: what is compared *)
Theorem C24_equivalence :
  (forall s, osu_str_eq s s = true)
  /\ (forall s t, osu_str_eq s t = true -> osu_str_eq t s = true)
  /\ (forall s t u, osu_str_eq s t = true -> osu_str_eq t u = true -> osu_str_eq s u = true).
Proof. exact equivalence. Qed.
Print Assumptions C24_equivalence.
(** Every text can be cut into sections, in one way. *)
Theorem C24_cut : forall ls, exists pre secs, cut_lines ls pre secs
  /\ forall pre' secs', cut_lines ls pre' secs' -> pre' = pre /\ secs' = secs.
Proof. exact cut_one. Qed.
Print Assumptions C24_cut.
(** The trimmed text: the version line and the canonical sections. *)
Theorem C24_canonical : forall s pre secs secs',
  cut_lines (text_lines s) pre secs -> Forall2 canon_section secs secs' ->
  osu_str_trimmer s = join [10] (version_part pre ++ concat (map section_lines secs')).
Proof. exact canonical. Qed.
Print Assumptions C24_canonical.
(** Without byte order marks two texts are equal exactly when they have the same version
    line and the same sections in the same order, up to the order of the lines in sections
    in which every line has a colon, and up to blanks in lines with a colon. *)
Theorem C24_exact : forall s t pre secs pre' secs',
  no_bom s = true -> no_bom t = true ->
  cut_lines (text_lines s) pre secs -> cut_lines (text_lines t) pre' secs' ->
  (osu_str_eq s t = true <-> version_part pre = version_part pre' /\ Forall2 same_section secs secs').
Proof. exact eq_exact. Qed.
Print Assumptions C24_exact.
(** Blank lines and indentation: any blanks at the start of the text or of a line. *)
Theorem C24_leading : forall a w b, forallb is_ws w = true ->
  osu_str_eq (a ++ [10] ++ w ++ b) (a ++ [10] ++ b) = true /\ osu_str_eq (w ++ b) b = true.
Proof. exact leading. Qed.
Print Assumptions C24_leading.
(** Blanks at the end of a line. *)
Theorem C24_trailing : forall a w b, forallb is_ws w = true ->
  osu_str_eq (a ++ w ++ [10] ++ b) (a ++ [10] ++ b) = true.
Proof. exact trailing. Qed.
Print Assumptions C24_trailing.
(** The order of the lines of a section in which every line has a colon. *)
Theorem C24_reorder : forall s t pre A h b b' B,
  cut_lines (text_lines s) pre (A ++ (h, b) :: B) -> cut_lines (text_lines t) pre (A ++ (h, b') :: B) ->
  forallb has_colon b = true -> Permutation b b' -> osu_str_eq s t = true.
Proof. exact reorder. Qed.
Print Assumptions C24_reorder.

Definition C24_a : str := join [10] [lit "osu file format v14"; []; lit "[General]"; lit "Mode: 1"; lit "StackLeniency: 0.7"; lit "[Events]"; lit "2,1,2"].
Definition C24_b : str := join [10] [[]; lit " osu file format v14"; lit "x"; lit "[General]"; lit "  StackLeniency  :0.7 "; lit "Mode:1"; lit "[Events] "; []; lit "2,1,2"; []].
Example C24_ex : osu_str_eq C24_a C24_b = true
  /\ no_bom C24_a = true
  /\ cut_lines (text_lines C24_a) [lit "osu file format v14"] [(lit "[General]", [lit "Mode: 1"; lit "StackLeniency: 0.7"]); (lit "[Events]", [lit "2,1,2"])]
  /\ cut_lines (text_lines C24_b) [lit "osu file format v14"; lit "x"] [(lit "[General]", [lit "StackLeniency  :0.7"; lit "Mode:1"]); (lit "[Events]", [lit "2,1,2"])].
Proof. vm_compute. repeat split. Qed.
(** Order counts where a line has no colon. *)
Example C24_order_ex :
  osu_str_eq (join [10] [lit "[Events]"; lit "2,1,2"; lit "2,3,4"]) (join [10] [lit "[Events]"; lit "2,3,4"; lit "2,1,2"]) = false.
Proof. vm_compute. reflexivity. Qed.

(** ** C25: trimming twice *)
Theorem C25_idempotent : forall s, no_bom s = true -> osu_str_trimmer (osu_str_trimmer s) = osu_str_trimmer s.
Proof. exact trimmer_idem. Qed.
Print Assumptions C25_idempotent.
Example C25_ex : no_bom C24_b = true /\ osu_str_trimmer C24_b <> C24_b /\ osu_str_trimmer (osu_str_trimmer C24_b) = osu_str_trimmer C24_b.
Proof. vm_compute. repeat split. discriminate. Qed.
(** A byte order mark with a blank behind it hides the blank from the first run. *)
Theorem C25_bom_refuted : exists s, osu_str_trimmer (osu_str_trimmer s) <> osu_str_trimmer s.
Proof. exists ([65279; 32] ++ lit "[General]" ++ [10] ++ lit "[Editor]" ++ [10] ++ [65279; 32] ++ lit "x"). vm_compute. discriminate. Qed.
Print Assumptions C25_bom_refuted.

(** ** C26: what cannot be told apart *)
(** Below a section header, values that differ in nothing but blanks. *)
Theorem C26_value_blanks : forall a k x y b,
  existsb header_line (text_lines (a ++ [10])) = true -> k <> [] -> forallb key_char k = true ->
  plain_line (k ++ 58 :: x) = true -> plain_line (k ++ 58 :: y) = true -> squeeze x = squeeze y ->
  osu_str_eq (a ++ [10] ++ k ++ [58] ++ x ++ [10] ++ b) (a ++ [10] ++ k ++ [58] ++ y ++ [10] ++ b) = true.
Proof. exact value_blanks. Qed.
Print Assumptions C26_value_blanks.
(** So the comparison does not respect the values: a title with and without a blank, and
    two hit objects in either order. *)
Theorem C26_faithful_refuted : exists s t f g,
  osu_str_eq s t = true /\ osu_from_str true s = ROk f /\ osu_from_str true t = ROk g
  /\ option_map metadata_title (osu_metadata f) <> option_map metadata_title (osu_metadata g).
Proof.
  exists (lit "osu file format v14" ++ [10] ++ lit "[Metadata]" ++ [10] ++ lit "Title:a b"),
    (lit "osu file format v14" ++ [10] ++ lit "[Metadata]" ++ [10] ++ lit "Title:ab").
  do 2 eexists. split; [vm_compute; reflexivity|]. split; [vm_compute; reflexivity|]. split; [vm_compute; reflexivity|]. vm_compute. discriminate.
Qed.
Print Assumptions C26_faithful_refuted.
Theorem C26_order_refuted : exists s t f g,
  osu_str_eq s t = true /\ osu_from_str true s = ROk f /\ osu_from_str true t = ROk g
  /\ osu_hitobjects f <> osu_hitobjects g.
Proof.
  exists (join [10] [lit "osu file format v14"; lit "[HitObjects]"; lit "1,2,30,1,0,0:0:0:0:"; lit "1,2,5,1,0,0:0:0:0:"]),
    (join [10] [lit "osu file format v14"; lit "[HitObjects]"; lit "1,2,5,1,0,0:0:0:0:"; lit "1,2,30,1,0,0:0:0:0:"]).
  do 2 eexists. split; [vm_compute; reflexivity|]. split; [vm_compute; reflexivity|]. split; [vm_compute; reflexivity|]. vm_compute. discriminate.
Qed.
Print Assumptions C26_order_refuted.
(** Texts without a header line are compared by their version line alone; so are all error
    messages, and every two of them are equal. *)
Theorem C26_no_sections : forall s t,
  forallb (fun l => negb (header_line l)) (text_lines s) = true -> forallb (fun l => negb (header_line l)) (text_lines t) = true ->
  version_part (text_lines s) = version_part (text_lines t) -> osu_str_eq s t = true.
Proof. exact blind. Qed.
Print Assumptions C26_no_sections.
Example C26_no_sections_ex :
  let s := lit "Line 42, Unknown command type" in let t := lit "Line 46, Unknown command type" in
  forallb (fun l => negb (header_line l)) (text_lines s) = true /\ version_part (text_lines s) = version_part (text_lines t) /\ osu_str_eq s t = true.
Proof. vm_compute. repeat split. Qed.
Example C26_ex :
  let a := lit "[Metadata]" in let k := lit "Title" in let x := lit " a b" in let y := lit "ab" in
  existsb header_line (text_lines (a ++ [10])) = true /\ forallb key_char k = true
  /\ plain_line (k ++ 58 :: x) = true /\ plain_line (k ++ 58 :: y) = true /\ squeeze x = squeeze y.
Proof. vm_compute. repeat split. Qed.
