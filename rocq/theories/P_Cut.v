(** C63: a file that is cut off at the end of a line. *)
From Coq Require Import String List NArith ZArith Bool.
From Verif Require Import Str Num Dec Parsers General Editor Metadata Difficulty Colours TimingPoints HitObjects Storyboard NormalEvents
  Events Osb OsuFile SpecText SpecFile SpecTotal SpecEvents SpecEvSection SpecParts SpecCut Cut.
Import ListNotations.
Local Open Scope N_scope.

(** C63. The lines of [s'] are the first lines of [s], which can be read.  Then [s'] is nothing but
    blank lines, or it has the version of [s] and reads to the beginning of what [s] reads to, or,
    with overflow checks, it panics because its last section is empty. *)
Theorem C63_osu : forall dbg s s' more f, osu_from_str dbg s = ROk f -> lines s = lines s' ++ more -> no_loose_cr s' ->
  (forallb layout_char s' = true /\ osu_from_str dbg s' = RErr (mk_line_err 0 OsuFileVersionDefinedWrong))
  \/ exists n' cs', osu_parts s' (osu_version f) n' cs'
     /\ ((exists f', osu_from_str dbg s' = ROk f' /\ cut_file cs' f' f)
         \/ (dbg = true /\ osu_from_str dbg s' = RPanic POverflow /\ ends_empty cs')).
Proof. exact osu_cut. Qed.
Print Assumptions C63_osu.
Definition whole_file : list str :=
  [[]; lit "osu file format v14"; []; lit "[General]"; lit "AudioFilename: a.mp3"; lit "Mode: 1"; []; lit "[Events]"; lit "Sprite,Pass,Centre,a.png,1,2";
   lit " L,10,2"; lit "  F,0,1,2,3"; lit "  F,0,4,5,6"; lit "[TimingPoints]"; lit "0,300,4,1,0,100,1,0"; lit "5,300,4,1,0,100,1,0"].
Definition first_lines (n : nat) : str := text_of_lines (firstn n whole_file).
Example C63_osu_ex :
  let read n := osu_from_str true (first_lines n) in
  no_loose_cr (first_lines 11) /\ lines (first_lines 15) = lines (first_lines 11) ++ skipn 11 whole_file
  /\ (exists f', read 11%nat = ROk f' /\ exists f, read 15%nat = ROk f
      /\ osu_general f' = osu_general f /\ osu_timing_points f' = None /\ option_map (@length _) (osu_timing_points f) = Some 2%nat
      /\ exists e c c', osu_events f = Some [with_commands [mk_cmd (Some 10%Z) (PLoop 2 [c; c'])] e] /\ osu_events f' = Some [with_commands [mk_cmd (Some 10%Z) (PLoop 2 [c])] e])
  /\ read 4%nat = RPanic POverflow
  /\ (exists f', read 5%nat = ROk f' /\ option_map general_mode (osu_general f') = Some None)
  /\ read 1%nat = RErr (mk_line_err 0 OsuFileVersionDefinedWrong).
Proof.
  cbv zeta. split; [|split; [vm_compute; reflexivity|]].
  - assert (K : forallb (fun l => negb (ends_with_char 13 l)) (lines (first_lines 11)) = true) by (vm_compute; reflexivity).
    apply Forall_forall. intros l Hl m ->. rewrite forallb_forall in K. apply K in Hl. unfold ends_with_char in Hl. now rewrite rev_app_distr in Hl.
  - split; [|split; [vm_compute; reflexivity|split; [eexists; split; [vm_compute; reflexivity|vm_compute; reflexivity]|vm_compute; reflexivity]]].
    eexists. split; [vm_compute; reflexivity|]. eexists. split; [vm_compute; reflexivity|]. split; [reflexivity|]. split; [reflexivity|]. split; [reflexivity|].
    eexists (EObject (mk_obj _ _ _ _ [])), _, _. split; reflexivity.
Qed.
(** Without overflow checks nothing panics. *)
Theorem C63_release : forall s s' more f, osu_from_str false s = ROk f -> lines s = lines s' ++ more -> no_loose_cr s' -> forallb layout_char s' = false ->
  exists n' cs' f', osu_parts s' (osu_version f) n' cs' /\ osu_from_str false s' = ROk f' /\ cut_file cs' f' f.
Proof. exact osu_cut_release. Qed.
Print Assumptions C63_release.
Example C63_release_ex : forallb layout_char (first_lines 4) = false
  /\ exists f', osu_from_str false (first_lines 4) = ROk f' /\ exists g, osu_general f' = Some g /\ general_mode g = None.
Proof. split; [reflexivity|]. eexists. split; [vm_compute; reflexivity|]. eexists. split; reflexivity. Qed.
(** A carriage return at the end of a line, before the line end, is dropped but for the last line. *)
Definition loose_lines : str := lit "osu file format v14" ++ [10] ++ lit "[TimingPoints]" ++ [10] ++ lit "0,300,4,1,0,100,1,0" ++ [13; 13; 10].
Theorem C63_cr_refuted : exists s s' more f e, osu_from_str false s = ROk f /\ lines s = lines s' ++ more /\ forallb layout_char s' = false
  /\ osu_from_str false s' = RErr e.
Proof. exists (loose_lines ++ lit "5,300,4,1,0,100,1,0"), loose_lines, [lit "5,300,4,1,0,100,1,0"]. eexists _, _. vm_compute. repeat split. Qed.
Print Assumptions C63_cr_refuted.

(** The sections of the file that is cut off are the first ones of the file, the last one being cut
    off or empty. *)
Theorem C63_parts : forall s s' more v n cs, lines s = lines s' ++ more -> osu_parts s v n cs ->
  forallb layout_char s' = true \/ exists n' cs', osu_parts s' v n' cs' /\ cut_chunks cs' cs.
Proof. exact parts_cut_plain. Qed.
Print Assumptions C63_parts.
Theorem C63_osb_parts : forall s s' more n cs, lines s = lines s' ++ more -> osb_parts s n cs -> exists n' cs', osb_parts s' n' cs' /\ cut_chunks cs' cs.
Proof. exact osb_parts_plain. Qed.
Print Assumptions C63_osb_parts.
Example C63_parts_ex :
  cut_chunks [mk_chunk (lit "General") [10] (lit "Mode: 1"); mk_chunk (lit "Events") [10; 10] (lit "//x")]
    [mk_chunk (lit "General") [10] (lit "Mode: 1"); mk_chunk (lit "Events") [10; 10] (lit "//x" ++ [10; 10] ++ lit "//y"); mk_chunk (lit "Colours") [10] []]
  /\ ~ cut_chunks [mk_chunk (lit "Events") [10] (lit "//x")] [mk_chunk (lit "Events") [10] (lit "//xy")].
Proof.
  split.
  - exists [mk_chunk (lit "General") [10] (lit "Mode: 1")]. right. do 3 eexists. split; [reflexivity|]. split; [reflexivity|]. split; [reflexivity|].
    split; [|right; reflexivity]. right. right. exists ([10] ++ lit "//y"). reflexivity.
  - intros [a [(<- & b & H)|(x' & x & b & H1 & H2 & _ & H & _)]]; [discriminate H|].
    destruct a as [|? [|]]; try discriminate H1. injection H1 as <-. injection H2 as <- _. cbn in H. destruct H as [H|[H|(r & H)]]; discriminate H.
Qed.
(** A storyboard that is cut off is always read. *)
Theorem C63_osb : forall dbg s s' more f, osb_from_str dbg s 14%Z = ROk (Some f) -> lines s = lines s' ++ more -> no_loose_cr s' ->
  exists n' cs' f', osb_parts s' n' cs' /\ osb_from_str dbg s' 14%Z = ROk (Some f') /\ cut_osb cs' f' f.
Proof. exact osb_cut. Qed.
Print Assumptions C63_osb.
Definition whole_storyboard : list str := [lit "[Variables]"; lit "$a=1"; lit "$b=2"; lit "[Events]"; lit "Sprite,Pass,Centre,a.png,1,2"; lit " F,0,$a,2,3"].
Example C63_osb_ex :
  let read n := osb_from_str true (text_of_lines (firstn n whole_storyboard)) 14%Z in
  read 1%nat = ROk (Some (mk_osb (Some []) None))
  /\ read 2%nat = ROk (Some (mk_osb (Some [mk_var (lit "a") (lit "1")]) None))
  /\ read 4%nat = ROk (Some (mk_osb (Some [mk_var (lit "a") (lit "1"); mk_var (lit "b") (lit "2")]) (Some [])))
  /\ exists e e', read 5%nat = ROk (Some (mk_osb (Some [mk_var (lit "a") (lit "1"); mk_var (lit "b") (lit "2")]) (Some [e'])))
     /\ read 6%nat = ROk (Some (mk_osb (Some [mk_var (lit "a") (lit "1"); mk_var (lit "b") (lit "2")]) (Some [e])))
     /\ e' = with_commands [] e /\ length (commands_of e) = 1%nat.
Proof.
  split; [vm_compute; reflexivity|]. split; [vm_compute; reflexivity|]. split; [vm_compute; reflexivity|]. eexists _, _.
  split; [vm_compute; reflexivity|]. split; [vm_compute; reflexivity|]. split; reflexivity.
Qed.

(** The same for the sections. *)
Theorem C63_lists : forall s s' more v, lines s = lines s' ++ more ->
  (forall xs, timing_points_from_str s v = ROk (Some xs) -> exists xs', timing_points_from_str s' v = ROk (Some xs') /\ begins_with xs' xs)
  /\ (forall xs, hit_objects_from_str s v = ROk (Some xs) -> exists xs', hit_objects_from_str s' v = ROk (Some xs') /\ begins_with xs' xs)
  /\ (forall xs, colours_from_str s v = ROk (Some xs) -> exists xs', colours_from_str s' v = ROk (Some xs') /\ begins_with xs' xs)
  /\ (forall xs, variables_from_str s = ROk xs -> exists xs', variables_from_str s' = ROk xs' /\ begins_with xs' xs).
Proof. exact lists_cut. Qed.
Print Assumptions C63_lists.
Theorem C63_events : forall dbg vs v s s' more xs, lines s = lines s' ++ more -> events_from_str_vars dbg vs s v = ROk (Some xs) ->
  exists xs', events_from_str_vars dbg vs s' v = ROk (Some xs') /\ cut_events xs' xs.
Proof. exact events_lines_cut. Qed.
Print Assumptions C63_events.
Example C63_events_ex :
  let f n := mk_cmd (Some n) (PLoop 1 []) in
  cut_cmds [f 1%Z; mk_cmd (Some 2%Z) (PLoop 3 [f 4%Z])] [f 1%Z; mk_cmd (Some 2%Z) (PLoop 3 [f 4%Z; f 5%Z]); f 6%Z]
  /\ ~ cut_cmds [f 1%Z; f 6%Z] [f 1%Z; f 5%Z; f 6%Z].
Proof.
  cbv zeta. split.
  - apply (cc_inside [_] _ _ [_]). apply cc_loop. apply (cc_here [_] [_]).
  - intros H. inversion H as [|p c' c q K E1 E2]. destruct p as [|p1 [|p2 [|]]]; try discriminate E1. cbn in E1, E2. inversion E1; subst. inversion E2; subst. inversion K.
Qed.
Theorem C63_keys : forall s s' v, cut_body s' s ->
  (forall x, general_from_str s v = ROk (Some x) -> exists x', general_from_str s' v = ROk (Some x') /\ some_general x' x)
  /\ (forall x, editor_from_str s v = ROk (Some x) -> exists x', editor_from_str s' v = ROk (Some x') /\ some_editor x' x)
  /\ (forall x, metadata_from_str s v = ROk (Some x) -> exists x', metadata_from_str s' v = ROk (Some x') /\ some_metadata x' x)
  /\ (forall x, difficulty_from_str s v = ROk (Some x) -> exists x', difficulty_from_str s' v = ROk (Some x') /\ some_difficulty x' x).
Proof. exact keys_cut. Qed.
Print Assumptions C63_keys.
Example C63_keys_ex :
  let s' := lit "Title: a" in let s := s' ++ [10; 32; 10] ++ lit "Tags: x y" in
  cut_body s' s /\ exists x x', metadata_from_str s 14%Z = ROk (Some x) /\ metadata_from_str s' 14%Z = ROk (Some x')
  /\ metadata_tags x = Some [lit "x"; lit "y"] /\ metadata_tags x' = None /\ metadata_title x' = metadata_title x /\ metadata_title x = Some (lit "a").
Proof.
  cbv zeta. split; [right; right; exists ([32; 10] ++ lit "Tags: x y"); reflexivity|]. eexists _, _. split; [vm_compute; reflexivity|]. split; [vm_compute; reflexivity|]. repeat split.
Qed.
