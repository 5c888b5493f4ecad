(** Edits of values and what is printed (C62). *)
From Coq Require Import String List NArith ZArith Bool Lia.
From Verif Require Import Str Num Nom Dec Parsers KeyValue General Editor Metadata Difficulty Colours TimingPoints HitObjects Storyboard
  NormalEvents Events Osb OsuFile Spec SpecWf SpecText SpecSections SpecEvents SpecEvSection SpecWrite SpecEdit Write.
From Verif Require SpecFile SpecTypes SpecCmd.
Import ListNotations.
Local Open Scope N_scope.

(** ** one field, one line *)
Fixpoint chain (l : list (list str)) : list str :=
  match l with [] => [] | [x] => x | x :: l' => x ++ chain l' end.
Lemma chain_concat l : chain l = concat l.
Proof. induction l as [|x [|y l] IH]; [easy|cbn; now rewrite app_nil_r|]. cbn [concat chain] in *. now rewrite IH. Qed.
Inductive blocks : list Prop -> list (list str) -> list (list str) -> Prop :=
| bl_end : blocks [] [] []
| bl_cons (P : Prop) x y Ps xs ys : (P -> x = y) -> (length x <= 1)%nat -> (length y <= 1)%nat -> blocks Ps xs ys -> blocks (P :: Ps) (x :: xs) (y :: ys).
Lemma blocks_same Ps xs ys : blocks Ps xs ys -> Forall (fun p => p) Ps -> xs = ys.
Proof. induction 1 as [|P x y Ps xs ys H1 H2 H3 H4 IH]; [easy|]. intros H. inversion_clear H. now rewrite H1, IH. Qed.
Lemma blocks_apart Ps xs ys : blocks Ps xs ys -> all_but_one Ps -> one_line_apart (chain xs) (chain ys).
Proof.
  rewrite !chain_concat. intros H (a & x & b & -> & K). revert xs ys H K. induction a as [|p a IH]; cbn [app]; intros xs ys H K; inversion H; subst; cbn [concat].
  - match goal with B : blocks b _ _ |- _ => rewrite (blocks_same _ _ _ B K) end. exists []. do 3 eexists. split; [reflexivity|]. now split.
  - inversion_clear K as [|? ? K1 K2]. match goal with B : blocks (a ++ _) _ _ |- _ => destruct (IH _ _ B K2) as (P & M & M' & Q & -> & -> & L & L') end.
    match goal with B : p -> _ = _ |- _ => rewrite (B K1) end. match goal with |- one_line_apart (?z ++ _) _ => exists (z ++ P), M, M', Q end. now rewrite <- !app_assoc.
Qed.
Lemma kv_line_short k g t : (length (kv_line k g t) <= 1)%nat.
Proof. unfold kv_line. destruct t; cbn; lia. Qed.
Ltac blocks_tac := repeat (apply bl_cons; [intros ->; reflexivity|apply kv_line_short|apply kv_line_short|]); apply bl_end.
Lemma general_apart v x y : all_but_one (general_agree x y) -> one_line_apart (general_lines v x) (general_lines v y).
Proof.
  intros H. unfold general_lines. cbv zeta.
  refine (blocks_apart (general_agree x y) [_;_;_;_;_;_;_;_;_;_;_;_;_;_;_;_;_;_;_;_;_] [_;_;_;_;_;_;_;_;_;_;_;_;_;_;_;_;_;_;_;_;_] _ H). unfold general_agree. blocks_tac.
Qed.
Lemma editor_apart v x y : all_but_one (editor_agree x y) -> one_line_apart (editor_lines v x) (editor_lines v y).
Proof.
  intros H. unfold editor_lines. cbv zeta. refine (blocks_apart (editor_agree x y) [_;_;_;_;_;_] [_;_;_;_;_;_] _ H). unfold editor_agree. blocks_tac.
Qed.
Lemma metadata_apart x y : all_but_one (metadata_agree x y) -> one_line_apart (metadata_lines x) (metadata_lines y).
Proof.
  intros H. unfold metadata_lines. cbv zeta. refine (blocks_apart (metadata_agree x y) [_;_;_;_;_;_;_;_;_;_] [_;_;_;_;_;_;_;_;_;_] _ H). unfold metadata_agree. blocks_tac.
Qed.
Lemma difficulty_apart v x y : all_but_one (difficulty_agree x y) -> one_line_apart (difficulty_lines v x) (difficulty_lines v y).
Proof.
  intros H. unfold difficulty_lines. cbv zeta. refine (blocks_apart (difficulty_agree x y) [_;_;_;_;_;_] [_;_;_;_;_;_] _ H). unfold difficulty_agree. blocks_tac.
Qed.

(** ** one section in the file *)
Definition body_lines (ls : list str) : list str := match ls with [] => [[]] | _ => ls end.
Lemma spaced_more x l : l <> [] -> spaced_out (x :: l) = x ++ [] :: spaced_out l.
Proof. now destruct l. Qed.
Lemma spaced_mid X T Y : spaced_out (X ++ T :: Y) = concat (map (fun x => x ++ [[]]) X) ++ T ++ concat (map (fun y => [] :: y) Y).
Proof.
  induction X as [|x X IH]; cbn [app map concat].
  - revert T. induction Y as [|y Y IH]; intros T; [cbn; now rewrite app_nil_r|]. rewrite spaced_more by easy. now rewrite IH.
  - rewrite spaced_more by now destruct X. rewrite IH, <- !app_assoc. reflexivity.
Qed.
Lemma frame (hd : str) X name Y : exists P Q, forall ls,
  hd :: [] :: match spaced_out (X ++ titled name (Some ls) ++ Y) with [] => [[]] | l => l end = P ++ body_lines ls ++ Q.
Proof.
  exists (hd :: [] :: concat (map (fun x => x ++ [[]]) X) ++ [lit "[" ++ lit name ++ lit "]"]), (concat (map (fun y => [] :: y) Y)). intros ls.
  cbn [titled app]. rewrite spaced_mid. cbn [app]. rewrite <- !app_assoc. cbn [app]. change (match ls with [] => [[]] | _ => ls end) with (body_lines ls).
  now destruct (concat (map (fun x => x ++ [[]]) X)).
Qed.
Lemma frame_general f : exists P Q, forall x, file_lines (with_general (Some x) f) = P ++ body_lines (general_lines (osu_version f) x) ++ Q.
Proof.
  destruct (frame (lit "osu file format v" ++ print_Z (osu_version f))
    ([]) "General"
    (titled "Editor" (option_map (editor_lines (osu_version f)) (osu_editor f)) ++ titled "Metadata" (option_map metadata_lines (osu_metadata f)) ++ titled "Difficulty" (option_map (difficulty_lines (osu_version f)) (osu_difficulty f)) ++ titled "Events" (option_map (fun l => concat (map (event_out (osu_version f) []) l)) (osu_events f)) ++ titled "TimingPoints" (option_map (map (tp_row (osu_version f))) (osu_timing_points f)) ++ titled "Colours" (opt_if (negb (moves (osu_version f))) (option_map (map colour_text) (osu_colours f))) ++ titled "HitObjects" (option_map (map (ho_row (osu_version f))) (osu_hitobjects f)))) as (P & Q & H).
  exists P, Q. intros x. rewrite <- H. unfold file_lines. cbn [with_general osu_version osu_general osu_editor osu_osb osu_metadata osu_difficulty osu_events osu_timing_points osu_colours osu_hitobjects option_map]. rewrite <- ?app_assoc, ?app_nil_r. reflexivity.
Qed.
Lemma frame_editor f : exists P Q, forall x, file_lines (with_editor (Some x) f) = P ++ body_lines (editor_lines (osu_version f) x) ++ Q.
Proof.
  destruct (frame (lit "osu file format v" ++ print_Z (osu_version f))
    (titled "General" (option_map (general_lines (osu_version f)) (osu_general f))) "Editor"
    (titled "Metadata" (option_map metadata_lines (osu_metadata f)) ++ titled "Difficulty" (option_map (difficulty_lines (osu_version f)) (osu_difficulty f)) ++ titled "Events" (option_map (fun l => concat (map (event_out (osu_version f) []) l)) (osu_events f)) ++ titled "TimingPoints" (option_map (map (tp_row (osu_version f))) (osu_timing_points f)) ++ titled "Colours" (opt_if (negb (moves (osu_version f))) (option_map (map colour_text) (osu_colours f))) ++ titled "HitObjects" (option_map (map (ho_row (osu_version f))) (osu_hitobjects f)))) as (P & Q & H).
  exists P, Q. intros x. rewrite <- H. unfold file_lines. cbn [with_editor osu_version osu_general osu_editor osu_osb osu_metadata osu_difficulty osu_events osu_timing_points osu_colours osu_hitobjects option_map]. rewrite <- ?app_assoc, ?app_nil_r. reflexivity.
Qed.
Lemma frame_metadata f : exists P Q, forall x, file_lines (with_metadata (Some x) f) = P ++ body_lines (metadata_lines x) ++ Q.
Proof.
  destruct (frame (lit "osu file format v" ++ print_Z (osu_version f))
    (titled "General" (option_map (general_lines (osu_version f)) (osu_general f)) ++ titled "Editor" (option_map (editor_lines (osu_version f)) (osu_editor f))) "Metadata"
    (titled "Difficulty" (option_map (difficulty_lines (osu_version f)) (osu_difficulty f)) ++ titled "Events" (option_map (fun l => concat (map (event_out (osu_version f) []) l)) (osu_events f)) ++ titled "TimingPoints" (option_map (map (tp_row (osu_version f))) (osu_timing_points f)) ++ titled "Colours" (opt_if (negb (moves (osu_version f))) (option_map (map colour_text) (osu_colours f))) ++ titled "HitObjects" (option_map (map (ho_row (osu_version f))) (osu_hitobjects f)))) as (P & Q & H).
  exists P, Q. intros x. rewrite <- H. unfold file_lines. cbn [with_metadata osu_version osu_general osu_editor osu_osb osu_metadata osu_difficulty osu_events osu_timing_points osu_colours osu_hitobjects option_map]. rewrite <- ?app_assoc, ?app_nil_r. reflexivity.
Qed.
Lemma frame_difficulty f : exists P Q, forall x, file_lines (with_difficulty (Some x) f) = P ++ body_lines (difficulty_lines (osu_version f) x) ++ Q.
Proof.
  destruct (frame (lit "osu file format v" ++ print_Z (osu_version f))
    (titled "General" (option_map (general_lines (osu_version f)) (osu_general f)) ++ titled "Editor" (option_map (editor_lines (osu_version f)) (osu_editor f)) ++ titled "Metadata" (option_map metadata_lines (osu_metadata f))) "Difficulty"
    (titled "Events" (option_map (fun l => concat (map (event_out (osu_version f) []) l)) (osu_events f)) ++ titled "TimingPoints" (option_map (map (tp_row (osu_version f))) (osu_timing_points f)) ++ titled "Colours" (opt_if (negb (moves (osu_version f))) (option_map (map colour_text) (osu_colours f))) ++ titled "HitObjects" (option_map (map (ho_row (osu_version f))) (osu_hitobjects f)))) as (P & Q & H).
  exists P, Q. intros x. rewrite <- H. unfold file_lines. cbn [with_difficulty osu_version osu_general osu_editor osu_osb osu_metadata osu_difficulty osu_events osu_timing_points osu_colours osu_hitobjects option_map]. rewrite <- ?app_assoc, ?app_nil_r. reflexivity.
Qed.
Lemma frame_events f : exists P Q, forall x, file_lines (with_events (Some x) f) = P ++ body_lines (concat (map (event_out (osu_version f) []) x)) ++ Q.
Proof.
  destruct (frame (lit "osu file format v" ++ print_Z (osu_version f))
    (titled "General" (option_map (general_lines (osu_version f)) (osu_general f)) ++ titled "Editor" (option_map (editor_lines (osu_version f)) (osu_editor f)) ++ titled "Metadata" (option_map metadata_lines (osu_metadata f)) ++ titled "Difficulty" (option_map (difficulty_lines (osu_version f)) (osu_difficulty f))) "Events"
    (titled "TimingPoints" (option_map (map (tp_row (osu_version f))) (osu_timing_points f)) ++ titled "Colours" (opt_if (negb (moves (osu_version f))) (option_map (map colour_text) (osu_colours f))) ++ titled "HitObjects" (option_map (map (ho_row (osu_version f))) (osu_hitobjects f)))) as (P & Q & H).
  exists P, Q. intros x. rewrite <- H. unfold file_lines. cbn [with_events osu_version osu_general osu_editor osu_osb osu_metadata osu_difficulty osu_events osu_timing_points osu_colours osu_hitobjects option_map]. rewrite <- ?app_assoc, ?app_nil_r. reflexivity.
Qed.
Lemma frame_points f : exists P Q, forall x, file_lines (with_points (Some x) f) = P ++ body_lines (map (tp_row (osu_version f)) x) ++ Q.
Proof.
  destruct (frame (lit "osu file format v" ++ print_Z (osu_version f))
    (titled "General" (option_map (general_lines (osu_version f)) (osu_general f)) ++ titled "Editor" (option_map (editor_lines (osu_version f)) (osu_editor f)) ++ titled "Metadata" (option_map metadata_lines (osu_metadata f)) ++ titled "Difficulty" (option_map (difficulty_lines (osu_version f)) (osu_difficulty f)) ++ titled "Events" (option_map (fun l => concat (map (event_out (osu_version f) []) l)) (osu_events f))) "TimingPoints"
    (titled "Colours" (opt_if (negb (moves (osu_version f))) (option_map (map colour_text) (osu_colours f))) ++ titled "HitObjects" (option_map (map (ho_row (osu_version f))) (osu_hitobjects f)))) as (P & Q & H).
  exists P, Q. intros x. rewrite <- H. unfold file_lines. cbn [with_points osu_version osu_general osu_editor osu_osb osu_metadata osu_difficulty osu_events osu_timing_points osu_colours osu_hitobjects option_map]. rewrite <- ?app_assoc, ?app_nil_r. reflexivity.
Qed.
Lemma frame_colours f : moves (osu_version f) = false -> exists P Q, forall x, file_lines (with_colours (Some x) f) = P ++ body_lines (map colour_text x) ++ Q.
Proof.
  intros Hm. destruct (frame (lit "osu file format v" ++ print_Z (osu_version f))
    (titled "General" (option_map (general_lines (osu_version f)) (osu_general f)) ++ titled "Editor" (option_map (editor_lines (osu_version f)) (osu_editor f)) ++ titled "Metadata" (option_map metadata_lines (osu_metadata f)) ++ titled "Difficulty" (option_map (difficulty_lines (osu_version f)) (osu_difficulty f)) ++ titled "Events" (option_map (fun l => concat (map (event_out (osu_version f) []) l)) (osu_events f)) ++ titled "TimingPoints" (option_map (map (tp_row (osu_version f))) (osu_timing_points f))) "Colours"
    (titled "HitObjects" (option_map (map (ho_row (osu_version f))) (osu_hitobjects f)))) as (P & Q & H).
  exists P, Q. intros x. rewrite <- H. unfold file_lines. cbn [with_colours osu_version osu_general osu_editor osu_osb osu_metadata osu_difficulty osu_events osu_timing_points osu_colours osu_hitobjects option_map]. rewrite Hm. cbn [negb opt_if]. rewrite <- ?app_assoc, ?app_nil_r. reflexivity.
Qed.
Lemma frame_objects f : exists P Q, forall x, file_lines (with_objects (Some x) f) = P ++ body_lines (map (ho_row (osu_version f)) x) ++ Q.
Proof.
  destruct (frame (lit "osu file format v" ++ print_Z (osu_version f))
    (titled "General" (option_map (general_lines (osu_version f)) (osu_general f)) ++ titled "Editor" (option_map (editor_lines (osu_version f)) (osu_editor f)) ++ titled "Metadata" (option_map metadata_lines (osu_metadata f)) ++ titled "Difficulty" (option_map (difficulty_lines (osu_version f)) (osu_difficulty f)) ++ titled "Events" (option_map (fun l => concat (map (event_out (osu_version f) []) l)) (osu_events f)) ++ titled "TimingPoints" (option_map (map (tp_row (osu_version f))) (osu_timing_points f)) ++ titled "Colours" (opt_if (negb (moves (osu_version f))) (option_map (map colour_text) (osu_colours f)))) "HitObjects"
    ([])) as (P & Q & H).
  exists P, Q. intros x. rewrite <- H. unfold file_lines. cbn [with_objects osu_version osu_general osu_editor osu_osb osu_metadata osu_difficulty osu_events osu_timing_points osu_colours osu_hitobjects option_map]. rewrite <- ?app_assoc, ?app_nil_r. reflexivity.
Qed.
Lemma body_apart l l' : one_line_apart l l' -> one_line_apart (body_lines l) (body_lines l').
Proof.
  intros (P & M & M' & Q & -> & -> & L & L').
  destruct (P ++ M ++ Q) as [|x r] eqn:E, (P ++ M' ++ Q) as [|x' r'] eqn:E'; cbn [body_lines].
  - exists [[]], [], [], []. cbn. repeat split; lia.
  - apply app_eq_nil in E as [-> E]. apply app_eq_nil in E as [-> ->]. cbn in E'. rewrite app_nil_r in E'. subst M'. exists [], [[]], (x' :: r'), []. cbn in *. rewrite app_nil_r. repeat split; lia.
  - apply app_eq_nil in E' as [-> E']. apply app_eq_nil in E' as [-> ->]. cbn in E. rewrite app_nil_r in E. subst M. exists [], (x :: r), [[]], []. cbn in *. rewrite app_nil_r. repeat split; lia.
  - rewrite <- E, <- E'. exists P, M, M', Q. now split.
Qed.
Lemma framed_apart P Q l l' : one_line_apart l l' -> one_line_apart (P ++ l ++ Q) (P ++ l' ++ Q).
Proof. intros (A & M & M' & B & -> & -> & L & L'). exists (P ++ A), M, M', (B ++ Q). now rewrite <- !app_assoc. Qed.

(** ** what is moved *)
Lemma all_some_app {A B} (f : A -> option B) a b : all_some f (a ++ b) = opt_map2 (@app B) (all_some f a) (all_some f b).
Proof.
  induction a as [|x a IH]; cbn [app all_some opt_map2]; [now destruct (all_some f b)|]. rewrite IH.
  destruct (f x), (all_some f a), (all_some f b); reflexivity.
Qed.
Lemma prints_ok {A} (r : run A) o t : prints r o -> r = ROk t -> o = Some t.
Proof. destruct o; cbn [prints]; [congruence|]. intros (p & ->). easy. Qed.
Definition back_keeps {X} (dbg : bool) (f : osu_file) (wth : option X -> osu_file -> osu_file) (back : X -> option X) : Prop :=
  (exists h, osu_version h = osu_version f /\ forall x, back_file dbg (wth (Some x) f) = option_map (fun z => wth (Some z) h) (back x))
  \/ forall x, back_file dbg (wth (Some x) f) = None.
Lemma back_general dbg f : back_keeps dbg f with_general Some.
Proof.
  unfold back_keeps, back_file. cbn [with_general osu_version osu_general osu_editor osu_osb osu_metadata osu_difficulty osu_events osu_timing_points osu_colours osu_hitobjects].
  destruct (some_of (all_some (back_event dbg (osu_version f))) (osu_events f)) as [ev|], (some_of (all_some (back_timing (osu_version f))) (osu_timing_points f)) as [tp|],
    (some_of (all_some (back_object (osu_version f))) (osu_hitobjects f)) as [ho|]; try (right; reflexivity).
  left. exists (mk_osu (osu_version f) (osu_general f) (osu_editor f) (osu_osb f) (osu_metadata f) (osu_difficulty f) ev tp (osu_colours f) ho). split; [easy|]. intros x. reflexivity.
Qed.
Lemma back_editor dbg f : back_keeps dbg f with_editor Some.
Proof.
  unfold back_keeps, back_file. cbn [with_editor osu_version osu_general osu_editor osu_osb osu_metadata osu_difficulty osu_events osu_timing_points osu_colours osu_hitobjects].
  destruct (some_of (all_some (back_event dbg (osu_version f))) (osu_events f)) as [ev|], (some_of (all_some (back_timing (osu_version f))) (osu_timing_points f)) as [tp|],
    (some_of (all_some (back_object (osu_version f))) (osu_hitobjects f)) as [ho|]; try (right; reflexivity).
  left. exists (mk_osu (osu_version f) (osu_general f) (osu_editor f) (osu_osb f) (osu_metadata f) (osu_difficulty f) ev tp (osu_colours f) ho). split; [easy|]. intros x. reflexivity.
Qed.
Lemma back_metadata dbg f : back_keeps dbg f with_metadata Some.
Proof.
  unfold back_keeps, back_file. cbn [with_metadata osu_version osu_general osu_editor osu_osb osu_metadata osu_difficulty osu_events osu_timing_points osu_colours osu_hitobjects].
  destruct (some_of (all_some (back_event dbg (osu_version f))) (osu_events f)) as [ev|], (some_of (all_some (back_timing (osu_version f))) (osu_timing_points f)) as [tp|],
    (some_of (all_some (back_object (osu_version f))) (osu_hitobjects f)) as [ho|]; try (right; reflexivity).
  left. exists (mk_osu (osu_version f) (osu_general f) (osu_editor f) (osu_osb f) (osu_metadata f) (osu_difficulty f) ev tp (osu_colours f) ho). split; [easy|]. intros x. reflexivity.
Qed.
Lemma back_difficulty dbg f : back_keeps dbg f with_difficulty Some.
Proof.
  unfold back_keeps, back_file. cbn [with_difficulty osu_version osu_general osu_editor osu_osb osu_metadata osu_difficulty osu_events osu_timing_points osu_colours osu_hitobjects].
  destruct (some_of (all_some (back_event dbg (osu_version f))) (osu_events f)) as [ev|], (some_of (all_some (back_timing (osu_version f))) (osu_timing_points f)) as [tp|],
    (some_of (all_some (back_object (osu_version f))) (osu_hitobjects f)) as [ho|]; try (right; reflexivity).
  left. exists (mk_osu (osu_version f) (osu_general f) (osu_editor f) (osu_osb f) (osu_metadata f) (osu_difficulty f) ev tp (osu_colours f) ho). split; [easy|]. intros x. reflexivity.
Qed.
Lemma back_colours dbg f : back_keeps dbg f with_colours Some.
Proof.
  unfold back_keeps, back_file. cbn [with_colours osu_version osu_general osu_editor osu_osb osu_metadata osu_difficulty osu_events osu_timing_points osu_colours osu_hitobjects].
  destruct (some_of (all_some (back_event dbg (osu_version f))) (osu_events f)) as [ev|], (some_of (all_some (back_timing (osu_version f))) (osu_timing_points f)) as [tp|],
    (some_of (all_some (back_object (osu_version f))) (osu_hitobjects f)) as [ho|]; try (right; reflexivity).
  left. exists (mk_osu (osu_version f) (osu_general f) (osu_editor f) (osu_osb f) (osu_metadata f) (osu_difficulty f) ev tp (osu_colours f) ho). split; [easy|]. intros x. reflexivity.
Qed.
Lemma back_events dbg f : back_keeps dbg f with_events (all_some (back_event dbg (osu_version f))).
Proof.
  unfold back_keeps, back_file. cbn [with_events osu_version osu_general osu_editor osu_osb osu_metadata osu_difficulty osu_events osu_timing_points osu_colours osu_hitobjects].
  destruct (some_of (all_some (back_timing (osu_version f))) (osu_timing_points f)) as [tp|], (some_of (all_some (back_object (osu_version f))) (osu_hitobjects f)) as [ho|];
    try (right; intros x; now destruct (some_of (all_some (back_event dbg (osu_version f))) (Some x))).
  left. exists (mk_osu (osu_version f) (osu_general f) (osu_editor f) (osu_osb f) (osu_metadata f) (osu_difficulty f) None tp (osu_colours f) ho). split; [easy|]. intros x. cbn [some_of].
  now destruct (all_some (back_event dbg (osu_version f)) x).
Qed.
Lemma back_points dbg f : back_keeps dbg f with_points (all_some (back_timing (osu_version f))).
Proof.
  unfold back_keeps, back_file. cbn [with_points osu_version osu_general osu_editor osu_osb osu_metadata osu_difficulty osu_events osu_timing_points osu_colours osu_hitobjects].
  destruct (some_of (all_some (back_event dbg (osu_version f))) (osu_events f)) as [ev|], (some_of (all_some (back_object (osu_version f))) (osu_hitobjects f)) as [ho|];
    try (right; intros x; now destruct (some_of (all_some (back_timing (osu_version f))) (Some x))).
  left. exists (mk_osu (osu_version f) (osu_general f) (osu_editor f) (osu_osb f) (osu_metadata f) (osu_difficulty f) ev None (osu_colours f) ho). split; [easy|]. intros x. cbn [some_of].
  now destruct (all_some (back_timing (osu_version f)) x).
Qed.
Lemma back_objects dbg f : back_keeps dbg f with_objects (all_some (back_object (osu_version f))).
Proof.
  unfold back_keeps, back_file. cbn [with_objects osu_version osu_general osu_editor osu_osb osu_metadata osu_difficulty osu_events osu_timing_points osu_colours osu_hitobjects].
  destruct (some_of (all_some (back_event dbg (osu_version f))) (osu_events f)) as [ev|], (some_of (all_some (back_timing (osu_version f))) (osu_timing_points f)) as [tp|];
    try (right; intros x; now destruct (some_of (all_some (back_object (osu_version f))) (Some x))).
  left. exists (mk_osu (osu_version f) (osu_general f) (osu_editor f) (osu_osb f) (osu_metadata f) (osu_difficulty f) ev tp (osu_colours f) None). split; [easy|]. intros x. cbn [some_of].
  now destruct (all_some (back_object (osu_version f)) x).
Qed.

(** ** files *)
Section One.
  Context {X : Type}.
  Variable wth : option X -> osu_file -> osu_file.
  Variable out : version -> X -> list str.
  Hypothesis frames : forall f, exists P Q, forall x, file_lines (wth (Some x) f) = P ++ body_lines (out (osu_version f) x) ++ Q.
  Hypothesis backs : forall dbg f, back_keeps dbg f wth Some.
  Hypothesis fits : forall f x, objects_fit f -> objects_fit (wth (Some x) f).
  Lemma prints_one dbg f x y t : objects_fit f -> osu_to_string dbg (wth (Some x) f) = ROk t -> one_line_apart (out (osu_version f) x) (out (osu_version f) y) ->
    exists h, t = text_of_lines (file_lines (wth (Some x) h))
    /\ osu_to_string dbg (wth (Some y) f) = ROk (text_of_lines (file_lines (wth (Some y) h)))
    /\ one_line_apart (file_lines (wth (Some x) h)) (file_lines (wth (Some y) h)).
  Proof.
    intros Hf Ht Ha. pose proof (prints_ok _ _ _ (file_layout dbg (wth (Some x) f) (fits f x Hf)) Ht) as Hx.
    pose proof (file_layout dbg (wth (Some y) f) (fits f y Hf)) as Hy.
    destruct (backs dbg f) as [(h & Ev & B)|B]; rewrite B in Hx; [|easy]. rewrite B in Hy. cbn [option_map prints] in Hx, Hy. injection Hx as <-.
    exists h. split; [easy|]. split; [exact Hy|]. destruct (frames h) as (P & Q & F). rewrite !F, Ev. apply framed_apart. now apply body_apart.
  Qed.
End One.
Lemma print_general dbg f x y t : objects_fit f -> osu_to_string dbg (with_general (Some x) f) = ROk t -> all_but_one (general_agree x y) ->
  exists h, t = text_of_lines (file_lines (with_general (Some x) h))
  /\ osu_to_string dbg (with_general (Some y) f) = ROk (text_of_lines (file_lines (with_general (Some y) h)))
  /\ one_line_apart (file_lines (with_general (Some x) h)) (file_lines (with_general (Some y) h)).
Proof. intros Hf Ht Ha. apply (prints_one with_general general_lines frame_general back_general (fun f x H => H) dbg f x y t Hf Ht). now apply general_apart. Qed.
Lemma print_editor dbg f x y t : objects_fit f -> osu_to_string dbg (with_editor (Some x) f) = ROk t -> all_but_one (editor_agree x y) ->
  exists h, t = text_of_lines (file_lines (with_editor (Some x) h))
  /\ osu_to_string dbg (with_editor (Some y) f) = ROk (text_of_lines (file_lines (with_editor (Some y) h)))
  /\ one_line_apart (file_lines (with_editor (Some x) h)) (file_lines (with_editor (Some y) h)).
Proof. intros Hf Ht Ha. apply (prints_one with_editor editor_lines frame_editor back_editor (fun f x H => H) dbg f x y t Hf Ht). now apply editor_apart. Qed.
Lemma print_metadata dbg f x y t : objects_fit f -> osu_to_string dbg (with_metadata (Some x) f) = ROk t -> all_but_one (metadata_agree x y) ->
  exists h, t = text_of_lines (file_lines (with_metadata (Some x) h))
  /\ osu_to_string dbg (with_metadata (Some y) f) = ROk (text_of_lines (file_lines (with_metadata (Some y) h)))
  /\ one_line_apart (file_lines (with_metadata (Some x) h)) (file_lines (with_metadata (Some y) h)).
Proof. intros Hf Ht Ha. apply (prints_one with_metadata (fun _ => metadata_lines) frame_metadata back_metadata (fun f x H => H) dbg f x y t Hf Ht). now apply metadata_apart. Qed.
Lemma print_difficulty dbg f x y t : objects_fit f -> osu_to_string dbg (with_difficulty (Some x) f) = ROk t -> all_but_one (difficulty_agree x y) ->
  exists h, t = text_of_lines (file_lines (with_difficulty (Some x) h))
  /\ osu_to_string dbg (with_difficulty (Some y) f) = ROk (text_of_lines (file_lines (with_difficulty (Some y) h)))
  /\ one_line_apart (file_lines (with_difficulty (Some x) h)) (file_lines (with_difficulty (Some y) h)).
Proof. intros Hf Ht Ha. apply (prints_one with_difficulty difficulty_lines frame_difficulty back_difficulty (fun f x H => H) dbg f x y t Hf Ht). now apply difficulty_apart. Qed.

Lemma some_eq {A} (a b : A) : Some a = Some b -> a = b.
Proof. congruence. Qed.
Section Lists.
  Context {A : Type}.
  Variable dbg : bool.
  Variable f : osu_file.
  Variable wth : option (list A) -> osu_file -> osu_file.
  Variable row : A -> list str.
  Variable back : A -> option A.
  Variables fit shown : A -> Prop.
  Hypothesis frames : forall h, osu_version h = osu_version f -> exists P Q, forall x, file_lines (wth (Some x) h) = P ++ body_lines (concat (map row x)) ++ Q.
  Hypothesis backs : back_keeps dbg f wth (all_some back).
  Hypothesis fits : forall l, Forall fit l -> objects_fit (wth (Some l) f).
  Hypothesis shows : forall a z, shown a -> back a = Some z -> row z <> [].
  Lemma rows_shown l z : Exists shown l -> all_some back l = Some z -> concat (map row z) <> [].
  Proof.
    intros H. revert z. induction H as [a l H|a l H IH]; intros z E; cbn [all_some] in E; destruct (back a) as [b|] eqn:Eb; try easy; destruct (all_some back l) as [w|]; try easy;
      injection E as <-; cbn [map concat]; intros K; apply app_eq_nil in K as [K1 K2].
    - now apply (shows a b).
    - now apply (IH w).
  Qed.
  Lemma prints_list : prints_in_place (fun l => osu_to_string dbg (wth (Some l) f)) back row fit shown.
  Proof.
    intros p y y' q t Hs Hf Hf' Ht. pose proof (prints_ok _ _ _ (file_layout dbg (wth (Some (p ++ y ++ q)) f) (fits _ Hf)) Ht) as Hx.
    assert (Hg : Forall fit (p ++ y' ++ q)).
    { apply Forall_app in Hf as [Hp Hq]. apply Forall_app in Hq as [_ Hq]. now repeat (apply Forall_app; split). }
    pose proof (file_layout dbg (wth (Some (p ++ y' ++ q)) f) (fits _ Hg)) as Hy.
    destruct backs as [(h & Ev & B)|B]; rewrite B in Hx; [|easy]. rewrite B in Hy. clear Hf Hf' Hg Ht B.
    destruct (frames h Ev) as (P & Q & F). rewrite !all_some_app in Hx, Hy.
    destruct (all_some back p) as [zp|] eqn:Ep; [|easy]. destruct (all_some back q) as [zq|] eqn:Eq; [|now destruct (all_some back y)].
    destruct (all_some back y) as [z|]; [|easy]. cbn [opt_map2 option_map] in Hx. apply some_eq in Hx. subst t.
    assert (Nn : concat (map row zp) ++ concat (map row zq) <> []).
    { rewrite <- concat_app, <- map_app. apply (rows_shown (p ++ q)); [easy|]. rewrite all_some_app, Ep, Eq. reflexivity. }
    assert (K : forall w, file_lines (wth (Some (zp ++ w ++ zq)) h) = (P ++ concat (map row zp)) ++ concat (map row w) ++ concat (map row zq) ++ Q).
    { intros w. rewrite F, !map_app, !concat_app. unfold body_lines. destruct (concat (map row zp) ++ concat (map row w) ++ concat (map row zq)) eqn:E.
      - apply app_eq_nil in E as [E1 E]. apply app_eq_nil in E as [E2 E3]. elim Nn. now rewrite E1, E3.
      - rewrite <- E, <- !app_assoc. reflexivity. }
    exists (P ++ concat (map row zp)), z, (concat (map row zq) ++ Q). split; [easy|]. split; [now rewrite K|].
    destruct (all_some back y') as [w|]; cbn [opt_map2 option_map] in *; [|exact Hy]. rewrite K in Hy. exact Hy.
  Qed.
End Lists.
Lemma map_concat {A} (g : A -> str) l : concat (map (fun x => [g x]) l) = map g l.
Proof. induction l as [|x l IH]; cbn; congruence. Qed.
Lemma print_points dbg f : objects_fit f ->
  prints_in_place (fun l => osu_to_string dbg (with_points (Some l) f)) (back_timing (osu_version f)) (fun x => [tp_row (osu_version f) x]) (fun _ => True) (fun _ => True).
Proof.
  intros Hf. apply prints_list; [|apply back_points|easy|easy]. intros h Ev. destruct (frame_points h) as (P & Q & F). exists P, Q. intros x. now rewrite F, map_concat, Ev.
Qed.
Lemma print_objects dbg f :
  prints_in_place (fun l => osu_to_string dbg (with_objects (Some l) f)) (back_object (osu_version f)) (fun x => [ho_row (osu_version f) x]) three_bits (fun _ => True).
Proof.
  apply prints_list; [|apply back_objects|easy|easy]. intros h Ev. destruct (frame_objects h) as (P & Q & F). exists P, Q. intros x. now rewrite F, map_concat, Ev.
Qed.
Lemma all_some_id {A} (l : list A) : all_some Some l = Some l.
Proof. induction l as [|x l IH]; [easy|]. cbn [all_some]. now rewrite IH. Qed.
Lemma print_colours dbg f : objects_fit f -> moves (osu_version f) = false ->
  prints_in_place (fun l => osu_to_string dbg (with_colours (Some l) f)) Some (fun x => [colour_text x]) (fun _ => True) (fun _ => True).
Proof.
  intros Hf Hm. apply prints_list; [| |easy|easy].
  - intros h Ev. rewrite <- Ev in Hm. destruct (frame_colours h Hm) as (P & Q & F). exists P, Q. intros x. now rewrite F, map_concat.
  - destruct (back_colours dbg f) as [(h & Ev & B)|B]; [left; exists h; split; [easy|]; intros x; now rewrite B, all_some_id|now right].
Qed.
Lemma print_events dbg f : objects_fit f ->
  prints_in_place (fun l => osu_to_string dbg (with_events (Some l) f)) (back_event dbg (osu_version f)) (event_out (osu_version f) []) (fun _ => True) no_transformation.
Proof.
  intros Hf. apply prints_list; [|apply back_events|easy|].
  - intros h Ev. destruct (frame_events h) as (P & Q & F). exists P, Q. intros x. now rewrite F, Ev.
  - intros a z Ha Hz. unfold event_out. destruct a; cbn [back_event no_transformation] in *; try easy;
      try (injection Hz as <-; discriminate).
    + destruct (back_clock dbg (osu_version f) (vi_start x)); [|easy]. injection Hz as <-. discriminate.
    + destruct (back_clock dbg (osu_version f) (br_start x)), (back_clock dbg (osu_version f) (br_end x)); try easy. injection Hz as <-. discriminate.
Qed.
