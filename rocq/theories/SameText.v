(** Values with the same text. *)
From Coq Require Import String List NArith ZArith Bool Lia.
From Verif Require Import Str Num Nom Dec Parsers General Editor Metadata Difficulty Colours TimingPoints HitObjects
  Storyboard NormalEvents Events Osb OsuFile Spec SpecWf SpecText SpecSections SpecFile SpecEvents SpecWhole SpecBack
  DecFacts ColoursFacts TpFacts HoFacts HoRound HoObj HoImage LayoutFacts
  NumFacts NumFacts HelperFacts MessageFacts EvLoop WholeFacts WholeRead BackFacts.
Import ListNotations.
Local Open Scope N_scope.

Lemma ok_inj {A E} (x y : A) : @ROk A E x = ROk y -> x = y.
Proof. intros H. now injection H. Qed.
Lemma files_text dbg f g : file_ok f = true -> file_ok g = true -> mode_known f = true -> mode_known g = true ->
  (osu_to_string dbg f = osu_to_string dbg g <-> file_at f = file_at g).
Proof.
  intros F G Mf Mg. split; intros H.
  - destruct (whole_file dbg f F) as (t & x & T & _ & _ & R). destruct (whole_file dbg g G) as (u & y & U & _ & _ & S).
    rewrite T, U in H. injection H as <-. rewrite R in S. exact (ok_inj _ _ S).
  - now rewrite <- (print_at dbg f Mf), <- (print_at dbg g Mg), H.
Qed.
Lemma backs_text dbg f g : file_can f = true -> file_can g = true -> osu_to_string dbg f = osu_to_string dbg g ->
  file_back f = file_back g.
Proof.
  intros F G H. destruct (whole_any dbg f F) as (t & x & T & _ & _ & R). destruct (whole_any dbg g G) as (u & y & U & _ & _ & S).
  rewrite T, U in H. injection H as <-. rewrite R in S. exact (ok_inj _ _ S).
Qed.
Lemma num_then_nl a b x y : forallb num_char a = true -> forallb num_char b = true ->
  (a ++ 10 :: x)%list = (b ++ 10 :: y)%list -> a = b /\ x = y.
Proof.
  revert b. induction a as [|c a IH]; intros [|d b] Ha Hb H; cbn [app] in H.
  - injection H as ->. now split.
  - injection H as <- _. now apply andb_true_iff in Hb as [Hb _].
  - injection H as -> _. now apply andb_true_iff in Ha as [Ha _].
  - injection H as <- H. cbn [forallb] in Ha, Hb. apply andb_true_iff in Ha as [_ Ha].
    apply andb_true_iff in Hb as [_ Hb]. destruct (IH b Ha Hb H) as [-> ->]. now split.
Qed.
Lemma version_begins dbg f t : osu_to_string dbg f = ROk t ->
  exists x, t = (lit "osu file format v" ++ print_Z (osu_version f) ++ 10 :: x)%list.
Proof.
  unfold osu_to_string. intros H. cbv zeta in H.
  destruct (run_opt (osu_events f) _) as [a|[]|]; cbn [rbind] in H; [|discriminate].
  destruct (run_opt (osu_timing_points f) _) as [b|[]|]; cbn [rbind] in H; [|discriminate].
  destruct (run_opt (osu_hitobjects f) _) as [c|[]|]; cbn [rbind] in H; [|discriminate].
  injection H as <-. eexists. reflexivity.
Qed.
Lemma version_in_text dbg f g t : osu_to_string dbg f = ROk t -> osu_to_string dbg g = ROk t -> osu_version f = osu_version g.
Proof.
  intros F G. destruct (version_begins dbg f t F) as (x & X). destruct (version_begins dbg g t G) as (y & Y).
  rewrite X in Y. apply app_inv_head in Y. apply num_then_nl in Y as [Y _]; try apply print_Z_chars. now apply print_Z_inj.
Qed.
Lemma colours_text_inj v l k : (4 < v)%Z -> forallb colour_ok l = true -> forallb combo_nonneg l = true ->
  forallb colour_ok k = true -> forallb combo_nonneg k = true -> colours_to_string l v = colours_to_string k v -> l = k.
Proof.
  intros V L L' K K' H. destruct (colours_text_round_trip v l V L L') as [A B]. destruct (colours_text_round_trip v k V K K') as [C D].
  rewrite A, C in H. injection H as H. rewrite H in B. rewrite B in D. now injection D.
Qed.
Lemma points_text_inj v l k : (4 < v)%Z -> forallb (tp_ok v) l = true -> forallb (fun t => index_small (tp_sample_index t)) l = true ->
  forallb (tp_ok v) k = true -> forallb (fun t => index_small (tp_sample_index t)) k = true ->
  timing_points_to_string l v = timing_points_to_string k v -> l = k.
Proof.
  intros V L L' K K' H. destruct (timing_points_text_round_trip v l V L L') as [A B].
  destruct (timing_points_text_round_trip v k V K K') as [C D].
  rewrite A, C in H. injection H as H. rewrite H in B. rewrite B in D. now injection D.
Qed.
Lemma objects_text_inj v l k : (4 < v)%Z -> forallb (ho_ok v) l = true -> forallb (ho_ok v) k = true ->
  hit_objects_to_string l v = hit_objects_to_string k v -> l = k.
Proof.
  intros V L K H. destruct (hit_objects_text_round_trip v l V L) as [A B]. destruct (hit_objects_text_round_trip v k V K) as [C D].
  rewrite A, C in H. injection H as H. rewrite H in B. rewrite B in D. now injection D.
Qed.
Lemma events_text_inj dbg v l k : forallb (event_ok v) l = true -> forallb (event_ok v) k = true ->
  events_to_string dbg l v = events_to_string dbg k v -> l = k.
Proof.
  intros L K H. destruct (events_round_trip dbg v l L) as (t & A & B). destruct (events_round_trip dbg v k K) as (u & C & D).
  rewrite A, C in H. injection H as <-. rewrite B in D. now injection D.
Qed.
Lemma decimals_text_inj a b : wf_decimal a = true -> wf_decimal b = true -> print_decimal a = print_decimal b -> a = b.
Proof. intros A B H. rewrite <- (decimal_print_parse a A), <- (decimal_print_parse b B). now rewrite H. Qed.
