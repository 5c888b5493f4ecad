(** The speeds of timing points that were read (C65): proofs. *)
From Coq Require Import String List NArith ZArith QArith Qabs Bool Lia Lqa.
From Verif Require Import Str Num Nom Dec DecOps Parsers KeyValue KvFields General Editor Metadata Difficulty Colours TimingPoints HitObjects Storyboard NormalEvents Events Osb OsuFile Api Helpers
  Spec SpecWf SpecText SpecKv SpecSections SpecFile SpecTypes SpecCmd SpecEvents SpecOld SpecWhole SpecBack SpecHelpers SpecDecOps
  StrFacts NumFacts NomFacts DecFacts LineFacts ColoursFacts FieldFacts TpFacts HoFacts HoImage LayoutFacts KvTheorems KvImage KvLines FileFacts FileLoop FileTheorems EvImage
  EvLoop WholeFacts WholeRead OldFacts SpecLate SpecPrint PrintPanic BackFacts BackSettle BackRead DecSpeed.
Import ListNotations.

Lemma beat_of_text v s r t : tp_parser v s = POk r t -> exists x, tp_beat_length t = decimal_of_str x.
Proof.
  intros H. unfold tp_parser in H. apply pbind_inv in H as (r1 & time & _ & H). apply preceded_iff in H as (r2 & u & _ & H).
  apply alt_inv in H as [H|H].
  - apply pmap_iff in H as (b & H & ->). apply upto_inv in H as [_ H]. apply map_res_inv in H as (x & _ & H). injection H as <-. cbn [tp_beat_length]. now exists x.
  - apply pbind_inv in H as (r3 & bl & H3 & H). apply dfield_inv in H3 as (x & _ & _ & E).
    apply pbind_inv in H as (r4 & m & _ & H). apply pbind_inv in H as (r5 & ss & _ & H). apply pmap_inv in H as ([i [[vol u'] e]] & _ & ->). cbn [tp_beat_length]. now exists x.
Qed.
Lemma read_beat v s l t : timing_points_from_str s v = ROk (Some l) -> In t l -> wf_decimal (tp_beat_length t) = true.
Proof.
  rewrite timing_points_from_str_eq. destruct (parse_lines _ 0 (lines s)) as [xs| |] eqn:E; cbn; try easy. intros [= <-] Hin. apply parse_lines_ok in E.
  remember (filter _ _) as ls eqn:El. clear El. induction E as [|l0 x la lx H1 H2 IH]; [easy|]. destruct x as [c|]; [|now apply tp_from_str_none in H1].
  cbn in Hin. destruct Hin as [<-|Hin]; [|now apply IH].
  unfold tp_from_str in H1. apply rmap_ok in H1 as (t & H1 & [= ->]). apply verbose_ok in H1 as (r & H1). apply beat_of_text in H1 as (x & ->). apply decimal_of_str_wf.
Qed.
Local Open Scope Q_scope.
Lemma panic_iff A (r : run A) (lim b : Q) : (if Qlt_le_dec lim b then exists x, r = ROk x else r = RPanic PDecimal) -> forall p, r = RPanic p <-> p = PDecimal /\ b <= lim.
Proof.
  destruct (Qlt_le_dec lim b) as [L|L].
  - intros (x & ->) p. split; [easy|]. intros [_ K]. lra.
  - intros -> p. split; [intros [= <-]; easy|]. now intros [-> _].
Qed.
Lemma read_bpm s v l t : timing_points_from_str s v = ROk (Some l) -> In t l -> forall p,
  calc_bpm rdec_div rdec_mul t = RPanic p <-> p = PDecimal /\ tp_uninherited t = Some true /\ exists b, tp_beat_length t = DNum b /\ Qabs (frac b) <= units 7573.
Proof.
  intros H Hin p. pose proof (read_beat _ _ _ _ H Hin) as W. destruct (tp_uninherited t) as [[]|] eqn:Eu.
  2,3: unfold calc_bpm; rewrite Eu; split; [easy|intros (_ & K & _); easy].
  destruct (tp_beat_length t) as [b|x] eqn:Eb.
  - pose proof (calc_bpm_cases t b Eu Eb W) as C. rewrite (panic_iff _ _ (units 7573) (Qabs (frac b))).
    + split; [intros [-> K]; split; [reflexivity|]; split; [reflexivity|]; now exists b|]. intros (-> & _ & b' & [= <-] & K). easy.
    + destruct (Qlt_le_dec _ _); [|exact C]. destruct C as (m & C & _). now exists (Some m).
  - unfold calc_bpm. rewrite Eu, Eb. split; [easy|]. intros (_ & _ & b & K & _). discriminate K.
Qed.
Lemma read_velocity s v l t : timing_points_from_str s v = ROk (Some l) -> In t l -> forall p,
  calc_slider_velocity_multiplier rdec_div t = RPanic p <-> p = PDecimal /\ tp_uninherited t = Some false /\ exists b, tp_beat_length t = DNum b /\ Qabs (frac b) <= units 50.
Proof.
  intros H Hin p. pose proof (read_beat _ _ _ _ H Hin) as W. destruct (tp_uninherited t) as [[]|] eqn:Eu.
  1,3: unfold calc_slider_velocity_multiplier; rewrite Eu; split; [easy|intros (_ & K & _); easy].
  destruct (tp_beat_length t) as [b|x] eqn:Eb.
  - pose proof (calc_velocity_cases t b Eu Eb W) as C. rewrite (panic_iff _ _ (units 50) (Qabs (frac b))).
    + split; [intros [-> K]; split; [reflexivity|]; split; [reflexivity|]; now exists b|]. intros (-> & _ & b' & [= <-] & K). easy.
    + destruct (Qlt_le_dec _ _); [|exact C]. destruct C as (m & C & _). now exists (Some m).
  - unfold calc_slider_velocity_multiplier. rewrite Eu, Eb. split; [easy|]. intros (_ & _ & b & K & _). discriminate K.
Qed.
