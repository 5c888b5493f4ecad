(** Which errors a text can give (C75): proofs. *)
From Coq Require Import String List NArith ZArith Bool Lia.
From Verif Require Import Str Num Dec Parsers General Editor Metadata Difficulty Colours TimingPoints HitObjects Unicode Storyboard
  NormalEvents Events Osb OsuFile SpecWf SpecKv SpecText SpecSections SpecFile SpecTotal SpecOsb SpecLine SpecEvents SpecEvLine SpecColLine
  SpecEvSection SpecKvRead SpecParts SpecMeans SpecErrors
  StrFacts LineFacts LayoutFacts FileFacts FileTheorems FileSamples OsbFacts EvSection Means.
Import ListNotations.
Local Open Scope N_scope.

(** [only r g]: an error of [r] satisfies [g] *)
Definition only {A E} (g : E -> bool) (r : res A E) : Prop := forall e, r = RErr e -> g e = true.
Lemma only_ok {A E} (g : E -> bool) (a : A) : only g (ROk a).
Proof. intros e [=]. Qed.
Lemma only_err {A E} (g : E -> bool) e : g e = true -> only g (@RErr A E e).
Proof. intros H e' [= <-]. exact H. Qed.
Lemma only_panic {A E} (g : E -> bool) p : only g (@RPanic A E p).
Proof. intros e [=]. Qed.
Lemma only_next {A B E X} (g : E -> bool) m i (rd : str -> res A X) fs (k : A -> list str -> res B E) :
  (fs = [] -> g m = true) -> (forall s x, rd s = RErr x -> g i = true) ->
  (forall a fs, only g (k a fs)) -> only g (next m i rd fs k).
Proof.
  intros M I K. destruct fs as [|f fs]; cbn [next]; [apply only_err, M; reflexivity|].
  destruct (rd f) eqn:R; [apply K|eapply only_err, I; exact R|apply only_panic].
Qed.
Lemma only_last {A B E X} (g : E -> bool) m i (rd : str -> res A X) fs (k : A -> res B E) :
  (fs = [] -> g m = true) -> (forall s x, rd s = RErr x -> g i = true) ->
  (forall a, only g (k a)) -> only g (last_field m i rd fs k).
Proof.
  intros M I K. destruct fs as [|f fs]; cbn [last_field]; [apply only_err, M; reflexivity|].
  destruct (rd (commas (f :: fs))) eqn:R; [apply K|eapply only_err, I; exact R|apply only_panic].
Qed.
Lemma only_andthen {A B E} (g : E -> bool) (r : run A) (k : A -> res B E) : (forall a, only g (k a)) -> only g (andthen r k).
Proof. intros K. destruct r as [a|[]|p]; cbn [andthen]; [apply K|apply only_panic]. Qed.
Lemma only_if {A E} (g : E -> bool) (b : bool) (x y : res A E) : only g x -> only g y -> only g (if b then x else y).
Proof. now destruct b. Qed.
Lemma only_rmap {A B E} (g : E -> bool) (f : A -> B) (r : res A E) : only g r -> only g (rmap f r).
Proof. intros H. destruct r; [apply only_ok|intros e' [= <-]; now apply H|apply only_panic]. Qed.
Lemma only_rmap_err {A E F} (g : F -> bool) (f : E -> F) (r : res A E) : only (fun e => g (f e)) r -> only g (rmap_err f r).
Proof. intros H. destruct r as [a|e|p]; [apply only_ok|intros e' [= <-]; now apply (H e)|apply only_panic]. Qed.

Ltac step :=
  match goal with
  | |- only _ (next _ _ _ _ _) => apply only_next; [reflexivity || (intros; subst; try discriminate)|try reflexivity; try (intros ? []); try (intros ? ? [=])|intros]
  | |- only _ (last_field _ _ _ _ _) => apply only_last; [reflexivity || (intros; subst; try discriminate)|try reflexivity; try (intros ? []); try (intros ? ? [=])|intros]
  | |- only _ (andthen _ _) => apply only_andthen; intros
  | |- only _ (ROk _) => apply only_ok
  | |- only _ (RErr _) => apply only_err; try reflexivity
  | |- only _ (RPanic _) => apply only_panic
  | |- only _ (if _ then _ else _) => apply only_if
  | |- only _ (match ?x with _ => _ end) => destruct x eqn:?
  end.
Ltac steps := repeat step.

Lemma pieces_some c s : pieces c s <> [].
Proof. induction s as [|d s IH]; cbn; [easy|]. destruct (pieces c s); [easy|now destruct (d =? c)]. Qed.
Lemma tp_only v s : only tp_gives (tp_line v (pieces 44 s)).
Proof. unfold tp_line. apply only_next; [intros P; now destruct (pieces_some 44 s)|intros ? []|]. intros. steps. Qed.

Lemma sample_end_only {B} fs (k : _ -> res B ho_err) : (forall h, only ho_gives (k h)) -> only ho_gives (sample_end fs k).
Proof. intros K. unfold sample_end. destruct fs; [apply K|]. steps. apply K. Qed.
Lemma edges_only {B} fs (k : _ -> _ -> _ -> _ -> _ -> res B ho_err) :
  (forall a b c d e, only ho_gives (k a b c d e)) -> only ho_gives (edges_line fs k).
Proof. intros K. unfold edges_line. steps; try apply K. apply sample_end_only. intros. apply K. Qed.
Lemma slider_only {B} v fs (k : _ -> _ -> res B ho_err) : (forall p h, only ho_gives (k p h)) -> only ho_gives (slider_line v fs k).
Proof.
  intros K. unfold slider_line. destruct fs as [|f fs]; [steps|].
  destruct (match cut_at 124 f with Some (a, t) => _ | None => _ end) as [letter points].
  destruct (rd_curve letter); [|steps]. destruct points; [|steps].
  steps. apply edges_only. intros. apply K.
Qed.
Lemma ho_only v s : only ho_gives (ho_line v (pieces 44 s)).
Proof.
  unfold ho_line. apply only_next; [intros P; now destruct (pieces_some 44 s)|intros ? []|]. intros.
  steps; try (apply sample_end_only; intros; steps). apply slider_only. intros. steps.
Qed.

Lemma file_pos_only {B E} (g : E -> bool) mf mx my fs (k : _ -> _ -> res B E) : g mf = true -> g my = true ->
  (forall f p, only g (k f p)) -> only g (file_pos mf mx my fs k).
Proof.
  intros F Y K. unfold file_pos. apply only_next; [easy|intros ? []|]. intros a l.
  destruct l; [apply K|]. apply only_next; [easy|intros ? []|]. intros. apply only_last; [easy|intros ? []|]. intros. apply K.
Qed.
Lemma bg_only fs : only bg_gives (bg_line fs).
Proof. unfold bg_line. steps. apply file_pos_only; [easy..|]. intros. steps. Qed.
Lemma vid_only dbg v b fs : only vid_gives (vid_line dbg v b fs).
Proof. unfold vid_line. steps. apply file_pos_only; [easy..|]. intros. steps. Qed.
Lemma brk_only dbg v b fs : only brk_gives (brk_line dbg v b fs).
Proof. unfold brk_line. steps. Qed.
Lemma ctr_only dbg v fs : only ct_gives (ctr_line dbg v fs).
Proof. unfold ctr_line. steps. Qed.
Lemma leg_only fs : only leg_gives (leg_line fs).
Proof. unfold leg_line. steps. apply file_pos_only; [easy..|]. intros. steps. Qed.
Lemma sl_only fs : only sl_gives (sl_line fs).
Proof. unfold sl_line. steps. Qed.
Lemma au_only fs : only au_gives (au_line fs).
Proof. unfold au_line. steps. Qed.
Lemma ob_fields_only {B} fs (k : _ -> _ -> _ -> _ -> _ -> res B ob_err) :
  (forall a b c d e, only ob_gives (k a b c d e)) -> only ob_gives (ob_fields fs k).
Proof. intros K. unfold ob_fields. steps. apply K. Qed.
Lemma sprite_only fs : only ob_gives (sprite_line fs).
Proof. apply ob_fields_only. intros. steps; cbv zeta; steps. Qed.
Lemma animation_only fs : only ob_gives (animation_line fs).
Proof. apply ob_fields_only. intros. steps; cbv zeta; steps. Qed.
Lemma ev_only dbg v h fs : only ev_gives (ev_line dbg v h fs).
Proof.
  assert (W : forall {A E} (f : E -> ev_err) (g : E -> bool) (m : A -> event) (r : res A E),
    (forall e, ev_gives (f e) = g e) -> only g r -> only ev_gives (rmap_err f (rmap m r))).
  { intros A E f g m r F H. apply only_rmap_err, only_rmap. intros e R. rewrite F. now apply H. }
  unfold ev_line.
  assert (ON : forall n (x y : res event ev_err), only ev_gives x -> only ev_gives y ->
    only ev_gives (match strip_prefix (lit n) h with Some [] => x | Some _ => RPanic PUnwrap | None => y end)).
  { intros n x y X Y. destruct (strip_prefix (lit n) h) as [[|]|]; [exact X|apply only_panic|exact Y]. }
  repeat (apply ON; [eapply W; [reflexivity|first [apply bg_only|apply vid_only|apply brk_only|apply ctr_only|apply leg_only|apply sl_only]]|]).
  clear ON.
  destruct (strip_prefix (lit "Sprite") h); [eapply W; [reflexivity|apply sprite_only]|].
  destruct (strip_prefix (lit "Animation") h); [eapply W; [reflexivity|apply animation_only]|].
  destruct (strip_prefix (lit "Sample") h); [eapply W; [reflexivity|apply au_only]|].
  now apply only_err.
Qed.

Lemma times_only {B} fs (k : _ -> _ -> _ -> _ -> res B cmd_err) :
  (forall a b c d, only cmd_gives (k a b c d)) -> only cmd_gives (times fs k).
Proof. intros K. unfold times. steps; apply K. Qed.
Lemma one_only m fs mk : cmd_gives m = true -> only cmd_gives (one_line m fs mk).
Proof. intros M. apply times_only. intros. apply only_next; [easy|intros ? []|]. intros. steps. Qed.
Lemma two_only m n fs mk : cmd_gives m = true -> cmd_gives n = true -> only cmd_gives (two_line m n fs mk).
Proof. intros M N. apply times_only. intros. do 2 (apply only_next; [easy|intros ? []|]; intros). steps. Qed.
Lemma trigger_only fs : only cmd_gives (trigger_line fs).
Proof.
  assert (T : forall {B} fs (k : _ -> _ -> res B cmd_err), (forall a b, only cmd_gives (k a b)) -> only cmd_gives (trigger_end fs k)).
  { intros B l k K. unfold trigger_end. steps; apply K. }
  unfold trigger_line. apply only_next; [easy..|]. intros. steps; apply T; intros; steps.
Qed.
Lemma cmd_only s : only cmd_gives (rd_command s).
Proof.
  unfold rd_command. destruct (pieces 44 _) as [|h fs]; [now apply only_err|]. unfold cmd_fields.
  repeat match goal with
    |- only _ (match strip_prefix (lit ?n) h with _ => _ end) => destruct (strip_prefix (lit n) h);
      [first [now apply one_only|now apply two_only|apply trigger_only|apply times_only; intros; steps|unfold loop_line; steps]|]
  end.
  destruct fs; [now apply only_err|]. apply only_if; [now apply two_only|now apply only_err].
Qed.
Lemma place_only c : forall k d ind cs, (k + d <= ind)%nat -> (1 <= d)%nat -> only push_gives (place k d ind c cs).
Proof.
  induction k as [|k IH]; intros d ind cs L D; cbn [place]; [destruct (rev cs); apply only_ok|].
  destruct (rev cs) as [|x before].
  - apply only_err. destruct d as [|[|d]]; [lia|..]; cbn [push_gives]; apply orb_true_iff.
    + left. apply andb_true_iff. split; [reflexivity|]. apply Nat.leb_le. lia.
    + right. apply Nat.leb_le. lia.
  - assert (K : only push_gives (@RErr (list command) _ (InvalidIndentation 1 ind))).
    { apply only_err. cbn [push_gives]. apply orb_true_iff. left. apply andb_true_iff. split; [reflexivity|]. apply Nat.leb_le. lia. }
    destruct (cmd_props x); try exact K; apply only_rmap, IH; lia.
Qed.

(** ** sections *)
Lemma list_only {A E} (g : E -> bool) (rd : str -> res A E) : (forall l, only g (rd l)) ->
  forall i ls r, list_section rd i ls r -> only (fun e => g (le_err e)) r.
Proof.
  intros H i ls r L. induction L; [apply only_ok|exact IHL|now apply only_rmap|apply only_err; cbn; now apply (H l)|apply only_panic].
Qed.
Lemma next_only dbg v vs evs l r : ev_next dbg v vs evs l r -> only ev_gives r.
Proof.
  intros N. destruct N; try apply only_ok; try apply only_panic; try (now apply only_err).
  - apply only_rmap, ev_only.
  - destruct (rd_command l') as [c|x|p] eqn:R; cbn [rmap_err rbind].
    + apply only_rmap, only_rmap_err. change (fun e => ev_gives (EvPush e)) with push_gives. apply place_only; [|lia].
      destruct (depth l); [easy|lia].
    + apply only_err. cbn. now apply (cmd_only l').
    + apply only_panic.
Qed.
Lemma events_only dbg v vs i evs ls r : ev_section dbg v vs i evs ls r -> only (fun e => ev_gives (le_err e)) r.
Proof.
  intros L. induction L; [apply only_ok|exact IHL|exact IHL|apply only_err; cbn; now apply (next_only _ _ _ _ _ _ H0)|apply only_panic].
Qed.
Lemma natural_only s : only natural_gives (parse_usize s).
Proof.
  assert (P : forall hi s a, only natural_gives (parse_pos hi a s)).
  { intros hi l. induction l as [|c l IH]; intros a; cbn [parse_pos]; [apply only_ok|].
    destruct (is_digit c); [|now apply only_err]. cbv zeta. destruct (_ <=? hi)%Z; [apply IH|now apply only_err]. }
  unfold parse_usize, parse_int. destruct s as [|c s]; [now apply only_err|].
  repeat match goal with |- only _ (match ?x with _ => _ end) => destruct x end; first [apply P|now apply only_err|discriminate].
Qed.
Lemma only_true {A E} (g : E -> bool) (r : res A E) : (forall e, g e = true) -> only g r.
Proof. intros H e _. apply H. Qed.
Lemma kv_only {A E} (g : E -> bool) table u d c (build : _ -> A) es t : g u = true -> g d = true -> g c = true ->
  (forall n rd, In (n, rd) table -> forall s, only g (rd s)) -> only (fun e => g (le_err e)) (kv_reads table u d c build es t).
Proof.
  intros U D C R. unfold kv_reads. destruct (is_blank t); [|now apply only_err]. apply only_rmap.
  assert (K : forall k s, only g (reader_of u table k s)).
  { intros k s. induction table as [|[n rd] tb IH]; cbn [reader_of]; [now apply only_err|].
    destruct (str_eqb k (lit n)); [apply (R n); now left|apply IH]. intros n' rd' I. apply (R n'). now right. }
  generalize 0%Z (@nil str). induction es as [|x es IH]; intros i before; cbn [first_bad]; [apply only_ok|].
  destruct (existsb _ before); [now apply only_err|].
  destruct (reader_of u table (entry_key x) (entry_value x)) as [a|e|p] eqn:Q; [apply IH|apply only_err; cbn; now apply (K _ _ _ Q)|apply only_panic].
Qed.
Lemma general_only v es t : only (fun e => general_gives (le_err e)) (general_reads v es t).
Proof.
  apply kv_only; [reflexivity..|]. intros n rd I s. unfold general_table in I.
  assert (CD : only general_gives (can (countdown_value v) s)).
  { apply only_rmap. unfold countdown_value. pose proof (natural_only s) as N. destruct (has_countdown v); [|apply only_ok].
    destruct (parse_usize s) as [z|e|p]; [destruct (pick _ z); [apply only_ok|now apply only_err]|apply only_err; now apply N|apply only_panic]. }
  assert (MD : only general_gives (can (mode_value v) s)).
  { apply only_rmap. unfold mode_value. pose proof (natural_only s) as N.
    destruct (parse_usize s) as [z|e|p]; [destruct (pick _ z); [apply only_ok|now apply only_err]|apply only_err; now apply N|apply only_panic]. }
  assert (FL : only general_gives (can flag_value s)).
  { apply only_rmap. unfold flag_value. destruct (parse_i32 s) as [z|e|p]; [destruct (pick _ z); [apply only_ok|now apply only_err]|now apply only_err|apply only_panic]. }
  assert (IN : only general_gives (can (int_value GenInt) s)).
  { apply only_rmap. unfold int_value. destruct (parse_i32 s) as [z|e|p]; [apply only_ok|now apply only_err|apply only_panic]. }
  assert (TX : only general_gives (can any_text s)) by apply only_ok.
  assert (DC : only general_gives (can any_dec s)) by apply only_ok.
  assert (SS : only general_gives (can (sample_set_value v) s)).
  { apply only_rmap. unfold sample_set_value, name_value. destruct (has_sample_set v); [|apply only_ok]. destruct (rd_name _ s); [apply only_ok|now apply only_err..]. }
  assert (OV : only general_gives (can (overlay_value v) s)).
  { apply only_rmap. unfold overlay_value, name_value. destruct (has_overlay v); [|apply only_ok]. destruct (rd_name _ s); [apply only_ok|now apply only_err..]. }
  assert (BM : only general_gives (can (ints_value GenInt GenCommaList) s)).
  { apply only_rmap. unfold ints_value. destruct s as [|c s]; [apply only_ok|]. apply only_rmap.
    induction (pieces 44 (c :: s)) as [|x l IH]; cbn [int_items]; [apply only_ok|].
    destruct (parse_i32 x) as [z|[]|p]; try (now apply only_err); [now apply only_rmap|apply only_panic]. }
  repeat (destruct I as [I|I]; [injection I as <- <-; assumption|]). destruct I.
Qed.
Lemma as_part_only {A E} (mk : A -> part) (f : E -> osu_err) r : only (fun e => osu_gives (f (le_err e))) r ->
  only (fun e => osu_gives (le_err e)) (as_part mk f r).
Proof. intros H. destruct r as [a|e|p]; [apply only_ok|apply only_err; cbn; now apply (H e)|apply only_panic]. Qed.
Lemma section_only dbg v name body r : section_means dbg v name body r -> only (fun e => osu_gives (le_err e)) r.
Proof.
  intros M. destruct M; try apply only_ok; apply as_part_only; try (now apply only_true).
  - apply (general_only v es t).
  - now apply (events_only _ _ _ _ _ _ _ H).
  - now apply (list_only tp_gives _ (fun l => tp_only v l) _ _ _ H).
  - now apply (list_only ho_gives _ (fun l => ho_only v l) _ _ _ H).
Qed.
Lemma sections_only dbg v n before f cs r : sections_mean dbg v n before f cs r -> only (fun e => osu_gives (le_err e)) r.
Proof.
  intros M. induction M; try apply only_ok; try apply only_panic; try (now apply only_err); [|exact IHM].
  apply only_err. cbn. now apply (section_only _ _ _ _ _ H0 (mk_line_err i e)).
Qed.
Lemma file_only dbg s r : file_means dbg s r -> only (fun e => osu_gives (le_err e)) r.
Proof. intros M. destruct M; try (now apply only_err). now apply (sections_only _ _ _ _ _ _ _ H0). Qed.
Lemma osb_sections_only dbg n before o cs r : osb_sections_mean dbg n before o cs r -> only (fun e => osb_gives (le_err e)) r.
Proof.
  intros M. induction M; try apply only_ok; try apply only_panic; try (now apply only_err); try exact IHM.
  apply only_err. cbn. now apply (events_only _ _ _ _ _ _ _ H1 (mk_line_err i e)).
Qed.
Lemma osb_only dbg s r : osb_means dbg s r -> only (fun e => osb_gives (le_err e)) r.
Proof. intros M. destruct M; try (now apply only_err). now apply (osb_sections_only _ _ _ _ _ _ H0). Qed.

(** ** a text for every error *)
Definition file_with (name : string) (ls : list str) : str := file_text [] [mk_sec (lit name) 0 ls] [].
Definition what {A E} (r : res A (line_err E)) : option E := match r with RErr e => Some (le_err e) | _ => None end.
Lemma what_some {A E} (r : res A (line_err E)) e : what r = Some e -> exists l, r = RErr (mk_line_err l e).
Proof. destruct r as [a|[l x]|p]; cbn; [easy|intros [= <-]; now exists l|easy]. Qed.

Definition tp_text (e : tp_err) : string :=
  match e with
  | TpInvalidTime | TpMissingUninherited => ""
  | TpMissingBeatLength => "1" | TpMissingMeter => "1,2" | TpInvalidMeter => "1,2,x"
  | TpMissingSampleSet => "1,2,3" | TpInvalidSampleSet => "1,2,3,x" | TpMissingSampleIndex => "1,2,3,1" | TpInvalidSampleIndex => "1,2,3,1,x"
  | TpMissingVolume => "1,2,3,1,0" | TpInvalidVolume => "1,2,3,1,0,x" | TpInvalidUninherited => "1,2,3,1,0,9,x"
  | TpMissingEffects => "1,2,3,1,0,9,1" | TpInvalidEffects => "1,2,3,1,0,9,1,x"
  end.
Definition ho_text (e : ho_err) : string :=
  match e with
  | HoMissingY => "1" | HoMissingTime => "1,2" | HoMissingObjType => "1,2,3" | HoInvalidObjType => "1,2,3,x"
  | HoMissingHitSound => "1,2,3,1" | HoInvalidHitSound => "1,2,3,1,x" | HoInvalidHitSample => "1,2,3,1,0,x:x"
  | HoMissingCurveType => "1,2,3,2,0" | HoInvalidCurveType => "1,2,3,2,0,x" | HoMissingSlidesCount => "1,2,3,2,0,B|1:1"
  | HoInvalidSlidesCount => "1,2,3,2,0,B|1:1,x" | HoMissingLength => "1,2,3,2,0,B|1:1,1"
  | HoMissingEdgeSet => "1,2,3,2,0,B|1:1,1,2,x" | HoMissingHitSample => "1,2,3,2,0,B|1:1,1,2,0|0,x"
  | HoMissingEndTime => "1,2,3,8,0" | HoInvalidEndTime => "1,2,3,128,0,5" | HoUnknownObjType => "1,2,3,4,0"
  | _ => ""
  end.
Definition colour_text_of (e : colour_err) : string :=
  match e with
  | ColInvalidComboCount => "Combo : 1,2,3" | ColInvalidColonSeparator => "Combo1 1,2,3"
  | ColRgb RgbInvalidRed => "Combo1 : x,2,3" | ColRgb RgbInvalidGreen => "Combo1 : 1,x,3" | ColRgb RgbInvalidBlue => "Combo1 : 1,2,x"
  | ColRgb RgbMissingGreen => "Combo1 : 1" | ColRgb RgbMissingBlue => "Combo1 : 1,2" | ColUnknownType => "Other : 1,2,3"
  end.
Definition int_bad (e : int_err) : string :=
  match e with IEmpty => "" | IInvalidDigit => "x" | IPosOverflow => "99999999999999999999" | INegOverflow => "-9999999999" end.
Definition general_text (e : general_err) : list string :=
  match e with
  | GenInt e => ["PreviewTime: " ++ int_bad e] | GenBool (BoolInt e) => ["EpilepsyWarning: " ++ int_bad e]
  | GenBool BoolInvalidValue => ["EpilepsyWarning: 2"]
  | GenCountdown CdUnknown => ["Countdown: 9"] | GenCountdown (CdInt e) => ["Countdown: " ++ int_bad e]
  | GenMode GmUnknown => ["Mode: 9"] | GenMode (GmInt e) => ["Mode: " ++ int_bad e]
  | GenSampleSet => ["SampleSet: x"] | GenOverlay => ["OverlayPosition: x"] | GenColonSet => ["x"] | GenKey => ["x: 1"]
  | GenDup => ["Mode: 1"; "Mode: 1"] | GenCommaList => ["EditorBookmarks: 1,,2"]
  end%string.
Definition editor_text (e : editor_err) : list string :=
  match e with
  | EdInt IEmpty => ["GridSize: "] | EdInt e => ["GridSize: " ++ int_bad e] | EdColonSet => ["x"] | EdKey => ["x: 1"]
  | EdCommaList => ["Bookmarks: 1,,2"] | EdDup => ["GridSize: 1"; "GridSize: 1"]
  end%string.
Definition metadata_text (e : metadata_err) : list string :=
  match e with MdColonSet => ["x"] | MdKey => ["x: 1"] | MdDup => ["Title: 1"; "Title: 1"] end%string.
Definition difficulty_text (e : difficulty_err) : list string :=
  match e with DfColonSet => ["x"] | DfKey => ["x: 1"] | DfDup => ["CircleSize: 1"; "CircleSize: 1"] end%string.
Definition cmd_text (e : cmd_err) : string :=
  match e with
  | CmdUnknownCommandType => "X" | CmdMissingStartTime => "F,0" | CmdInvalidStartTime => "F,0,x" | CmdMissingLoopCount => "L,0"
  | CmdInvalidLoopCount => "L,0,x" | CmdMissingTriggerType => "T" | CmdInvalidTriggerType => "T,x" | CmdInvalidGroupNumber => "T,Passing,0,1,x"
  | CmdMissingEndTime => "F,0,1" | CmdInvalidEndTime => "F,0,1,x" | CmdMissingEasing => "F" | CmdInvalidEasing => "F,x"
  | CmdMissingRed => "C,0,1,2" | CmdInvalidRed => "C,0,1,2,x" | CmdMissingGreen => "C,0,1,2,3" | CmdInvalidGreen => "C,0,1,2,3,x"
  | CmdMissingBlue => "C,0,1,2,3,4" | CmdInvalidBlue => "C,0,1,2,3,4,x" | CmdInvalidContinuingColours => "C,0,1,2,3,4,5,x"
  | CmdMissingParameterType => "P,0,1,2" | CmdInvalidParameterType => "P,0,1,2,x" | CmdInvalidContinuingParameters => "P,0,1,2,H,x"
  | CmdMissingMoveX => "M,0,1,2" | CmdMissingMoveY => "M,0,1,2,3" | CmdMissingScaleX => "V,0,1,2" | CmdMissingScaleY => "V,0,1,2,3"
  | CmdMissingStartOpacity => "F,0,1,2" | CmdMissingStartScale => "S,0,1,2" | CmdMissingStartRotation => "R,0,1,2"
  | _ => ""
  end.
Definition ev_text (e : ev_err) : list string :=
  match e with
  | EvStoryboardCmdWithNoSprite => ["// x"; " F"] | EvUnknownEventType => ["x"]
  | EvBackground e => [match e with BgMissingStartTime => "0" | BgInvalidStartTime => "0,x" | BgMissingFileName => "0,1" | _ => "0,1,a,2" end]
  | EvVideo e => [match e with ViMissingStartTime => "1" | ViInvalidStartTime => "1,x" | ViMissingFileName => "1,1" | _ => "1,1,a,2" end]
  | EvBreak e => [match e with BrMissingStartTime => "2" | BrInvalidStartTime => "2,x" | BrMissingEndTime => "2,1" | _ => "2,1,x" end]
  | EvColourTransformation e =>
      [match e with CtMissingStartTime => "3" | CtInvalidStartTime => "3,x" | CtMissingRed => "3,1" | CtInvalidRed => "3,1,x"
       | CtMissingGreen => "3,1,2" | CtInvalidGreen => "3,1,2,x" | CtMissingBlue => "3,1,2,3" | _ => "3,1,2,3,x" end]
  | EvSpriteLegacy e =>
      [match e with LgMissingLayer => "4" | LgInvalidLayer => "4,x" | LgMissingOrigin => "4,1" | LgInvalidOrigin => "4,1,x"
       | LgMissingFileName => "4,1,2" | _ => "4,1,2,a,3" end]
  | EvAnimationLegacy e =>
      [match e with LgMissingLayer => "5" | LgInvalidLayer => "5,x" | LgMissingOrigin => "5,1" | LgInvalidOrigin => "5,1,x"
       | LgMissingFileName => "5,1,2" | _ => "5,1,2,a,3" end]
  | EvSampleLegacy e =>
      [match e with SlMissingTime => "6" | SlMissingLayer => "6,1" | SlInvalidLayer => "6,1,x" | SlMissingFileName => "6,1,2" | _ => "6,1,2,a,x" end]
  | EvAudioSample e =>
      [match e with AuMissingTime => "Sample" | AuInvalidTime => "Sample,x" | AuMissingLayer => "Sample,1" | AuInvalidLayer => "Sample,1,x"
       | AuMissingFilepath => "Sample,1,2" | _ => "Sample,1,2,a,x" end]
  | EvObject e =>
      [match e with ObMissingLayer => "Sprite" | ObInvalidLayer => "Sprite,x" | ObMissingOrigin => "Sprite,Pass" | ObInvalidOrigin => "Sprite,Pass,x"
       | ObMissingFilePath => "Sprite,Pass,Centre" | ObMissingPositionX => "Sprite,Pass,Centre,a" | ObMissingPositionY => "Sprite,Pass,Centre,a,1"
       | ObMissingFrameCount => "Animation,Pass,Centre,a,1,2" | ObInvalidFrameCount => "Animation,Pass,Centre,a,1,2,x"
       | ObMissingFrameDelay => "Animation,Pass,Centre,a,1,2,3" | _ => "Animation,Pass,Centre,a,1,2,3,x" end]
  | EvCommand e => ["Sprite,Pass,Centre,a,1,2"; " " ++ cmd_text e]
  | EvPush _ => []
  end%string.
Definition osb_with (ls : list str) : str := text_of_lines (lit "[Events]" :: ls).

Ltac shows := first [discriminate|intros _; apply what_some; vm_compute; reflexivity].
Lemma tp_given e : tp_gives e = true -> exists l, osu_from_str true (file_with "TimingPoints" [lit (tp_text e)]) = RErr (mk_line_err l (OsuTimingPoints e)).
Proof. destruct e; shows. Qed.
Lemma ho_given e : ho_gives e = true -> exists l, osu_from_str true (file_with "HitObjects" [lit (ho_text e)]) = RErr (mk_line_err l (OsuHitObjects e)).
Proof. destruct e; shows. Qed.
Lemma colour_given e : true = true -> exists l, osu_from_str true (file_with "Colours" [lit (colour_text_of e)]) = RErr (mk_line_err l (OsuColours e)).
Proof. destruct e as [| |[]|]; shows. Qed.
Lemma general_given e : general_gives e = true -> exists l, osu_from_str true (file_with "General" (map lit (general_text e))) = RErr (mk_line_err l (OsuGeneral e)).
Proof. destruct e as [[]|[[]|]|[|[]]|[|[]]| | | | | |]; shows. Qed.
Lemma editor_given e : true = true -> exists l, osu_from_str true (file_with "Editor" (map lit (editor_text e))) = RErr (mk_line_err l (OsuEditor e)).
Proof. destruct e as [[]| | | |]; shows. Qed.
Lemma metadata_given e : true = true -> exists l, osu_from_str true (file_with "Metadata" (map lit (metadata_text e))) = RErr (mk_line_err l (OsuMetadata e)).
Proof. destruct e; shows. Qed.
Lemma difficulty_given e : true = true -> exists l, osu_from_str true (file_with "Difficulty" (map lit (difficulty_text e))) = RErr (mk_line_err l (OsuDifficulty e)).
Proof. destruct e; shows. Qed.
Definition is_push (e : ev_err) : bool := match e with EvPush _ => true | _ => false end.
Lemma ev_given e : is_push e = false -> ev_gives e = true -> exists l, osu_from_str true (file_with "Events" (map lit (ev_text e))) = RErr (mk_line_err l (OsuEvents e)).
Proof. intros P. destruct e as [|[]|[]|[]|[]|[]|[]|[]|e|[]|[]|[]|]; try discriminate P; shows. Qed.
Lemma ev_given_osb e : is_push e = false -> ev_gives e = true -> exists l, osb_from_str true (osb_with (map lit (ev_text e))) 14%Z = RErr (mk_line_err l (OsbEvents e)).
Proof. intros P. destruct e as [|[]|[]|[]|[]|[]|[]|[]|e|[]|[]|[]|]; try discriminate P; shows. Qed.

(** Loops in loops, and a line far inside. *)
Fixpoint nest (n : nat) : list command := match n with O => [] | S n => [mk_cmd (Some 0%Z) (PLoop 1 (nest n))] end.
Definition loop_at (n : nat) : str := repeat 32 n ++ lit "L,0,1".
Definition holder (n : nat) : event :=
  EObject (mk_obj LyPass (mk_origin (OLeft OtCentre) false) (mk_pos (decimal_of_str (lit "1")) (decimal_of_str (lit "2"))) (ObSprite (lit "a")) (nest n)).
Definition sprite_text : str := lit "Sprite,Pass,Centre,a,1,2".
Lemma place_in ind : forall k d, place k d ind (mk_cmd (Some 0%Z) (PLoop 1 [])) (nest k) = ROk (nest (S k)).
Proof. induction k as [|k IH]; intros d; [reflexivity|]. cbn [nest place rev app cmd_props cmd_start]. rewrite IH. reflexivity. Qed.
Lemma place_far ind c : forall m k d, (m < k)%nat -> (1 <= d)%nat -> (2 <= d + m)%nat ->
  place k d ind c (nest m) = RErr (InvalidIndentation (d + m - 2) ind).
Proof.
  induction m as [|m IH]; intros k d L D E; (destruct k as [|k]; [lia|]).
  - cbn [nest place rev]. destruct d as [|[|d]]; [lia..|]. do 2 f_equal. lia.
  - cbn [nest place rev app cmd_props cmd_start]. rewrite IH by lia. cbn [rmap]. do 2 f_equal. lia.
Qed.
Lemma depth_at n : depth (loop_at n) = n.
Proof. unfold loop_at. induction n as [|n IH]; [reflexivity|]. cbn [repeat app depth]. cbn. f_equal. exact IH. Qed.
Lemma command_at n : rd_command (loop_at n) = ROk (mk_cmd (Some 0%Z) (PLoop 1 [])).
Proof.
  unfold rd_command, loop_at. replace (snd (span _ (repeat 32 n ++ lit "L,0,1"))) with (lit "L,0,1"); [reflexivity|].
  induction n as [|n IH]; [reflexivity|]. cbn [repeat app span]. cbv beta. change ((32 =? 32) || (32 =? 95)) with true. cbv iota.
  destruct (span _ (repeat 32 n ++ lit "L,0,1")) as [a b] eqn:Q. exact IH.
Qed.
Lemma searched_at n : searched (loop_at n) (lit "0,1").
Proof.
  right. exists (repeat 32 n ++ lit "L"), (lit "0,1"), (repeat 32 n ++ lit "L,"). unfold loop_at.
  split; [rewrite <- app_assoc; reflexivity|]. split; [|split; [rewrite <- app_assoc; reflexivity|]].
  - unfold no_comma. rewrite forallb_app, andb_true_iff. split; [|reflexivity]. apply forallb_forall. intros c H. apply repeat_spec in H. now subst.
  - rewrite app_length, repeat_length. cbn [length lit]. induction n as [|n IH]; [reflexivity|]. cbn [repeat app]. unfold utf8_length in *. cbn in *. lia.
Qed.
Lemma not_blank_at n : is_blank (loop_at n) = false.
Proof.
  unfold is_blank, trim, loop_at. replace (trim_start (repeat 32 n ++ lit "L,0,1")) with (lit "L,0,1"); [reflexivity|].
  induction n as [|n IH]; [reflexivity|]. exact IH.
Qed.
Lemma loop_next dbg v n : ev_next dbg v [] [holder n] (loop_at (S n)) (ROk [holder (S n)]).
Proof.
  assert (T : takes_commands [holder n]) by (exists [], (holder n); now split).
  pose proof (next_command dbg v [] [holder n] (loop_at (S n)) (lit "0,1") (loop_at (S n)) [] (holder n)) as N.
  rewrite command_at, depth_at in N. cbn [pred rmap_err rbind] in N.
  change (commands_of (holder n)) with (nest n) in N. rewrite place_in in N. apply N; [easy|exact T|apply searched_at|constructor|reflexivity].
Qed.
Lemma far_next dbg v m b : (m < pred b)%nat -> (1 <= m)%nat ->
  ev_next dbg v [] [holder m] (loop_at b) (RErr (EvPush (InvalidIndentation (m - 1) b))).
Proof.
  intros L M. assert (T : takes_commands [holder m]) by (exists [], (holder m); now split).
  pose proof (next_command dbg v [] [holder m] (loop_at b) (lit "0,1") (loop_at b) [] (holder m)) as N.
  rewrite command_at, depth_at in N. cbn [rmap_err rbind] in N.
  change (commands_of (holder m)) with (nest m) in N. rewrite place_far in N by lia. replace (1 + m - 2)%nat with (m - 1)%nat in N by lia.
  apply N; [lia|exact T|apply searched_at|constructor|reflexivity].
Qed.
Lemma first_next dbg v b : (2 <= b)%nat -> ev_next dbg v [] [holder 0] (loop_at b) (RErr (EvPush (InvalidIndentation 1 b))).
Proof.
  intros L. assert (T : takes_commands [holder 0]) by (exists [], (holder 0); now split).
  pose proof (next_command dbg v [] [holder 0] (loop_at b) (lit "0,1") (loop_at b) [] (holder 0)) as N.
  rewrite command_at, depth_at in N. cbn [rmap_err rbind] in N.
  destruct b as [|[|b]]; [lia..|]. apply N; [lia|exact T|apply searched_at|constructor|reflexivity].
Qed.
Lemma loops_section dbg v : forall m j i ls r, ev_section dbg v [] (i + Z.of_nat m) [holder (j + m)] ls r ->
  ev_section dbg v [] i [holder j] (map loop_at (seq (S j) m) ++ ls) r.
Proof.
  induction m as [|m IH]; intros j i ls r H.
  - cbn [seq map app]. now rewrite Z.add_0_r, Nat.add_0_r in H.
  - cbn [seq map app]. eapply sec_line; [apply not_blank_at|apply loop_next|]. apply IH.
    replace (i + 1 + Z.of_nat m)%Z with (i + Z.of_nat (S m))%Z by lia. now replace (S j + m)%nat with (j + S m)%nat by lia.
Qed.
Lemma sprite_next dbg v : ev_next dbg v [] [] sprite_text (ROk [holder 0]).
Proof.
  refine (next_event dbg v [] [] sprite_text (lit "Sprite") (map lit ["Pass"; "Centre"; "a"; "1"; "2"]%string) _ _ _);
    [intros c; now intros [=]|reflexivity|]. now split.
Qed.
(** the lines for the error [InvalidIndentation a b] *)
Definition push_lines (a b : nat) : list str :=
  sprite_text :: (if Nat.leb (a + 3) b then map loop_at (seq 1 (S a)) else []) ++ [loop_at b].
Lemma push_section dbg v a b : push_gives (InvalidIndentation a b) = true ->
  exists i, ev_section dbg v [] 0 [] (push_lines a b) (RErr (mk_line_err i (EvPush (InvalidIndentation a b)))).
Proof.
  intros H. cbn [push_gives] in H. unfold push_lines. destruct (Nat.leb_spec (a + 3) b) as [L|L].
  - exists (0 + 1 + Z.of_nat (S a))%Z. eapply sec_line; [reflexivity|apply sprite_next|]. apply loops_section.
    apply sec_error; [apply not_blank_at|]. replace a with (S a - 1)%nat at 2 by lia. apply far_next; lia.
  - rewrite orb_false_r in H. apply andb_true_iff in H. destruct H as [A B]. apply Nat.eqb_eq in A. apply Nat.leb_le in B. subst a.
    exists (0 + 1)%Z. eapply sec_line; [reflexivity|apply sprite_next|]. apply sec_error; [apply not_blank_at|]. now apply first_next.
Qed.
Lemma plain_at n : plain_line (loop_at n) = true /\ line_text (loop_at n) && negb (starts_with_char 91 (loop_at n)) = true.
Proof.
  assert (N : forallb (fun c => negb (c =? 10)) (loop_at n) = true).
  { unfold loop_at. rewrite forallb_app. apply andb_true_iff. split; [|reflexivity]. apply forallb_forall. intros c H. apply repeat_spec in H. now subst. }
  assert (E : ends_with_char 13 (loop_at n) = false).
  { unfold loop_at. now rewrite ends_with_char_app. }
  split; [unfold plain_line; rewrite E; apply andb_true_iff; split; [exact N|reflexivity]|].
  apply andb_true_iff. split; [exact N|]. now destruct n.
Qed.
Lemma push_lines_are a b : let ls := push_lines a b in
  forallb plain_line ls = true /\ sec_ok (mk_sec (lit "Events") 0 ls) = true /\ last ls [0] <> [] /\ lines (text_of_lines ls) = ls.
Proof.
  cbv zeta. assert (P : forall l, In l (push_lines a b) -> l = sprite_text \/ exists n, l = loop_at n).
  { intros l [<-|H]; [now left|right]. apply in_app_or in H. destruct H as [H|[<-|[]]]; [|now exists b].
    destruct (Nat.leb (a + 3) b); [|destruct H]. apply in_map_iff in H. destruct H as (n & <- & _). now exists n. }
  assert (G : forallb good_line (push_lines a b) = true).
  { apply forallb_forall. intros l I. destruct (P l I) as [->|[n ->]]; [reflexivity|].
    unfold good_line. rewrite (proj1 (plain_at n)), not_blank_at. reflexivity. }
  split; [|split; [|split]].
  - apply forallb_forall. intros l I. destruct (P l I) as [->|[n ->]]; [reflexivity|apply plain_at].
  - unfold sec_ok. cbn [sec_name sec_lines]. apply andb_true_iff. split; [reflexivity|].
    apply forallb_forall. intros l I. destruct (P l I) as [->|[n ->]]; [reflexivity|apply plain_at].
  - unfold push_lines. rewrite app_comm_cons, last_last. unfold loop_at. now destruct b.
  - rewrite text_of_lines_join. now apply good_lines_join.
Qed.
Lemma push_given a b : push_gives (InvalidIndentation a b) = true ->
  exists l, osu_from_str true (file_with "Events" (push_lines a b)) = RErr (mk_line_err l (OsuEvents (EvPush (InvalidIndentation a b)))).
Proof.
  intros H. destruct (push_section true 14%Z a b H) as [i Q]. destruct (push_lines_are a b) as (P & K & L & T).
  assert (F : forallb sec_ok [mk_sec (lit "Events") 0 (push_lines a b)] = true) by (apply andb_true_iff; split; [exact K|reflexivity]).
  rewrite <- T in Q. apply (events_section true _ _ (RErr _)) in Q.
  eexists. apply (error_line true (file_with "Events" (push_lines a b)) 0 14%Z [[]] [] (mk_sec (lit "Events") 0 (push_lines a b)) [] [] (osu_new 14%Z)); [|reflexivity| |].
  - apply (canonical_layout (lit "14") 14%Z [] [mk_sec (lit "Events") 0 (push_lines a b)] []); [exact version_14|reflexivity|exact F|..].
    + cbn [app flat_map sec_all sec_gap sec_lines repeat]. rewrite !app_nil_r. cbn [forallb]. now rewrite P.
    + cbn [app flat_map sec_all sec_gap sec_lines repeat]. rewrite !app_nil_r. unfold push_lines in *. exact L.
  - repeat split; try constructor; now intros.
  - eapply bad_text; [easy|]. apply ref_events; [reflexivity|exact Q].
Qed.
Lemma push_given_osb a b : push_gives (InvalidIndentation a b) = true ->
  exists l, osb_from_str true (osb_with (push_lines a b)) 14%Z = RErr (mk_line_err l (OsbEvents (EvPush (InvalidIndentation a b)))).
Proof.
  intros H. destruct (push_section true 14%Z a b H) as [i Q]. destruct (push_lines_are a b) as (P & K & L & T).
  assert (F : forallb sec_ok [mk_sec (lit "Events") 0 (push_lines a b)] = true) by (apply andb_true_iff; split; [exact K|reflexivity]).
  rewrite <- T in Q. apply (events_section_vars true [] _ _ (RErr _)) in Q.
  eexists. apply (osb_error_line true (osb_with (push_lines a b)) [] [] (mk_sec (lit "Events") 0 (push_lines a b)) [] [] (mk_osb None None)); [|reflexivity| |].
  - split; [|split; [reflexivity|exact F]]. change (lines (text_of_lines (lit "[Events]" :: push_lines a b)) = lit "[Events]" :: (push_lines a b ++ []) ++ []).
    rewrite !app_nil_r. change (text_of_lines (lit "[Events]" :: push_lines a b)) with (lit "[Events]" ++ 10 :: text_of_lines (push_lines a b)).
    rewrite lines_app_nl by reflexivity. now rewrite T.
  - repeat split; try constructor; now intros.
  - eapply osb_bad_event; [easy|reflexivity|exact Q].
Qed.

Lemma osu_errors e : osu_gives e = true <-> exists dbg s l, osu_from_str dbg s = RErr (mk_line_err l e).
Proof.
  split.
  - intros H. exists true. destruct e; cbn [osu_gives] in H.
    + exists (lit "osu file format v99"). apply what_some. reflexivity.
    + exists (lit "x"). apply what_some. reflexivity.
    + exists (text_of_lines (map lit ["osu file format v14"; "x"]%string)). apply what_some. vm_compute. reflexivity.
    + exists (text_of_lines (map lit ["osu file format v14"; "[General]"; "Mode: 1"; "[General]"; "Mode: 1"]%string)). apply what_some. vm_compute. reflexivity.
    + exists (file_with "Other" [lit "x"]). apply what_some. vm_compute. reflexivity.
    + eexists. now apply general_given.
    + eexists. now apply editor_given.
    + eexists. now apply metadata_given.
    + eexists. now apply difficulty_given.
    + destruct (is_push e) eqn:P; [|eexists; now apply ev_given].
      destruct e; try discriminate P. destruct e as [a b]. eexists. now apply push_given.
    + eexists. now apply tp_given.
    + eexists. now apply colour_given.
    + eexists. now apply ho_given.
  - intros (dbg & s & l & R). apply file_means_iff in R. now apply (file_only _ _ _ R (mk_line_err l e)).
Qed.
Lemma osb_errors e : osb_gives e = true <-> exists dbg s l, osb_from_str dbg s 14%Z = RErr (mk_line_err l e).
Proof.
  split.
  - intros H. exists true. destruct e as [| | |e|e]; cbn [osb_gives] in H.
    + exists (lit "x"). apply what_some. reflexivity.
    + exists (text_of_lines (map lit ["[Events]"; "// 1"; "[Events]"; "// 1"]%string)). apply what_some. vm_compute. reflexivity.
    + exists (text_of_lines (map lit ["[Other]"; "x"]%string)). apply what_some. vm_compute. reflexivity.
    + exists (text_of_lines (map lit ["[Variables]"; match e with VarMissingHeader => "x" | VarMissingEquals => "$x" end]%string)).
      apply what_some. destruct e; vm_compute; reflexivity.
    + destruct (is_push e) eqn:P; [|eexists; now apply ev_given_osb].
      destruct e; try discriminate P. destruct e as [a b]. eexists. now apply push_given_osb.
  - intros (dbg & s & l & R). apply (osb_means_iff dbg s (RErr (mk_line_err l e))) in R. now apply (osb_only _ _ _ R (mk_line_err l e)).
Qed.
