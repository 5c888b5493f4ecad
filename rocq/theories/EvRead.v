(** The readers of the lines of [Events] read field by field. *)
From Coq Require Import String List NArith ZArith Bool Lia.
From Verif Require Import Str Num Nom Dec Parsers Unicode Storyboard NormalEvents Events Spec SpecWf SpecText SpecLine
  SpecEvLine StrFacts NumFacts NomFacts DecFacts FieldFacts CmdFacts HoFacts HoRound LineRead HoRead.
Import ListNotations.
Local Open Scope N_scope.

(** ** chains *)
Section Chains.
  Context {C : Type}.
  Notation V := (fun g r => rmap g (verbose_error_to_error r)).
  Lemma run_at {A B D X} (m i : C) (rd : str -> res A X) (sh : A -> run A) (k : A -> parser C B) K fs (g : B -> D) :
    (forall a fs', forallb no_comma fs' = true -> rmap g (verbose_error_to_error (k a (tailf fs'))) = K a fs') ->
    forallb no_comma fs = true ->
    rmap g (verbose_error_to_error
      (pbind (preceded (context m comma) (context i (map_run (comma_field_type rd) sh))) k (tailf fs)))
    = next m i rd fs (fun a fs => andthen (sh a) (fun a => K a fs)).
  Proof.
    intros HK H. unfold pbind at 1. unfold preceded, pbind. rewrite comma_at. destruct fs as [|f fs]; [reflexivity|].
    cbn [next]. cbn [forallb] in H. apply andb_true_iff in H as [Hf H].
    unfold context, map_run, comma_field_type, map_res. rewrite comma_field_tailf by easy.
    destruct (rd f); [|reflexivity|reflexivity]. destruct (sh a) as [b|[]|p]; [|reflexivity]. now apply HK.
  Qed.
  Lemma end_at {A D X} (m i : C) (rd : str -> res A X) fs (g : A -> D) :
    rmap g (verbose_error_to_error (preceded (context m comma) (context i (consume_rest_type rd)) (tailf fs)))
    = last_field m i rd fs (fun a => ROk (g a)).
  Proof.
    rewrite last_at. destruct fs as [|f fs]; [reflexivity|]. cbn [lcase last_field]. now destruct (rd (commas (f :: fs))).
  Qed.
  Lemma text_at {B D} (m : C) (k : str -> parser C B) K fs (g : B -> D) :
    (forall a fs', forallb no_comma fs' = true -> rmap g (verbose_error_to_error (k a (tailf fs'))) = K a fs') ->
    forallb no_comma fs = true ->
    rmap g (verbose_error_to_error (pbind (preceded (context m comma) comma_field) k (tailf fs)))
    = next m m rd_text fs K.
  Proof.
    intros HK H. unfold pbind at 1. rewrite plain_at by easy. destruct fs as [|f fs]; [reflexivity|].
    cbn [fcase next rd_text]. cbn [forallb] in H. apply andb_true_iff in H as [_ H]. now apply HK.
  Qed.
  Lemma file_pos_at {D} (mf mx ix my iy : C) fs (g : file_path * option position_t -> D) : forallb no_comma fs = true ->
    rmap g (verbose_error_to_error (preceded (context mf comma) (file_name_and_position mx ix my iy) (tailf fs)))
    = file_pos mf mx my fs (fun f p => ROk (g (f, p))).
  Proof.
    intros H. unfold file_name_and_position, pair at 1. rewrite preceded_pbind.
    apply text_at; [|easy]. clear fs H. intros f fs H. rewrite rmap_pmap. unfold alt, pmap at 1.
    destruct fs as [|x fs]; [reflexivity|]. unfold eof at 1. rewrite tailf_cons at 1. unfold kerr.
    rewrite rmap_pmap. unfold pair.
    transitivity (next mx ix rd_dec (x :: fs) (fun x fs => last_field my iy rd_dec fs (fun y => ROk (g (f, Some (mk_pos x y)))))).
    - rewrite <- (next_agree _ _ _ _ (x :: fs) _ agree_dec). apply next_at; [|easy]. intros a l Hl.
      rewrite rmap_pmap. rewrite <- (last_agree _ _ _ _ l _ agree_dec). apply end_at.
    - cbn [next rd_dec]. destruct fs as [|y fs]; reflexivity.
  Qed.
End Chains.

(** ** tables *)
Lemma agree_nth {A} (l : list A) (of_Z : Z -> option A) (f : str -> res (option A) unit) :
  (forall z, (0 <= z)%Z -> of_Z z = if (z <? Z.of_nat (length l))%Z then nth_error l (Z.to_nat z) else None) ->
  (forall s, f s = match parse_usize s with
                   | ROk z => match of_Z z with Some o => ROk (Some o) | None => RErr tt end
                   | RErr _ => RErr tt
                   | RPanic p => RPanic p
                   end) ->
  agree (fun s => v_unwrap (f s)) (rd_nth l).
Proof.
  intros H F s. cbn beta. rewrite F. unfold rd_nth. destruct (parse_usize s) as [z| |p] eqn:E; [|easy|now apply parse_int_no_panic in E].
  apply usize_accepts in E as [_ E]. rewrite H by lia. destruct (z <? _)%Z; [|easy]. now destruct (nth_error l (Z.to_nat z)).
Qed.
Ltac table z := destruct (Z.ltb_spec z 10) as [?|?];
  [ let H := fresh in assert (H : (z = 0 \/ z = 1 \/ z = 2 \/ z = 3 \/ z = 4 \/ z = 5 \/ z = 6 \/ z = 7 \/ z = 8 \/ z = 9)%Z) by lia;
    repeat (destruct H as [H|H]; [subst; reflexivity|]); subst; reflexivity
  | destruct z as [|q|q]; [lia| |lia]; do 4 (destruct q as [q|q|]; try lia); cbn; reflexivity ].
Lemma layer_nth z : (0 <= z)%Z -> layer_legacy_of_Z z
  = if (z <? 6)%Z then nth_error [LlBackground; LlFail; LlPass; LlForeground; LlOverlay; LlVideo] (Z.to_nat z) else None.
Proof. intros Hz. table z. Qed.
Lemma origin_nth z : (0 <= z)%Z -> origin_type_of_Z z = if (z <? 10)%Z then nth_error all_origins (Z.to_nat z) else None.
Proof. intros Hz. table z. Qed.
Lemma au_layer_nth z : (0 <= z)%Z -> au_layer_of_Z z
  = if (z <? 4)%Z then nth_error [AlBackground; AlFail; AlPass; AlForeground] (Z.to_nat z) else None.
Proof. intros Hz. table z. Qed.
Lemma agree_layer : agree (fun s => v_unwrap (layer_legacy_from_str s)) rd_layer.
Proof. apply (agree_nth _ layer_legacy_of_Z); [exact layer_nth|reflexivity]. Qed.
Lemma agree_origin : agree (fun s => v_unwrap (origin_legacy_from_str s)) rd_origin.
Proof. apply (agree_nth _ origin_type_of_Z); [exact origin_nth|reflexivity]. Qed.
Lemma agree_au_volume : agree (fun s => v_unwrap (au_volume_from_str s)) rd_au_volume.
Proof.
  intros s. unfold v_unwrap, au_volume_from_str, rd_au_volume, au_volume_of_Z.
  destruct (parse_u8 s) as [z| |p] eqn:E; [|easy|now apply parse_int_no_panic in E].
  destruct (Z.ltb_spec 100 z), (Z.leb_spec z 100); try lia; easy.
Qed.
Lemma agree_sb_layer : agree (fun s => v_unwrap (sb_layer_from_str s)) rd_sb_layer.
Proof.
  intros s. unfold v_unwrap, sb_layer_from_str, rd_sb_layer, rd_name.
  destruct (str_eqb s (lit "Background")); [reflexivity|]. destruct (str_eqb s (lit "Fail")); [reflexivity|].
  destruct (str_eqb s (lit "Pass")); [reflexivity|]. destruct (str_eqb s (lit "Foreground")); [reflexivity|].
  now destruct (str_eqb s (lit "Overlay")).
Qed.
Lemma agree_loop_type : agree (fun s => v_unwrap (loop_type_from_str s)) rd_loop_type.
Proof.
  intros s. unfold v_unwrap, loop_type_from_str, rd_loop_type, rd_name.
  destruct (str_eqb s (lit "LoopForever")); [reflexivity|]. now destruct (str_eqb s (lit "LoopOnce")).
Qed.
Lemma agree_sb_origin : agree (fun s => v_unwrap (origin_from_str s)) rd_sb_origin.
Proof.
  intros s. unfold v_unwrap, origin_from_str, rd_sb_origin. 
  replace (rd_name _ s) with (match origin_of_name s with Some t => ROk t | None => RErr tt end).
  - destruct (origin_of_name s); [reflexivity|]. destruct (parse_i32 s) as [z| |p] eqn:E; [|easy|now apply parse_int_no_panic in E].
    cbn. f_equal. destruct (Z.leb_spec 0 z) as [L|L]; cbn [andb].
    + rewrite origin_nth by easy. destruct (z <? 10)%Z; [|easy]. now destruct (nth_error all_origins (Z.to_nat z)).
    + now destruct z.
  - unfold origin_of_name, rd_name.
    repeat match goal with |- context [str_eqb s (lit ?x)] => destruct (str_eqb s (lit x)); [reflexivity|] end.
    reflexivity.
Qed.
Lemma agree_rdec : agree parse_rdec_res rd_rdec.
Proof. intros s. unfold parse_rdec_res, rd_rdec. now destruct (parse_rdec s). Qed.

(** ** events *)
Lemma strip_self t r : strip_prefix t (t ++ r) = Some r.
Proof. induction t as [|c t IH]; [reflexivity|]. cbn. now rewrite N.eqb_refl. Qed.
Lemma tag_self {C} t r : @tag C t (t ++ r) = POk r t.
Proof. unfold tag. now rewrite strip_self. Qed.
Section Maps.
  Context {A B D E X : Type} (g : B -> D).
  Lemma next_map (m i : E) (rd : str -> res A X) fs K :
    rmap g (next m i rd fs K) = next m i rd fs (fun a fs => rmap g (K a fs)).
  Proof. destruct fs as [|f fs]; [reflexivity|]. cbn. now destruct (rd f). Qed.
  Lemma last_map (m i : E) (rd : str -> res A X) fs K :
    rmap g (last_field m i rd fs K) = last_field m i rd fs (fun a => rmap g (K a)).
  Proof. destruct fs as [|f fs]; [reflexivity|]. cbn [last_field]. now destruct (rd (commas (f :: fs))). Qed.
  Lemma then_map (r : run A) (K : A -> res B E) : rmap g (andthen r K) = andthen r (fun a => rmap g (K a)).
  Proof. now destruct r as [a|[]|p]. Qed.
  Lemma file_map (mf mx my : E) fs K : rmap g (file_pos mf mx my fs K) = file_pos mf mx my fs (fun f p => rmap g (K f p)).
  Proof.
    unfold file_pos. destruct fs as [|f fs]; [reflexivity|]. cbn [next rd_text]. destruct fs as [|x fs]; [reflexivity|].
    cbn [next rd_dec]. now destruct fs.
  Qed.
End Maps.
(** the comma behind the name of an event *)
Lemma after_name {C A B D} (w m : C) t (p : parser C A) (q : A -> parser C B) fs (g : B -> D) :
  rmap g (verbose_error_to_error (pbind (preceded (pair (context w (tag t)) (context m comma)) p) q (t ++ tailf fs)))
  = rmap g (verbose_error_to_error (pbind (preceded (context m comma) p) q (tailf fs))).
Proof.
  unfold pbind at 1. unfold preceded, pair, pbind, pmap. unfold context at 1. rewrite tag_self.
  now destruct (context m comma (tailf fs)).
Qed.
Lemma after_name' {C B D} (w m : C) t (q : parser C B) fs (g : B -> D) :
  rmap g (verbose_error_to_error (preceded (pair (context w (tag t)) (context m comma)) q (t ++ tailf fs)))
  = rmap g (verbose_error_to_error (preceded (context m comma) q (tailf fs))).
Proof.
  unfold preceded, pair, pbind, pmap. unfold context at 1. rewrite tag_self.
  now destruct (context m comma (tailf fs)).
Qed.
Lemma preceded_pmap {C A B D} (p : parser C A) (h : B -> D) (q : parser C B) s :
  preceded p (pmap h q) s = pmap h (preceded p q) s.
Proof. unfold preceded, pmap, pbind. now destruct (p s). Qed.
Lemma read_some {A E} (r : pres E A) x : verbose_error_to_error r = x ->
  rmap (fun a => Some a) (verbose_error_to_error r) = rmap Some x.
Proof. now intros ->. Qed.

Section Lines.
  Variable dbg : bool.
  Variable v : version.
  Lemma bg_at {D} fs (g : background -> D) : forallb no_comma fs = true ->
    rmap g (verbose_error_to_error (bg_parser (lit "0" ++ tailf fs))) = rmap g (bg_line fs).
  Proof.
    intros H. unfold bg_parser. rewrite after_name', preceded_pmap, rmap_pmap. unfold pair, bg_line.
    rewrite preceded_pbind, next_map. apply next_at; [|easy]. intros t l Hl.
    now rewrite rmap_pmap, file_pos_at, file_map.
  Qed.
  Lemma vid_at {D} short h fs (g : video -> D) : forallb no_comma fs = true ->
    (short = true /\ h = lit "1" \/ short = false /\ h = lit "Video") ->
    rmap g (verbose_error_to_error (vid_parser dbg v (h ++ tailf fs))) = rmap g (vid_line dbg v short fs).
  Proof.
    intros H Hh. unfold vid_parser. unfold pbind at 1.
    replace (alt _ _ _) with (@POk vid_err _ (tailf fs) short)
      by (destruct Hh as [[-> ->]|[-> ->]]; unfold alt, pmap, context; [now rewrite tag_self|];
          rewrite (tag_self (lit "Video")); reflexivity).
    unfold vid_line, start_time_offset. rewrite next_map.
    rewrite run_at with (K := fun t fs => rmap g (file_pos ViMissingFileName ViMissingX ViMissingY fs (fun f p => ROk (mk_vid t f p [] short))));
      [|intros t l Hl; now rewrite rmap_pmap, file_pos_at, file_map|easy].
    destruct fs as [|f fs]; [reflexivity|]. cbn [next]. destruct (parse_i32 f); [|reflexivity|reflexivity].
    now rewrite then_map.
  Qed.
  Lemma end_run_at {D} (m i : brk_err) fs (g : Z -> D) :
    rmap g (verbose_error_to_error (preceded (context m comma) (end_time_rest dbg v i) (tailf fs)))
    = last_field m i parse_i32 fs (fun a => andthen (time_in dbg v a) (fun a => ROk (g a))).
  Proof.
    unfold preceded, pbind. rewrite comma_at. destruct fs as [|f fs]; [reflexivity|].
    unfold end_time_rest, context, map_run, consume_rest_type, map_res, prest. cbn [last_field]. rewrite commas_tailf.
    destruct (parse_i32 (f ++ tailf fs)) as [z| |]; [|reflexivity|reflexivity]. now destruct (time_in dbg v z) as [?|[]|?].
  Qed.
  Lemma brk_at {D} short h fs (g : break_t -> D) : forallb no_comma fs = true ->
    (short = true /\ h = lit "2" \/ short = false /\ h = lit "Break") ->
    rmap g (verbose_error_to_error (brk_parser dbg v (h ++ tailf fs))) = rmap g (brk_line dbg v short fs).
  Proof.
    intros H Hh. unfold brk_parser. unfold pbind at 1.
    replace (alt _ _ _) with (@POk brk_err _ (tailf fs) short)
      by (destruct Hh as [[-> ->]|[-> ->]]; unfold alt, pmap, context; [now rewrite tag_self|];
          rewrite (tag_self (lit "Break")); reflexivity).
    unfold brk_line, start_time_offset. rewrite next_map.
    rewrite run_at with (K := fun t fs => last_field BrMissingEndTime BrInvalidEndTime parse_i32 fs (fun e =>
      andthen (time_in dbg v e) (fun e => ROk (g (mk_brk t e short)))));
      [|intros t l Hl; now rewrite rmap_pmap, end_run_at|easy].
    destruct fs as [|f fs]; [reflexivity|]. cbn [next]. destruct (parse_i32 f) as [z| |]; [|reflexivity|reflexivity].
    destruct (time_in dbg v z) as [t|[]|p]; [|reflexivity]. cbn [andthen]. rewrite last_map.
    destruct fs as [|e fs]; [reflexivity|]. cbn [last_field]. destruct (parse_i32 _) as [y| |]; [|reflexivity|reflexivity].
    now destruct (time_in dbg v y) as [?|[]|?].
  Qed.
  Lemma ctr_at {D} fs (g : colour_tr -> D) : forallb no_comma fs = true ->
    rmap g (verbose_error_to_error (ctr_parser dbg v (lit "3" ++ tailf fs))) = rmap g (ctr_line dbg v fs).
  Proof.
    intros H. unfold ctr_parser. rewrite after_name. unfold start_time_offset, ctr_line. rewrite next_map.
    rewrite run_at with (K := fun t fs => rmap g (next CtMissingRed CtInvalidRed parse_u8 fs (fun r fs =>
      next CtMissingGreen CtInvalidGreen parse_u8 fs (fun g fs =>
      last_field CtMissingBlue CtInvalidBlue parse_u8 fs (fun b => ROk (mk_ct t r g b))))));
      [|intros t l Hl|easy].
    - destruct fs as [|f fs]; [reflexivity|]. cbn [next]. destruct (parse_i32 f); [|reflexivity|reflexivity].
      now rewrite then_map.
    - rewrite next_map. apply next_at; [|easy]. clear l Hl. intros r l Hl. rewrite next_map. apply next_at; [|easy].
      clear l Hl. intros gr l Hl. now rewrite rmap_pmap, end_at, last_map.
  Qed.
  Lemma leg_at {D} h fs (g : legacy -> D) : forallb no_comma fs = true ->
    rmap g (verbose_error_to_error (leg_parser h (h ++ tailf fs))) = rmap g (leg_line fs).
  Proof.
    intros H. unfold leg_parser. rewrite after_name', preceded_pbind. unfold leg_line.
    rewrite <- (next_agree _ _ _ _ fs _ agree_layer), next_map. apply next_at; [|easy]. clear fs H. intros l fs H.
    rewrite <- (next_agree _ _ _ _ fs _ agree_origin), next_map. apply next_at; [|easy]. clear fs H. intros o fs H.
    now rewrite rmap_pmap, file_pos_at, file_map.
  Qed.
  Lemma sl_at {D} fs (g : sample_legacy -> D) : forallb no_comma fs = true ->
    rmap g (verbose_error_to_error (sl_parser (lit "6" ++ tailf fs))) = rmap g (sl_line fs).
  Proof.
    intros H. unfold sl_parser. rewrite after_name', preceded_pbind. unfold sl_line.
    rewrite <- (next_agree _ _ _ _ fs _ agree_dec), next_map. apply next_at; [|easy]. clear fs H. intros t fs H.
    rewrite <- (next_agree _ _ _ _ fs _ agree_layer), next_map. apply next_at; [|easy]. clear fs H. intros l fs H.
    rewrite next_map. apply text_at; [|easy]. clear fs H. intros f fs H.
    rewrite rmap_pmap. unfold alt, pmap at 1. destruct fs as [|x fs]; [reflexivity|].
    unfold eof at 1. rewrite tailf_cons at 1. unfold kerr. rewrite rmap_pmap.
    rewrite <- (last_agree _ _ _ _ (x :: fs) _ agree_au_volume), last_map.
    change (consume_rest_versioned_type au_volume_from_str) with
      (@consume_rest_type sl_err _ _ (fun s => v_unwrap (au_volume_from_str s))).
    apply end_at.
  Qed.
  Lemma au_at {D} fs (g : audio_sample -> D) : forallb no_comma fs = true ->
    rmap g (verbose_error_to_error (au_parser (lit "Sample" ++ tailf fs))) = rmap g (au_line fs).
  Proof.
    intros H. unfold au_parser. rewrite after_name. unfold au_line.
    rewrite next_map. apply next_at; [|easy]. clear fs H. intros t fs H.
    assert (L : forall D' (k : au_layer -> parser au_err D') r, pbind (preceded (context AuMissingLayer comma)
      (context AuInvalidLayer (map_res (context AuInvalidLayer (comma_field_type parse_usize))
        (fun z => match au_layer_of_Z z with Some l => ROk l | None => RErr tt end)))) k r
      = pbind (preceded (context AuMissingLayer comma)
         (context AuInvalidLayer (comma_field_type (fun s => rbind (parse_usize s) (fun z =>
           match au_layer_of_Z z with Some l => ROk l | None => RErr IPosOverflow end))))) k r).
    { intros D' k r. unfold pbind, preceded, pbind. destruct (context AuMissingLayer comma r) as [r' a| | |]; try reflexivity.
      unfold context, map_res, comma_field_type, map_res, comma_field, take_while. destruct (span _ r') as [x y].
      destruct (parse_usize x) as [z|e|p]; cbn; try reflexivity. now destruct (au_layer_of_Z z). }
    rewrite L. clear L.
    assert (AL : agree (fun s => rbind (parse_usize s) (fun z =>
           match au_layer_of_Z z with Some l => ROk l | None => RErr IPosOverflow end)) rd_au_layer).
    { intros s. unfold rd_au_layer, rd_nth. destruct (parse_usize s) as [z| |p] eqn:E; [|easy|now apply parse_int_no_panic in E].
      cbn [rbind]. apply usize_accepts in E as [_ E]. rewrite au_layer_nth by lia. change (Z.of_nat _) with 4%Z.
      destruct (z <? 4)%Z; [|easy]. now destruct (nth_error _ (Z.to_nat z)). }
    rewrite <- (next_agree _ _ _ _ fs _ AL), next_map. apply next_at; [|easy]. clear fs H. intros l fs H.
    rewrite next_map. apply text_at; [|easy]. clear fs H. intros f fs H.
    rewrite rmap_pmap. unfold alt, pmap at 1. destruct fs as [|x fs]; [reflexivity|].
    unfold eof at 1. rewrite tailf_cons at 1. unfold kerr.
    rewrite <- (next_agree _ _ _ _ (x :: fs) _ agree_au_volume), next_map.
    change (comma_field_versioned_type au_volume_from_str) with
      (@comma_field_type au_err _ _ (fun s => v_unwrap (au_volume_from_str s))).
    rewrite field_at by easy. cbn [fcase next]. now destruct (v_unwrap (au_volume_from_str x)).
  Qed.
End Lines.

Section Binds.
  Context {C A B D E : Type}.
  Lemma pbind_pair (p : parser C A) (q : parser C B) (k : A * B -> parser C D) s :
    pbind (pair p q) k s = pbind p (fun a => pbind q (fun b => k (a, b))) s.
  Proof. unfold pair, pbind, pmap. destruct (p s) as [r a| | |]; [|reflexivity..]. now destruct (q r). Qed.
  Lemma pbind_pmap (f : A -> B) (q : parser C A) (k : B -> parser C D) s :
    pbind (pmap f q) k s = pbind q (fun y => k (f y)) s.
  Proof. unfold pmap, pbind. now destruct (q s). Qed.
  Lemma cut_same (g : A -> E) (p : parser C A) s :
    rmap g (verbose_error_to_error (cut p s)) = rmap g (verbose_error_to_error (p s)).
  Proof. unfold cut. now destruct (p s). Qed.
  Lemma bind_ret (p : parser C A) s : p s = pbind p pret s.
  Proof. unfold pbind, pret. now destruct (p s). Qed.
End Binds.
Lemma next_ext {A B X E} (m i : E) (rd : str -> res A X) fs (K K' : A -> list str -> res B E) :
  (forall a l, K a l = K' a l) -> next m i rd fs K = next m i rd fs K'.
Proof. intros H. destruct fs as [|f fs]; [reflexivity|]. cbn. destruct (rd f); [apply H|reflexivity|reflexivity]. Qed.
Lemma ob_common_at {B D} (k : sb_layer * (origin * (file_path * position_t)) -> parser ob_err B) K fs (g : B -> D) :
  (forall l o f p fs', forallb no_comma fs' = true ->
     rmap g (verbose_error_to_error (k (l, (o, (f, p))) (tailf fs'))) = K l o f p fs') ->
  forallb no_comma fs = true ->
  rmap g (verbose_error_to_error (pbind ob_common k (tailf fs))) = ob_fields fs K.
Proof.
  intros HK H. unfold ob_common, ob_fields. rewrite pbind_pair.
  rewrite <- (next_agree _ _ _ _ fs _ agree_sb_layer). apply next_at; [|easy]. clear fs H. intros l fs H.
  rewrite pbind_pair.
  rewrite <- (next_agree _ _ _ _ fs _ agree_sb_origin). apply next_at; [|easy]. clear fs H. intros o fs H.
  rewrite pbind_pair. apply text_at; [|easy]. clear fs H. intros f fs H. rewrite pbind_pmap, pbind_pair.
  rewrite <- (next_agree _ _ _ _ fs _ agree_dec). apply next_at; [|easy]. clear fs H. intros x fs H.
  rewrite <- (next_agree _ _ _ _ fs _ agree_dec). apply next_at; [|easy]. clear fs H. intros y fs H.
  now apply HK.
Qed.
Lemma ob_fields_map {B D} (g : B -> D) fs K :
  rmap g (ob_fields fs K) = ob_fields fs (fun l o f p fs => rmap g (K l o f p fs)).
Proof.
  unfold ob_fields. rewrite next_map. apply next_ext. intros l fs1. rewrite next_map. apply next_ext. intros o fs2.
  rewrite next_map. apply next_ext. intros f fs3. rewrite next_map. apply next_ext. intros x fs4.
  rewrite next_map. apply next_ext. reflexivity.
Qed.
Lemma sprite_at {D} fs (g : object -> D) : forallb no_comma fs = true ->
  rmap g (verbose_error_to_error (pmap (fun '(l, (o, (f, p))) => mk_obj l o p (ObSprite f) []) (cut ob_common) (tailf fs)))
  = rmap g (sprite_line fs).
Proof.
  intros H. rewrite rmap_pmap, cut_same, bind_ret. unfold sprite_line. rewrite ob_fields_map.
  now apply ob_common_at.
Qed.
Lemma animation_at {D} fs (g : object -> D) : forallb no_comma fs = true ->
  rmap g (verbose_error_to_error (pmap (fun '((l, (o, (f, p))), (n, (d, lt))) => mk_obj l o p (ObAnimation n d lt f) [])
            (cut (pair ob_common
                 (pair (preceded (context ObMissingFrameCount comma)
                          (context ObInvalidFrameCount (comma_field_type parse_u32)))
                 (pair (preceded (context ObMissingFrameDelay comma)
                          (context ObInvalidFrameDelay (comma_field_type parse_rdec_res)))
                       ob_loop)))) (tailf fs)))
  = rmap g (animation_line fs).
Proof.
  intros H. rewrite rmap_pmap, cut_same. unfold pair at 1. unfold animation_line. rewrite ob_fields_map.
  apply ob_common_at; [|easy]. clear fs H. intros l o f p fs H. rewrite rmap_pmap. unfold pair at 1.
  rewrite next_map. apply next_at; [|easy]. clear fs H. intros n fs H. rewrite rmap_pmap. unfold pair.
  rewrite <- (next_agree _ _ _ _ fs _ agree_rdec), next_map. apply next_at; [|easy]. clear fs H. intros d fs H.
  rewrite rmap_pmap. unfold ob_loop, alt.
  change (consume_rest_versioned_type loop_type_from_str) with
    (@consume_rest_type ob_err _ _ (fun s => v_unwrap (loop_type_from_str s))).
  rewrite last_at. destruct fs as [|x fs]; [reflexivity|]. cbn [lcase].
  pose proof (agree_loop_type (commas (x :: fs))) as L. cbn beta in L.
  destruct (v_unwrap (loop_type_from_str (commas (x :: fs)))) as [a|e|q], (rd_loop_type (commas (x :: fs))) as [b|e'|q'] eqn:R; try easy.
  - now subst.
  - unfold rd_loop_type, rd_name in R. destruct (str_eqb _ _); [discriminate|]. now destruct (str_eqb _ _).
Qed.

(** ** which event it is *)
Lemma strip_field t h fs : no_comma t = true ->
  strip_prefix t (h ++ tailf fs) = option_map (fun r => r ++ tailf fs) (strip_prefix t h).
Proof.
  revert h. induction t as [|c t IH]; intros h Ht; [reflexivity|]. cbn [no_comma forallb] in Ht.
  apply andb_true_iff in Ht as [Hc Ht]. fold (no_comma t) in Ht. destruct h as [|d h].
  - cbn [app]. destruct fs as [|f fs]; [reflexivity|]. rewrite tailf_cons. cbn.
    destruct (N.eqb_spec c 44); [now subst|reflexivity].
  - cbn [app strip_prefix]. destruct (c =? d); [now apply IH|reflexivity].
Qed.
Lemma strip_split t h r : strip_prefix t h = Some r -> h = t ++ r.
Proof.
  revert h. induction t as [|c t IH]; intros h E; [now injection E as ->|]. destruct h as [|d h]; [discriminate|].
  cbn in E. destruct (N.eqb_spec c d) as [->|]; [|discriminate]. cbn. now rewrite (IH h E).
Qed.
Lemma nk_at k t h fs : no_comma t = true -> no_comma h = true -> nk k (tag t) (h ++ tailf fs)
  = match strip_prefix t h with
    | Some [] => POk (h ++ tailf fs) k
    | Some _ => PFail (mkErr KTag None)
    | None => PErr (mkErr KTag None)
    end.
Proof.
  intros Ht Hh. unfold nk, pmap, peek, pair, pbind, tag. rewrite strip_field by easy.
  destruct (strip_prefix t h) as [r|] eqn:E; cbn [option_map]; [|reflexivity].
  apply strip_split in E as ->. rewrite no_comma_app in Hh. apply andb_true_iff in Hh as [_ Hr].
  unfold pmap, cut, alt. destruct r as [|c r].
  - cbn [app]. destruct fs as [|f fs]; reflexivity.
  - cbn [app eof]. unfold kerr, comma, tag. change (lit ",") with [44]. cbn [strip_prefix].
    cbn [no_comma forallb] in Hr. apply andb_true_iff in Hr as [Hc _].
    destruct (N.eqb_spec 44 c); [now subst|reflexivity].
Qed.
Lemma nk2_at k t u h fs : no_comma t = true -> no_comma u = true -> no_comma h = true ->
  nk k (alt (tag t) (tag u)) (h ++ tailf fs)
  = match strip_prefix t h with
    | Some [] => POk (h ++ tailf fs) k
    | Some _ => PFail (mkErr KTag None)
    | None => match strip_prefix u h with
              | Some [] => POk (h ++ tailf fs) k
              | Some _ => PFail (mkErr KTag None)
              | None => PErr (mkErr KTag None)
              end
    end.
Proof.
  intros Ht Hu Hh. rewrite <- (nk_at k u h fs Hu Hh).
  pose proof (nk_at k t h fs Ht Hh) as N1. unfold nk, pmap, peek, pair, pbind in *. unfold alt at 1.
  unfold tag at 1. unfold tag at 1 in N1. rewrite strip_field in * by easy.
  destruct (strip_prefix t h) as [r|]; cbn [option_map] in *; [exact N1|]. reflexivity.
Qed.
Lemma rmap_same {A E} (a b : res A E) : rmap (fun x => x) a = rmap (fun x => x) b -> a = b.
Proof. now destruct a, b. Qed.
Lemma rmap2_line {A B E F} (f : A -> B) (e : E -> F) (r x : res A E) : rmap (fun a => a) r = rmap (fun a => a) x ->
  rmap2 f e (rmap Some r) = rmap Some (rmap_err e (rmap f x)).
Proof. intros H. apply rmap_same in H as ->. now destruct x. Qed.
Lemma tag_longer {C} (m : C) c r fs : no_comma (c :: r) = true ->
  context m comma ((c :: r) ++ tailf fs) = PErr (mkErr KTag (Some m)).
Proof.
  intros H. cbn [no_comma forallb] in H. apply andb_true_iff in H as [Hc _]. unfold context, comma, tag.
  change (lit ",") with [44]. cbn [app strip_prefix]. destruct (N.eqb_spec 44 c); [now subst|reflexivity].
Qed.
Lemma ob_common_longer {B D} (k : sb_layer * (origin * (file_path * position_t)) -> parser ob_err B) c r fs (g : B -> D) :
  no_comma (c :: r) = true ->
  rmap g (verbose_error_to_error (pbind ob_common k ((c :: r) ++ tailf fs))) = RErr ObMissingLayer.
Proof.
  intros H. unfold ob_common. rewrite pbind_pair. unfold pbind at 1. unfold preceded at 1. unfold pbind at 1.
  rewrite tag_longer by easy. reflexivity.
Qed.
Lemma ob_at h fs : no_comma h = true -> forallb no_comma fs = true -> ob_from_str (h ++ tailf fs)
  = rmap Some (match strip_prefix (lit "Sprite") h with
               | Some r => sprite_line (if is_empty r then fs else [])
               | None => match strip_prefix (lit "Animation") h with
                         | Some r => animation_line (if is_empty r then fs else [])
                         | None => RErr ObUnknownObjectType
                         end
               end).
Proof.
  intros Hh H. unfold ob_from_str. f_equal. apply rmap_same. unfold ob_parser. unfold alt at 1.
  unfold preceded at 1. unfold pbind at 1. unfold tag at 1. rewrite strip_field by easy.
  destruct (strip_prefix (lit "Sprite") h) as [r|] eqn:E.
  - cbn [option_map]. apply strip_split in E as ->. rewrite no_comma_app in Hh. apply andb_true_iff in Hh as [_ Hr].
    assert (S : forall x, verbose_error_to_error (pmap (fun '(l, (o, (f, p))) => mk_obj l o p (ObSprite f) []) (cut ob_common) (r ++ tailf fs)) = x
       -> rmap (fun x0 => x0) x = rmap (fun x => x) (sprite_line (if is_empty r then fs else []))).
    { intros x <-. destruct r as [|c r]; [now apply sprite_at|]. rewrite rmap_pmap, cut_same, bind_ret.
      now rewrite ob_common_longer. }
    rewrite <- (S _ eq_refl). unfold pmap, cut.
    destruct (ob_common (r ++ tailf fs)) as [? [? [? [? ?]]]|e|e|?]; reflexivity.
  - cbn [option_map]. unfold kerr, alt. unfold pmap at 1. unfold preceded at 1. unfold pbind at 1. unfold tag at 1.
    rewrite strip_field by easy. destruct (strip_prefix (lit "Animation") h) as [r|] eqn:E2; [|reflexivity].
    cbn [option_map]. apply strip_split in E2 as ->. rewrite no_comma_app in Hh. apply andb_true_iff in Hh as [_ Hr].
    set (q := pair ob_common _). 
    assert (S : forall x, verbose_error_to_error (pmap (fun '((l, (o, (f, p))), (n, (d, lt))) => mk_obj l o p (ObAnimation n d lt f) []) (cut q) (r ++ tailf fs)) = x
       -> rmap (fun x0 => x0) x = rmap (fun x => x) (animation_line (if is_empty r then fs else []))).
    { intros x <-. destruct r as [|c r]; [now apply animation_at|]. rewrite rmap_pmap, cut_same. unfold q, pair at 1.
      now rewrite ob_common_longer. }
    rewrite <- (S _ eq_refl). unfold pmap, cut. destruct (q (r ++ tailf fs)) as [? [[? [? [? ?]]] [? [? ?]]]|e|e|?]; reflexivity.
Qed.
Lemma au_full h fs : no_comma h = true -> forallb no_comma fs = true -> au_from_str (h ++ tailf fs)
  = rmap Some (match strip_prefix (lit "Sample") h with
               | Some r => au_line (if is_empty r then fs else [])
               | None => RErr AuWrongEvent
               end).
Proof.
  intros Hh H. assert (S : rmap Some (verbose_error_to_error (au_parser (h ++ tailf fs))) = rmap Some (match strip_prefix (lit "Sample") h with
               | Some r => au_line (if is_empty r then fs else [])
               | None => RErr AuWrongEvent
               end)).
  { destruct (strip_prefix (lit "Sample") h) as [r|] eqn:E.
    - apply strip_split in E as ->. rewrite no_comma_app in Hh. apply andb_true_iff in Hh as [_ Hr].
      destruct r as [|c r]; [rewrite app_nil_r; now apply au_at|].
      unfold au_parser. unfold pbind at 1. unfold preceded at 1. unfold pbind at 1. unfold pair, pbind, pmap. unfold context at 1.
      rewrite <- app_assoc, tag_self. rewrite tag_longer by easy. reflexivity.
    - unfold au_parser. unfold pbind at 1. unfold preceded at 1. unfold pbind at 1. unfold pair, pbind, pmap. unfold context at 1, tag.
      rewrite strip_field, E by easy. reflexivity. }
  unfold au_from_str. destruct (h ++ tailf fs) as [|c s] eqn:Es; [|exact S].
  destruct h; [|discriminate]. reflexivity.
Qed.
Lemma au_not_wrong fs : au_line fs <> RErr AuWrongEvent.
Proof.
  unfold au_line. destruct fs as [|t fs]; [discriminate|]. cbn [next]. destruct (parse_i32 t); [|discriminate|discriminate].
  destruct fs as [|l fs]; [discriminate|]. cbn [next]. destruct (rd_au_layer l); [|discriminate|discriminate].
  destruct fs as [|f fs]; [discriminate|]. cbn [next rd_text]. destruct fs as [|w fs]; [discriminate|].
  cbn [next]. now destruct (rd_au_volume w).
Qed.
Lemma ob_fields_unknown {B} fs (K : sb_layer -> origin -> file_path -> position_t -> list str -> res B ob_err) :
  (forall l o f p fs, K l o f p fs <> RErr ObUnknownObjectType) -> ob_fields fs K <> RErr ObUnknownObjectType.
Proof.
  intros H. unfold ob_fields. destruct fs as [|l fs]; [discriminate|]. cbn [next]. destruct (rd_sb_layer l); [|discriminate|discriminate].
  destruct fs as [|o fs]; [discriminate|]. cbn [next]. destruct (rd_sb_origin o); [|discriminate|discriminate].
  destruct fs as [|f fs]; [discriminate|]. cbn [next rd_text]. destruct fs as [|x fs]; [discriminate|].
  cbn [next rd_dec]. destruct fs as [|y fs]; [discriminate|]. cbn [next rd_dec]. apply H.
Qed.
Lemma sprite_known fs : sprite_line fs <> RErr ObUnknownObjectType.
Proof. apply ob_fields_unknown. discriminate. Qed.
Lemma animation_known fs : animation_line fs <> RErr ObUnknownObjectType.
Proof.
  apply ob_fields_unknown. clear fs. intros l o f p fs. destruct fs as [|n fs]; [discriminate|]. cbn [next].
  destruct (parse_u32 n); [|discriminate|discriminate]. destruct fs as [|d fs]; [discriminate|]. cbn [next].
  destruct (rd_rdec d); [|discriminate|discriminate]. destruct fs; [discriminate|]. now destruct (rd_loop_type _).
Qed.

Lemma ev_line_at dbg v h fs : no_comma h = true -> forallb no_comma fs = true ->
  ev_from_line dbg v (h ++ tailf fs) = rmap Some (ev_line dbg v h fs).
Proof.
  intros Hh H. unfold ev_from_line, ev_kind_parser, ev_line.
  unfold alt at 1. rewrite nk_at by easy. destruct (strip_prefix (lit "0") h) as [[|]|] eqn:E; [|reflexivity|].
  { apply strip_split in E as ->. apply rmap2_line. now apply bg_at. }
  clear E. unfold alt at 1. rewrite nk2_at by easy. destruct (strip_prefix (lit "1") h) as [[|]|] eqn:E; [|reflexivity|].
  { apply strip_split in E as ->. apply rmap2_line. rewrite app_nil_r. apply vid_at; [easy|now left]. }
  clear E. destruct (strip_prefix (lit "Video") h) as [[|]|] eqn:E; [|reflexivity|].
  { apply strip_split in E as ->. apply rmap2_line. rewrite app_nil_r. apply vid_at; [easy|now right]. }
  clear E. unfold alt at 1. rewrite nk2_at by easy. destruct (strip_prefix (lit "2") h) as [[|]|] eqn:E; [|reflexivity|].
  { apply strip_split in E as ->. apply rmap2_line. rewrite app_nil_r. apply brk_at; [easy|now left]. }
  clear E. destruct (strip_prefix (lit "Break") h) as [[|]|] eqn:E; [|reflexivity|].
  { apply strip_split in E as ->. apply rmap2_line. rewrite app_nil_r. apply brk_at; [easy|now right]. }
  clear E. unfold alt at 1. rewrite nk_at by easy. destruct (strip_prefix (lit "3") h) as [[|]|] eqn:E; [|reflexivity|].
  { apply strip_split in E as ->. apply rmap2_line. now apply ctr_at. }
  clear E. unfold alt at 1. rewrite nk_at by easy. destruct (strip_prefix (lit "4") h) as [[|]|] eqn:E; [|reflexivity|].
  { apply strip_split in E as ->. apply rmap2_line. rewrite app_nil_r. now apply leg_at. }
  clear E. unfold alt at 1. rewrite nk_at by easy. destruct (strip_prefix (lit "5") h) as [[|]|] eqn:E; [|reflexivity|].
  { apply strip_split in E as ->. apply rmap2_line. rewrite app_nil_r. now apply leg_at. }
  clear E. unfold alt at 1. rewrite nk_at by easy. destruct (strip_prefix (lit "6") h) as [[|]|] eqn:E; [|reflexivity|].
  { apply strip_split in E as ->. apply rmap2_line. now apply sl_at. }
  clear E. unfold pret. rewrite ob_at by easy.
  destruct (strip_prefix (lit "Sprite") h) as [r|].
  { pose proof (sprite_known (if is_empty r then fs else [])) as K.
    destruct (sprite_line _) as [o|e|p]; [reflexivity| |reflexivity]. cbn. now destruct e. }
  destruct (strip_prefix (lit "Animation") h) as [r|].
  { pose proof (animation_known (if is_empty r then fs else [])) as K.
    destruct (animation_line _) as [o|e|p]; [reflexivity| |reflexivity]. cbn. now destruct e. }
  cbn [rmap rbind]. rewrite au_full by easy. destruct (strip_prefix (lit "Sample") h) as [r|]; [|reflexivity].
  pose proof (au_not_wrong (if is_empty r then fs else [])) as K.
  destruct (au_line _) as [o|e|p]; [reflexivity| |reflexivity]. cbn. now destruct e.
Qed.
Lemma ev_line_reads dbg v s h fs : fields_of s (h :: fs) -> ev_from_line dbg v s = rmap Some (ev_line dbg v h fs).
Proof.
  intros (_ & -> & H). cbn [forallb] in H. apply andb_true_iff in H as [Hh H]. rewrite commas_tailf. now apply ev_line_at.
Qed.
