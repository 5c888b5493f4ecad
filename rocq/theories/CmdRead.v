(** The lines of storyboard commands are read field by field. *)
From Coq Require Import String List NArith ZArith Bool Lia.
From Verif Require Import Str Num Nom Dec Parsers Unicode Storyboard NormalEvents Events Spec SpecWf SpecText SpecLine
  SpecEvLine StrFacts NumFacts NomFacts DecFacts FieldFacts CmdFacts HoFacts HoRound LineRead HoRead EvRead.
Import ListNotations.
Local Open Scope N_scope.

(** ** triggers *)
Lemma humps_full s xs : humps s <> [] :: xs.
Proof. destruct s as [|c s]; [easy|]. cbn [humps]. destruct (humps s) as [|[|d x] ys]; [easy|easy|]. now destruct (hump d). Qed.
Lemma humps_fields s : forall b, tt_fields false b s
  = match humps s with
    | (d :: x) :: xs => if hump d then b :: (d :: x) :: xs else (b ++ d :: x) :: xs
    | _ => [b]
    end.
Proof.
  induction s as [|c s IH]; intros b; [reflexivity|]. cbn [tt_fields negb andb humps].
  change (is_uppercase c || is_numeric c) with (hump c).
  rewrite (IH [c]), (IH (b ++ [c])). pose proof (humps_full s) as N.
  destruct (humps s) as [|[|d x] xs]; [now destruct (hump c)|now destruct (N xs)|].
  destruct (hump d); destruct (hump c) eqn:Hc; try reflexivity. now rewrite <- app_assoc.
Qed.
Lemma humps_first c s : tt_fields true [] (c :: s) = humps (c :: s).
Proof.
  cbn [tt_fields negb andb app humps]. rewrite humps_fields. pose proof (humps_full s) as N.
  destruct (humps s) as [|[|d x] xs]; [reflexivity|now destruct (N xs)|reflexivity].
Qed.
Lemma set_opt f : v_unwrap (sb_sample_set_from_str f) = rd_sb_set f.
Proof.
  unfold sb_sample_set_from_str, rd_sb_set. cbn [rd_name].
  destruct (str_eqb f (lit "All")), (str_eqb f (lit "Normal")), (str_eqb f (lit "Soft")), (str_eqb f (lit "Drum")); reflexivity.
Qed.
Lemma add_opt f : v_unwrap (addition_from_str f) = rd_addition f.
Proof.
  unfold addition_from_str, rd_addition. cbn [rd_name].
  destruct (str_eqb f (lit "Whistle")), (str_eqb f (lit "Finish")), (str_eqb f (lit "Clap")); reflexivity.
Qed.
Definition st_result (st : tt_state) : trigger_type := TtHitSound (tt_ss st) (tt_as st) (tt_add st) (tt_custom st).
Lemma loop3 fs s a d : rmap st_result (tt_loop 3 fs (mk_tt s a d None))
  = let (n, fs) := take_opt parse_usize fs in
    match fs, n with
    | [], _ => ROk (TtHitSound s a d n)
    | _, Some _ => RPanic PUnreachable
    | _, None => RErr TtUnknownHitSoundType
    end.
Proof.
  destruct fs as [|f fs]; [reflexivity|]. cbn [tt_loop tt_attempt take_opt].
  destruct (parse_usize f); [|reflexivity|reflexivity]. cbn [rbind tt_ss tt_as tt_add].
  destruct fs as [|f' fs]; reflexivity.
Qed.
Lemma loop2 fs s a : rmap st_result (tt_loop 2 fs (mk_tt s a None None))
  = let (d, fs) := take_opt rd_addition fs in rmap st_result (tt_loop 3 fs (mk_tt s a d None)).
Proof.
  destruct fs as [|f fs]; [reflexivity|]. cbn [tt_loop tt_attempt take_opt]. rewrite add_opt.
  destruct (rd_addition f); [|reflexivity|reflexivity]. reflexivity.
Qed.
Lemma loop1 fs s : rmap st_result (tt_loop 1 fs (mk_tt s None None None))
  = let (a, fs) := take_opt rd_sb_set fs in rmap st_result (tt_loop 2 fs (mk_tt s a None None)).
Proof.
  destruct fs as [|f fs]; [reflexivity|]. cbn [tt_loop tt_attempt take_opt]. rewrite set_opt.
  destruct (rd_sb_set f); [|reflexivity|reflexivity]. reflexivity.
Qed.
Lemma loop0 fs : rmap st_result (tt_loop 0 fs (mk_tt None None None None))
  = let (s, fs) := take_opt rd_sb_set fs in rmap st_result (tt_loop 1 fs (mk_tt s None None None)).
Proof.
  destruct fs as [|f fs]; [reflexivity|]. cbn [tt_loop tt_attempt take_opt]. rewrite set_opt.
  destruct (rd_sb_set f) eqn:E; [reflexivity| |]; cbn [tt_loop tt_attempt]; rewrite set_opt, E; reflexivity.
Qed.
Lemma ltb_len (n : nat) : Nat.ltb 4 n = (4 <? Z.of_nat n)%Z.
Proof. destruct (Nat.ltb_spec 4 n), (Z.ltb_spec 4 (Z.of_nat n)); try reflexivity; lia. Qed.
Lemma trigger_reads s : trigger_type_from_str s = rmap Some (rd_trigger s).
Proof.
  unfold trigger_type_from_str, rd_trigger. destruct (str_eqb (trim s) (lit "Passing")); [reflexivity|].
  destruct (str_eqb (trim s) (lit "Failing")); [reflexivity|].
  destruct (strip_prefix (lit "HitSound") (trim s)) as [[|c t]|]; [reflexivity| |reflexivity].
  rewrite humps_first. unfold hit_sound_trigger. rewrite ltb_len. destruct (4 <? _)%Z; [reflexivity|].
  transitivity (rmap Some (rmap st_result (tt_loop 0 (humps (c :: t)) (mk_tt None None None None)))).
  - now destruct (tt_loop _ _ _).
  - f_equal. rewrite loop0. destruct (take_opt rd_sb_set _) as [a fs]. rewrite loop1.
    destruct (take_opt rd_sb_set _) as [b fs2]. rewrite loop2. destruct (take_opt rd_addition _) as [d fs3]. apply loop3.
Qed.

(** ** lists at the end of a line *)
Lemma tail_longer f fs : length (tailf fs) <> length (tailf (f :: fs)).
Proof. rewrite tailf_cons. cbn [length]. rewrite app_length. lia. Qed.
Lemma comma_then {A} (p : cp A) f fs : preceded comma p (tailf (f :: fs)) = p (f ++ tailf fs).
Proof. unfold preceded, pbind. now rewrite comma_tailf. Qed.
Lemma c_dec_at f fs : no_comma f = true -> c_dec (f ++ tailf fs) = POk (tailf fs) (decimal_of_str f).
Proof. intros H. unfold c_dec, comma_field_type, map_res. now rewrite comma_field_tailf. Qed.
Lemma decs_at fs : forallb no_comma fs = true -> many0 (preceded comma c_dec) (tailf fs) = POk [] (map decimal_of_str fs).
Proof.
  induction fs as [|f fs IH]; intros H; [now eapply many0_stop|]. cbn [forallb] in H. apply andb_true_iff in H as [Hf H].
  rewrite (many0_cons _ _ (tailf fs) (decimal_of_str f)).
  - now rewrite IH.
  - apply safe_preceded_comma, c_dec_safe.
  - rewrite comma_then. now apply c_dec_at.
  - apply tail_longer.
Qed.
Lemma twos_ind (P : list str -> Prop) : P [] -> (forall x, P [x]) -> (forall x y fs, P fs -> P (x :: y :: fs)) -> forall fs, P fs.
Proof.
  intros H0 H1 H2 fs. enough (P fs /\ forall x, P (x :: fs)) by easy.
  induction fs as [|f fs [I J]]; [easy|]. split; [apply J|]. intros x. now apply H2.
Qed.
Lemma twos_at fs : forallb no_comma fs = true -> c_cont_two (tailf fs) = POk [] (in_twos fs).
Proof.
  unfold c_cont_two. induction fs as [|x|x y fs IH] using twos_ind; intros H; [now eapply many0_stop| |].
  - cbn [forallb] in H. apply andb_true_iff in H as [Hx _].
    rewrite (many0_cons _ _ [] (decimal_of_str x, None)).
    + reflexivity.
    + apply safe_preceded_comma, c_cont_two_safe.
    + rewrite comma_then. unfold pair, pbind. now rewrite c_dec_at.
    + now rewrite tailf_cons.
  - cbn [forallb] in H. apply andb_true_iff in H as [Hx H]. apply andb_true_iff in H as [Hy H].
    rewrite (many0_cons _ _ (tailf fs) (decimal_of_str x, Some (decimal_of_str y))).
    + now rewrite IH.
    + apply safe_preceded_comma, c_cont_two_safe.
    + rewrite comma_then. unfold pair, pbind. rewrite c_dec_at by easy. unfold pmap at 1, alt, pmap at 1.
      rewrite tailf_cons at 1. cbn [eof]. unfold kerr, cut, pmap. rewrite comma_then. now rewrite c_dec_at.
    + rewrite !tailf_cons. cbn [length]. rewrite app_length. cbn [length]. rewrite app_length. lia.
Qed.
Lemma c_u8_at f fs : no_comma f = true -> c_u8 (f ++ tailf fs)
  = match parse_u8 f with ROk z => POk (tailf fs) z | _ => PErr (mkErr KMapRes None) end.
Proof.
  intros H. unfold c_u8, comma_field_type, map_res. rewrite comma_field_tailf by easy.
  destruct (parse_u8 f) eqn:E; [reflexivity|reflexivity|now apply u8_quiet in E].
Qed.
Lemma cont_colour_at fs : forallb no_comma fs = true -> c_cont_colour (tailf fs)
  = match fs with
    | [] => POk [] None
    | f :: fs => match parse_u8 f with ROk z => POk (tailf fs) (Some z) | _ => PErr (mkErr KMapRes None) end
    end.
Proof.
  intros H. destruct fs as [|f fs]; [reflexivity|]. cbn [forallb] in H. apply andb_true_iff in H as [Hf H].
  unfold c_cont_colour, alt, pmap. rewrite tailf_cons at 1. cbn [eof]. unfold kerr. rewrite comma_then, c_u8_at by easy.
  now destruct (parse_u8 f).
Qed.
Lemma threes_ind (P : list str -> Prop) : P [] -> (forall x, P [x]) -> (forall x y, P [x; y]) ->
  (forall x y z fs, P fs -> P (x :: y :: z :: fs)) -> forall fs, P fs.
Proof.
  intros H0 H1 H2 H3 fs. enough (P fs /\ (forall x, P (x :: fs)) /\ forall x y, P (x :: y :: fs)) by easy.
  induction fs as [|f fs (I & J & K)]; [easy|]. repeat split; [apply J|intros x; apply K|]. intros x y. now apply H3.
Qed.
Definition list_at {A} (p : cp (list A)) (s : str) (o : option (list A)) : Prop :=
  match o with Some l => p s = POk [] l | None => exists c r l, p s = POk (c :: r) l end.
Lemma list_end {A D} (ic : cmd_err) (p : cp (list A)) s o (f : list A -> command) (g : command -> D) : list_at p s o ->
  rmap g (verbose_error_to_error (pmap f (terminated p (context ic eof)) s))
  = match o with Some l => ROk (g (f l)) | None => RErr ic end.
Proof.
  unfold list_at. intros H. unfold pmap, terminated, pbind.
  destruct o as [l|]; [rewrite H; reflexivity|]. destruct H as (c & r & l & ->). reflexivity.
Qed.
Lemma list_stop {A} (p : cp A) f fs e : p (tailf (f :: fs)) = PErr e -> list_at (many0 p) (tailf (f :: fs)) None.
Proof. intros H. exists 44, (f ++ tailf fs), []. rewrite <- tailf_cons. now apply many0_stop in H. Qed.
Lemma list_next {A} (p : cp A) s fs a (o : option (list A)) : safe p -> p s = POk (tailf fs) a ->
  length (tailf fs) <> length s -> list_at (many0 p) (tailf fs) o ->
  list_at (many0 p) s (option_map (cons a) o).
Proof.
  intros Hs H L Ho. unfold list_at in *. rewrite (many0_cons p s (tailf fs) a) by easy.
  destruct o as [l|]; [now rewrite Ho|]. destruct Ho as (c & r & l & ->). cbn. now exists c, r, (a :: l).
Qed.
Lemma threes_at fs : forallb no_comma fs = true -> list_at (many0 (preceded comma c_rgb)) (tailf fs) (in_threes fs).
Proof.
  induction fs as [|x|x y|x y z fs IH] using threes_ind; intros H.
  - now eapply many0_stop.
  - cbn [forallb] in H. apply andb_true_iff in H as [Hx _]. cbn [in_threes].
    assert (E : preceded comma c_rgb (tailf [x]) = match parse_u8 x with ROk r => POk [] (r, None, None) | _ => PErr (mkErr KMapRes None) end).
    { rewrite comma_then. unfold c_rgb, pbind at 1. rewrite c_u8_at by easy. now destruct (parse_u8 x). }
    destruct (parse_u8 x) as [r| |]; [|eapply list_stop; exact E|eapply list_stop; exact E].
    eapply (list_next _ _ [] _ (Some [])); [apply rgb_safe'|exact E|now rewrite tailf_cons|reflexivity].
  - cbn [forallb] in H. apply andb_true_iff in H as [Hx H]. cbn [in_threes].
    assert (E : preceded comma c_rgb (tailf [x; y]) = match parse_u8 x, parse_u8 y with
      | ROk r, ROk g => POk [] (r, Some g, None) | _, _ => PErr (mkErr KMapRes None) end).
    { rewrite comma_then. unfold c_rgb, pbind at 1. rewrite c_u8_at by easy. destruct (parse_u8 x); [|reflexivity|reflexivity].
      unfold pbind. rewrite cont_colour_at by easy. now destruct (parse_u8 y). }
    destruct (parse_u8 x) as [r| |]; [|eapply list_stop; exact E|eapply list_stop; exact E].
    destruct (parse_u8 y) as [g| |]; [|eapply list_stop; exact E|eapply list_stop; exact E].
    eapply (list_next _ _ [] _ (Some [])); [apply rgb_safe'|exact E|now rewrite tailf_cons|reflexivity].
  - cbn [forallb] in H. apply andb_true_iff in H as [Hx H]. cbn [in_threes].
    assert (E : preceded comma c_rgb (tailf (x :: y :: z :: fs)) = match parse_u8 x, parse_u8 y, parse_u8 z with
      | ROk r, ROk g, ROk b => POk (tailf fs) (r, Some g, Some b) | _, _, _ => PErr (mkErr KMapRes None) end).
    { rewrite comma_then. unfold c_rgb, pbind at 1. rewrite c_u8_at by easy. destruct (parse_u8 x); [|reflexivity|reflexivity].
      unfold pbind. rewrite cont_colour_at by easy. destruct (parse_u8 y); [|reflexivity|reflexivity].
      cbn [forallb] in H. apply andb_true_iff in H as [_ H].
      unfold pmap. rewrite cont_colour_at by easy. now destruct (parse_u8 z). }
    destruct (parse_u8 x) as [r| |]; [|eapply list_stop; exact E|eapply list_stop; exact E].
    destruct (parse_u8 y) as [g| |]; [|eapply list_stop; exact E|eapply list_stop; exact E].
    destruct (parse_u8 z) as [b| |]; [|eapply list_stop; exact E|eapply list_stop; exact E].
    cbn [forallb] in H. apply andb_true_iff in H as [_ H]. apply andb_true_iff in H as [_ H].
    replace (match in_threes fs with Some l => Some ((r, Some g, Some b) :: l) | None => None end)
      with (option_map (cons (r, Some g, Some b)) (in_threes fs)) by now destruct (in_threes fs).
    eapply list_next; [apply rgb_safe'|exact E| |now apply IH].
    rewrite !tailf_cons. cbn [length]. rewrite !app_length. cbn [length]. rewrite !app_length. cbn [length].
    rewrite !app_length. lia.
Qed.
Lemma param_reads s : parameter_from_str s = rmap Some (rd_parameter s).
Proof.
  unfold parameter_from_str, rd_parameter. cbn [rd_name].
  destruct (str_eqb s (lit "H")), (str_eqb s (lit "V")), (str_eqb s (lit "A")); reflexivity.
Qed.
Lemma agree_param : agree (fun s => v_unwrap (parameter_from_str s)) rd_parameter.
Proof. apply agree_unwrap. apply param_reads. Qed.
Lemma param_at f fs : no_comma f = true -> @comma_field_versioned_type cmd_err _ _ parameter_from_str (f ++ tailf fs)
  = match rd_parameter f with ROk z => POk (tailf fs) z | _ => PErr (mkErr KMapRes None) end.
Proof.
  intros H. unfold comma_field_versioned_type, map_res. rewrite comma_field_tailf by easy.
  unfold v_unwrap. rewrite param_reads. unfold rd_parameter. cbn [rd_name].
  destruct (str_eqb f (lit "H")), (str_eqb f (lit "V")), (str_eqb f (lit "A")); reflexivity.
Qed.
Lemma params_at fs : forallb no_comma fs = true ->
  list_at (many0 (preceded comma (comma_field_versioned_type parameter_from_str))) (tailf fs) (all_items rd_parameter fs).
Proof.
  induction fs as [|f fs IH]; intros H; [now eapply many0_stop|]. cbn [forallb] in H. apply andb_true_iff in H as [Hf H].
  cbn [all_items].
  assert (E : preceded comma (@comma_field_versioned_type cmd_err _ _ parameter_from_str) (tailf (f :: fs))
     = match rd_parameter f with ROk z => POk (tailf fs) z | _ => PErr (mkErr KMapRes None) end).
  { rewrite comma_then. now apply param_at. }
  destruct (rd_parameter f) as [a| |]; [|eapply list_stop; exact E|eapply list_stop; exact E].
  replace (match all_items rd_parameter fs with Some r => Some (a :: r) | None => None end)
    with (option_map (cons a) (all_items rd_parameter fs)) by now destruct (all_items rd_parameter fs).
  eapply list_next; [|exact E|apply tail_longer|now apply IH].
  apply safe_preceded_comma, comma_field_versioned_type_safe; [apply np_param|apply param_some].
Qed.

(** ** easing and times *)
Lemma easing_table z : easing_of_Z z
  = match (if (0 <=? z)%Z && (z <? 35)%Z then nth_error all_easings (Z.to_nat z) else None) with Some e => e | None => EzOther z end.
Proof.
  destruct ((0 <=? z)%Z && (z <? 35)%Z) eqn:E.
  - apply andb_true_iff in E as [A B]. apply Z.leb_le in A. apply Z.ltb_lt in B.
    rewrite <- (Z2Nat.id z) by lia. assert (H : (Z.to_nat z < 35)%nat) by lia. rewrite Nat2Z.id. generalize dependent (Z.to_nat z).
    intros n H. do 35 (destruct n as [|n]; [reflexivity|]). lia.
  - apply andb_false_iff in E. unfold easing_of_Z. destruct z as [|p|p]; [destruct E as [E|E]; discriminate| |reflexivity].
    destruct E as [E|E]; [discriminate|]. apply Z.ltb_ge in E.
    do 6 (destruct p as [p|p|]; try reflexivity; try lia).
Qed.
Lemma easing_map (r : res Z int_err) : rmap easing_of_Z r = rmap (fun z =>
  match (if (0 <=? z)%Z && (z <? 35)%Z then nth_error all_easings (Z.to_nat z) else None) with Some e => e | None => EzOther z end) r.
Proof. destruct r; [cbn [rmap rbind]; now rewrite easing_table|reflexivity|reflexivity]. Qed.
Lemma easing_at fs : forallb no_comma fs = true -> c_easing (tailf fs)
  = match fs with
    | [] => PFail (mkErr KTag (Some CmdMissingEasing))
    | f :: fs => match rd_easing f with
                 | ROk e => POk (tailf fs) e
                 | RErr _ => PFail (mkErr KMapRes (Some CmdInvalidEasing))
                 | RPanic p => PPanic p
                 end
    end.
Proof.
  intros H. unfold c_easing, cut, preceded, pbind. rewrite comma_at. destruct fs as [|f fs]; [reflexivity|].
  cbn [forallb] in H. apply andb_true_iff in H as [Hf H]. unfold context, map_opt, comma_field_type, map_res, rd_easing.
  rewrite comma_field_tailf by easy. rewrite <- easing_map. now destruct (parse_i32 f).
Qed.
Lemma start_at fs : forallb no_comma fs = true -> c_start_time (tailf fs)
  = match fs with
    | [] => PErr (mkErr KTag (Some CmdMissingStartTime))
    | f :: fs => match parse_i32 f with
                 | ROk e => POk (tailf fs) (Some e)
                 | RErr _ => PErr (mkErr KMapRes (Some CmdInvalidStartTime))
                 | RPanic p => PPanic p
                 end
    end.
Proof.
  intros H. unfold c_start_time, preceded, pbind. rewrite comma_at. destruct fs as [|f fs]; [reflexivity|].
  cbn [forallb] in H. apply andb_true_iff in H as [Hf H]. unfold context, pmap, comma_field_type, map_res.
  rewrite comma_field_tailf by easy. now destruct (parse_i32 f).
Qed.
Lemma end_time_at fs : forallb no_comma fs = true -> c_end_time (tailf fs)
  = match fs with
    | [] => PFail (mkErr KTag (Some CmdMissingEndTime))
    | f :: fs => if is_blank f then POk (tailf fs) None
                 else match parse_i32 f with
                 | ROk e => POk (tailf fs) (Some e)
                 | RErr _ => PFail (mkErr KMapRes (Some CmdInvalidEndTime))
                 | RPanic p => PPanic p
                 end
    end.
Proof.
  intros H. unfold c_end_time, preceded, pbind. destruct fs as [|f fs]; [reflexivity|].
  cbn [forallb] in H. apply andb_true_iff in H as [Hf H]. unfold context at 1, cut at 1. rewrite comma_tailf.
  unfold alt, pmap, verify. rewrite comma_field_tailf by easy. destruct (is_blank f); [reflexivity|].
  unfold kerr, cut, context, comma_field_type, map_res. rewrite comma_field_tailf by easy. now destruct (parse_i32 f).
Qed.
(** [",,"] in front of another comma *)
Lemma no_times_at fs : forallb no_comma fs = true ->
  match fs with
  | [] :: [] :: f :: fs' => pair (tag (lit ",,")) (@peek cmd_err _ comma) (tailf fs) = POk (tailf (f :: fs')) (lit ",,", lit ",")
  | _ => exists e, pair (tag (lit ",,")) (@peek cmd_err _ comma) (tailf fs) = PErr e
  end.
Proof.
  intros H. destruct fs as [|f fs]; [now eexists|]. cbn [forallb] in H. apply andb_true_iff in H as [Hf H].
  destruct f as [|c f].
  - destruct fs as [|g fs]; [now eexists|]. cbn [forallb] in H. apply andb_true_iff in H as [Hg H].
    destruct g as [|c g]; [destruct fs as [|k fs]; [now eexists|reflexivity]|].
    cbn [no_comma forallb] in Hg. apply andb_true_iff in Hg as [Hc _].
    unfold pair, pbind, pmap, peek, tag. rewrite !tailf_cons. change (lit ",,") with [44; 44]. cbn [app strip_prefix].
    rewrite N.eqb_refl. unfold comma, tag. change (lit ",") with [44]. cbn [strip_prefix].
    destruct (N.eqb_spec 44 c); [now subst|]. now eexists.
  - cbn [no_comma forallb] in Hf. apply andb_true_iff in Hf as [Hc _].
    unfold pair, pbind, pmap, tag. rewrite tailf_cons. change (lit ",,") with [44; 44]. cbn [app strip_prefix].
    rewrite N.eqb_refl. destruct (N.eqb_spec 44 c); [now subst|]. now eexists.
Qed.
Lemma times_at {B D} (k : easing * (option Z * option Z) -> cp B) K fs (g : B -> D) :
  (forall e st et fs', forallb no_comma fs' = true -> rmap g (verbose_error_to_error (k (e, (st, et)) (tailf fs'))) = K e st et fs') ->
  forallb no_comma fs = true ->
  rmap g (verbose_error_to_error (pbind c_easing_times k (tailf fs))) = times fs K.
Proof.
  intros HK H. unfold pbind at 1. unfold c_easing_times. unfold pair at 1. unfold pbind at 1. rewrite easing_at by easy.
  unfold times. destruct fs as [|f fs]; [reflexivity|]. cbn [next]. cbn [forallb] in H. apply andb_true_iff in H as [Hf H].
  destruct (rd_easing f) as [e| |]; [|reflexivity|reflexivity].
  assert (M : forall fs, forallb no_comma fs = true -> (exists e, pair (tag (lit ",,")) (@peek cmd_err _ comma) (tailf fs) = PErr e) ->
    rmap g (verbose_error_to_error match pmap (fun b => (e, b)) (alt (pmap (fun _ => (None, None)) (pair (tag (lit ",,")) (peek comma)))
         (pair c_start_time c_end_time)) (tailf fs) with POk r a => k a r | PErr e0 => PErr e0 | PFail e0 => PFail e0 | PPanic x => PPanic x end)
    = next CmdMissingStartTime CmdInvalidStartTime parse_i32 fs (fun st fs =>
         match fs with
         | [] => RErr CmdMissingEndTime
         | f :: fs => if is_blank f then K e (Some st) None fs
                      else next CmdMissingEndTime CmdInvalidEndTime parse_i32 (f :: fs) (fun et fs => K e (Some st) (Some et) fs)
         end)).
  { clear - HK. intros fs H [x Hx]. unfold pmap at 1. unfold alt, pmap at 1. rewrite Hx. unfold pair, pbind. rewrite start_at by easy.
    destruct fs as [|f fs]; [reflexivity|]. cbn [next]. cbn [forallb] in H. apply andb_true_iff in H as [Hf H].
    destruct (parse_i32 f) as [st| |]; [|reflexivity|reflexivity]. unfold pmap. rewrite end_time_at by easy.
    destruct fs as [|f' fs]; [reflexivity|]. cbn [forallb] in H. apply andb_true_iff in H as [Hf' H].
    destruct (is_blank f'); [now apply HK|]. cbn [next]. destruct (parse_i32 f') as [et| |]; [|reflexivity|reflexivity].
    now apply HK. }
  pose proof (no_times_at fs H) as N.
  destruct fs as [|[|c a] fs]; [now apply M| |now apply M].
  destruct fs as [|[|c a] fs]; [now apply M| |now apply M].
  destruct fs as [|a fs]; [now apply M|].
  unfold pmap at 1. unfold alt, pmap. rewrite N. apply HK. now cbn [forallb] in H.
Qed.
Lemma times_longer {B D} (k : easing * (option Z * option Z) -> cp B) c r fs (g : B -> D) : no_comma (c :: r) = true ->
  rmap g (verbose_error_to_error (pbind c_easing_times k ((c :: r) ++ tailf fs))) = RErr CmdMissingEasing.
Proof.
  intros H. unfold pbind at 1. unfold c_easing_times, pair. unfold pbind at 1. unfold c_easing, cut. unfold preceded, pbind.
  now rewrite tag_longer.
Qed.

(** ** the commands *)
Definition line_at {B D} (p : cp B) (r : str) (fs : list str) (g : B -> D) (line : list str -> res D cmd_err) : Prop :=
  rmap g (verbose_error_to_error (p (r ++ tailf fs))) = line (if is_empty r then fs else []).
Lemma dec_next {B D} m i (k : decimal -> cp B) K fs (g : B -> D) :
  (forall a fs', forallb no_comma fs' = true -> rmap g (verbose_error_to_error (k a (tailf fs'))) = K a fs') ->
  forallb no_comma fs = true ->
  rmap g (verbose_error_to_error (pbind (c_field m i c_dec) k (tailf fs))) = next m m rd_dec fs K.
Proof.
  intros HK H. transitivity (next m i rd_dec fs K); [|now destruct fs].
  rewrite <- (next_agree _ _ _ _ fs _ agree_dec). now apply next_at.
Qed.
Lemma timed_line {B D} (k : easing * (option Z * option Z) -> cp B) K r fs (g : B -> D) :
  (forall e st et fs', forallb no_comma fs' = true -> rmap g (verbose_error_to_error (k (e, (st, et)) (tailf fs'))) = K e st et fs') ->
  no_comma r = true -> forallb no_comma fs = true -> line_at (cut (pbind c_easing_times k)) r fs g (fun fs => times fs K).
Proof.
  intros HK Hr H. unfold line_at. rewrite cut_same. destruct r as [|c r]; [now apply times_at|].
  now rewrite times_longer.
Qed.
Lemma one_at {D} m i ic r fs (g : _ -> D) : no_comma r = true -> forallb no_comma fs = true ->
  line_at (cut (pbind c_easing_times (fun t => pbind (c_field m i c_dec) (fun x =>
          pmap (fun l => (t, x, l)) (terminated (many0 (preceded comma c_dec)) (context ic eof)))))) r fs g
    (fun fs => times fs (fun e st et fs => next m m rd_dec fs (fun x fs => ROk (g ((e, (st, et)), x, map decimal_of_str fs))))).
Proof.
  intros Hr H. apply timed_line; [|easy|easy]. clear - m. intros e st et fs H. apply dec_next; [|easy]. clear - m.
  intros x fs H. rewrite rmap_pmap. unfold terminated, pbind. now rewrite decs_at.
Qed.
Lemma two_at {D} m1 i1 m2 i2 ic r fs (g : _ -> D) : no_comma r = true -> forallb no_comma fs = true ->
  line_at (c_two_body m1 i1 m2 i2 ic) r fs g
    (fun fs => times fs (fun e st et fs => next m1 m1 rd_dec fs (fun x fs => next m2 m2 rd_dec fs (fun y fs =>
       ROk (g ((e, (st, et)), mk_cont (x, y) (in_twos fs))))))).
Proof.
  intros Hr H. apply timed_line; [|easy|easy]. clear - m1. intros e st et fs H. apply dec_next; [|easy]. clear - m1.
  intros x fs H. apply dec_next; [|easy]. clear - m1.
  intros y fs H. rewrite rmap_pmap. unfold terminated, pbind. now rewrite twos_at.
Qed.
Lemma u8_next {B D} m i (k : Z -> cp B) K fs (g : B -> D) :
  (forall a fs', forallb no_comma fs' = true -> rmap g (verbose_error_to_error (k a (tailf fs'))) = K a fs') ->
  forallb no_comma fs = true ->
  rmap g (verbose_error_to_error (pbind (c_field m i c_u8) k (tailf fs))) = next m i parse_u8 fs K.
Proof. intros HK H. now apply next_at. Qed.
Lemma colour_at r fs : no_comma r = true -> forallb no_comma fs = true ->
  line_at (cut (pbind c_easing_times (fun '(e, (st, et)) =>
          pbind (c_field CmdMissingRed CmdInvalidRed c_u8) (fun r =>
          pbind (c_field CmdMissingGreen CmdInvalidGreen c_u8) (fun g =>
          pbind (c_field CmdMissingBlue CmdInvalidBlue c_u8) (fun b =>
          pmap (fun l => mk_cmd st (PColour e et (mk_sbc (r, g, b) l)))
            (terminated (many0 (preceded comma c_rgb)) (context CmdInvalidContinuingColours eof)))))))) r fs (fun c => c)
    colour_line.
Proof.
  intros Hr H. apply timed_line; [|easy|easy]. clear. intros e st et fs H. apply u8_next; [|easy]. clear.
  intros r fs H. apply u8_next; [|easy]. clear - r. intros g fs H. apply u8_next; [|easy]. clear - r.
  intros b fs H. rewrite (list_end _ _ _ _ _ _ (threes_at fs H)). now destruct (in_threes fs).
Qed.
Lemma parameter_at r fs : no_comma r = true -> forallb no_comma fs = true ->
  line_at (cut (pbind c_easing_times (fun '(e, (st, et)) =>
          pbind (c_field CmdMissingParameterType CmdInvalidParameterType
                   (comma_field_versioned_type parameter_from_str)) (fun p =>
          pmap (fun l => mk_cmd st (PParameter e et p l))
            (terminated (many0 (preceded comma (comma_field_versioned_type parameter_from_str)))
                        (context CmdInvalidContinuingParameters eof)))))) r fs (fun c => c)
    parameter_line.
Proof.
  intros Hr H. apply timed_line; [|easy|easy]. clear. intros e st et fs H.
  rewrite <- (next_agree _ _ _ _ fs _ agree_param). apply next_at; [|easy]. clear.
  intros p fs H. rewrite (list_end _ _ _ _ _ _ (params_at fs H)). now destruct (all_items rd_parameter fs).
Qed.
(** a comma in front of another one *)
Lemma no_start_at fs : forallb no_comma fs = true ->
  match fs with
  | [] :: f :: fs' => pair comma (@peek cmd_err _ comma) (tailf fs) = POk (tailf (f :: fs')) (lit ",", lit ",")
  | _ => exists e, pair comma (@peek cmd_err _ comma) (tailf fs) = PErr e
  end.
Proof.
  intros H. destruct fs as [|f fs]; [now eexists|]. cbn [forallb] in H. apply andb_true_iff in H as [Hf H].
  destruct f as [|c f].
  - destruct fs as [|g fs]; [now eexists|]. reflexivity.
  - cbn [no_comma forallb] in Hf. apply andb_true_iff in Hf as [Hc _].
    unfold pair, pbind, pmap, peek. rewrite comma_tailf. unfold comma, tag. change (lit ",") with [44]. cbn [app strip_prefix].
    destruct (N.eqb_spec 44 c); [now subst|]. now eexists.
Qed.
Lemma no_start_alt (Q : cp (option Z)) fs : forallb no_comma fs = true ->
  alt (pmap (fun _ => None) (pair comma (peek comma))) Q (tailf fs)
  = match fs with [] :: f :: fs' => POk (tailf (f :: fs')) None | _ => Q (tailf fs) end.
Proof.
  intros H. pose proof (no_start_at fs H) as N. unfold alt. unfold pmap at 1.
  destruct fs as [|[|c f] fs]; [now destruct N as [e ->]| |now destruct N as [e ->]].
  destruct fs as [|f fs]; [now destruct N as [e ->]|]. now rewrite N.
Qed.
Lemma no_start_longer (Q : cp (option Z)) c r fs : no_comma (c :: r) = true ->
  alt (pmap (fun _ => None) (pair comma (peek comma))) Q ((c :: r) ++ tailf fs) = Q ((c :: r) ++ tailf fs).
Proof.
  intros H. unfold alt. unfold pmap at 1. cbn [no_comma forallb] in H. apply andb_true_iff in H as [Hc _].
  unfold pair, pbind, comma at 1, tag. change (lit ",") with [44]. cbn [app strip_prefix].
  destruct (N.eqb_spec 44 c); [now subst|reflexivity].
Qed.
Lemma start_longer c r fs : no_comma (c :: r) = true ->
  c_start_time ((c :: r) ++ tailf fs) = PErr (mkErr KTag (Some CmdMissingStartTime)).
Proof. intros H. unfold c_start_time, preceded, pbind. now rewrite tag_longer. Qed.
Lemma loop_at r fs : no_comma r = true -> forallb no_comma fs = true ->
  line_at (pmap (fun '(st, n) => mk_cmd st (PLoop n []))
     (cut (pair (alt (pmap (fun _ => None) (pair comma (peek comma))) c_start_time)
                  (c_field CmdMissingLoopCount CmdInvalidLoopCount (map_res prest parse_u32))))) r fs (fun c => c) loop_line.
Proof.
  intros Hr H. unfold line_at. rewrite rmap_pmap, cut_same. unfold pair at 1. unfold pbind at 1. destruct r as [|c r].
  - cbn [is_empty app]. rewrite no_start_alt by easy.
    assert (L : forall st fs, rmap (fun '(st, n) => mk_cmd st (PLoop n [])) (verbose_error_to_error
       (pmap (fun b => (st, b)) (c_field CmdMissingLoopCount CmdInvalidLoopCount (map_res prest parse_u32)) (tailf fs)))
       = last_field CmdMissingLoopCount CmdInvalidLoopCount parse_u32 fs (fun n => ROk (mk_cmd st (PLoop n [])))).
    { intros st l. rewrite rmap_pmap. apply end_at. }
    assert (M : rmap (fun '(st, n) => mk_cmd st (PLoop n [])) (verbose_error_to_error
       match c_start_time (tailf fs) with
       | POk r a => pmap (fun b => (a, b)) (c_field CmdMissingLoopCount CmdInvalidLoopCount (map_res prest parse_u32)) r
       | PErr e => PErr e
       | PFail e => PFail e
       | PPanic x => PPanic x
       end) = next CmdMissingStartTime CmdInvalidStartTime parse_i32 fs (fun st fs =>
          last_field CmdMissingLoopCount CmdInvalidLoopCount parse_u32 fs (fun n => ROk (mk_cmd (Some st) (PLoop n []))))).
    { rewrite start_at by easy. destruct fs as [|f fs]; [reflexivity|]. cbn [next].
      destruct (parse_i32 f); [apply L|reflexivity|reflexivity]. }
    destruct fs as [|[|c f] fs]; [exact M| |exact M]. destruct fs as [|f fs]; [exact M|]. apply L.
  - now rewrite no_start_longer, start_longer.
Qed.
Definition rest_num (i : cmd_err) (s : str) : pres cmd_err Z :=
  match parse_i32 s with ROk z => POk [] z | RErr _ => PFail (mkErr KMapRes (Some i)) | RPanic p => PPanic p end.
Lemma rest_num_at i s : context i (cut (consume_rest_type parse_i32)) s = rest_num i s.
Proof. unfold context, cut, consume_rest_type, map_res, prest, rest_num. now destruct (parse_i32 s). Qed.
Lemma trigger_all_at e fs : no_comma e = true -> c_trigger_all (tailf (e :: fs))
  = match parse_i32 e with
    | ROk z => match fs with
               | [] => PErr (mkErr KTag None)
               | _ => pmap (fun g => (Some z, Some g)) (rest_num CmdInvalidGroupNumber) (commas fs)
               end
    | RErr _ => PErr (mkErr KMapRes None)
    | RPanic p => PPanic p
    end.
Proof.
  intros He. unfold c_trigger_all. unfold pbind at 1. rewrite comma_then. unfold comma_field_type, map_res.
  rewrite comma_field_tailf by easy. destruct (parse_i32 e) as [z| |]; [|reflexivity|reflexivity].
  destruct fs as [|f fs]; [reflexivity|]. unfold pmap. rewrite comma_then, commas_tailf. now rewrite rest_num_at.
Qed.
Lemma trigger_group_at f fs : c_trigger_group (tailf ([] :: f :: fs))
  = pmap (fun g => (None, Some g)) (rest_num CmdInvalidGroupNumber) (commas (f :: fs)).
Proof. unfold c_trigger_group, pmap, preceded, pbind. cbn [tailf map concat app]. rewrite commas_tailf. cbn. now rewrite rest_num_at. Qed.
Lemma trigger_group_no c e fs : no_comma (c :: e) = true -> exists x, c_trigger_group (tailf ((c :: e) :: fs)) = PErr x.
Proof.
  intros H. cbn [no_comma forallb] in H. apply andb_true_iff in H as [Hc _]. unfold c_trigger_group, pmap, preceded, pbind, pair.
  unfold pbind. rewrite comma_tailf. unfold pmap, comma, tag. change (lit ",") with [44]. cbn [app strip_prefix].
  destruct (N.eqb_spec 44 c); [now subst|now eexists].
Qed.
Lemma trigger_nothing_no c e fs : exists x, c_trigger_nothing (tailf ((c :: e) :: fs)) = PErr x.
Proof.
  unfold c_trigger_nothing, alt, pmap, verify, prest. rewrite tailf_cons, is_blank_forallb. cbn [forallb].
  change (is_ws 44) with false. cbn [andb]. unfold kerr. change (lit ",") with [44]. cbn [app str_eqb].
  rewrite N.eqb_refl. now eexists.
Qed.
Lemma trigger_last_at e fs : c_trigger_end (tailf (e :: fs))
  = pmap (fun e => (Some e, None)) (rest_num CmdInvalidEndTime) (e ++ tailf fs).
Proof. unfold c_trigger_end, pmap. rewrite comma_then. now rewrite rest_num_at. Qed.
Lemma trigger_end_at {D} fs (g : option Z * option Z -> D) : forallb no_comma fs = true ->
  rmap g (verbose_error_to_error (alt c_trigger_all (alt c_trigger_group (alt c_trigger_nothing c_trigger_end)) (tailf fs)))
  = trigger_end fs (fun e n => ROk (g (e, n))).
Proof.
  intros H. unfold alt. destruct fs as [|e fs]; [reflexivity|]. cbn [forallb] in H. apply andb_true_iff in H as [He H].
  rewrite trigger_all_at by easy. destruct e as [|c e].
  - replace (parse_i32 []) with (@RErr Z int_err IEmpty) by reflexivity. destruct fs as [|f fs]; [reflexivity|].
    rewrite trigger_group_at. cbn [trigger_end last_field]. unfold pmap, rest_num. now destruct (parse_i32 (commas (f :: fs))).
  - destruct (trigger_group_no c e fs He) as [x Hx]. destruct (trigger_nothing_no c e fs) as [y Hy].
    destruct fs as [|f fs].
    + cbn [trigger_end next]. rewrite Hx, Hy, trigger_last_at. cbn [tailf map concat]. rewrite app_nil_r.
      unfold pmap, rest_num. now destruct (parse_i32 (c :: e)).
    + cbn [trigger_end next]. destruct (parse_i32 (c :: e)) as [z|err|p] eqn:E.
      * unfold pmap, rest_num. cbn [last_field]. now destruct (parse_i32 (commas (f :: fs))).
      * rewrite Hx, Hy, trigger_last_at. unfold pmap, rest_num.
        destruct (i32_comma ((c :: e) ++ tailf (f :: fs)) (no_comma_tail _ _ _)) as [q ->]. reflexivity.
      * reflexivity.
Qed.
Lemma agree_trigger : agree (fun s => v_unwrap (trigger_type_from_str s)) rd_trigger.
Proof. apply agree_unwrap. apply trigger_reads. Qed.
Definition trigger_body : cp command :=
  pmap (fun '(t, (st, (e, g))) => mk_cmd st (PTrigger t e g []))
    (preceded (context CmdMissingTriggerType (cut comma))
       (cut (pair (context CmdInvalidTriggerType
                     (map_res comma_field (fun s => v_unwrap (trigger_type_from_str s))))
            (pair (alt (pmap (fun _ => None) (pair comma (peek comma)))
                  (alt (pmap (fun _ => None) (verify prest is_blank))
                       c_start_time))
                  (alt c_trigger_all (alt c_trigger_group
                    (alt c_trigger_nothing c_trigger_end))))))).
Lemma blank_or_start fs : forallb no_comma fs = true ->
  alt (pmap (fun _ => None) (verify prest is_blank)) c_start_time (tailf fs)
  = match fs with [] => POk [] None | _ => c_start_time (tailf fs) end.
Proof.
  intros H. unfold alt, pmap, verify, prest. destruct fs as [|f fs]; [reflexivity|]. rewrite is_blank_forallb, tailf_cons. reflexivity.
Qed.
Lemma trigger_at r fs : no_comma r = true -> forallb no_comma fs = true ->
  line_at trigger_body r fs (fun c => c) trigger_line.
Proof.
  intros Hr H. unfold line_at, trigger_body. rewrite rmap_pmap. unfold preceded at 1. unfold pbind at 1. destruct r as [|c r].
  - cbn [app is_empty]. destruct fs as [|f fs]; [reflexivity|]. unfold context at 1. unfold cut at 1. rewrite comma_tailf.
    rewrite cut_same. cbn [forallb] in H. apply andb_true_iff in H as [Hf H]. unfold pair at 1. unfold pbind at 1.
    change (map_res comma_field (fun s => v_unwrap (trigger_type_from_str s)))
      with (@comma_field_type cmd_err _ _ (fun s => v_unwrap (trigger_type_from_str s))).
    rewrite first_at by easy. unfold trigger_line. cbn [next]. unfold v_unwrap. rewrite trigger_reads.
    destruct (rd_trigger f) as [t|x|p]; [|reflexivity|reflexivity]. cbn [rmap rbind unwrap].
    rewrite rmap_pmap. unfold pair at 1. unfold pbind at 1. rewrite no_start_alt, blank_or_start by easy.
    assert (L : forall st fs, forallb no_comma fs = true -> 
      rmap (fun a : option Z * (option Z * option Z) => let '(st, (e, g)) := a in mk_cmd st (PTrigger t e g []))
       (verbose_error_to_error (pmap (fun b => (st, b)) (alt c_trigger_all (alt c_trigger_group (alt c_trigger_nothing c_trigger_end))) (tailf fs)))
      = trigger_end fs (fun e g => ROk (mk_cmd st (PTrigger t e g [])))).
    { intros st l Hl. rewrite rmap_pmap.
      rewrite <- (trigger_end_at l (fun '(e, g) => mk_cmd st (PTrigger t e g [])) Hl).
      destruct (verbose_error_to_error _) as [[? ?]| |]; reflexivity. }
    assert (M : fs <> [] -> rmap (fun a => let '(st, (e, g)) := a in mk_cmd st (PTrigger t e g [])) (verbose_error_to_error
       match c_start_time (tailf fs) with
       | POk r a => pmap (fun b => (a, b)) (alt c_trigger_all (alt c_trigger_group (alt c_trigger_nothing c_trigger_end))) r
       | PErr e => PErr e
       | PFail e => PFail e
       | PPanic x => PPanic x
       end) = next CmdMissingStartTime CmdInvalidStartTime parse_i32 fs (fun st fs =>
          trigger_end fs (fun e g => ROk (mk_cmd (Some st) (PTrigger t e g []))))).
    { intros _. rewrite start_at by easy. destruct fs as [|f' fs]; [reflexivity|]. cbn [next].
      cbn [forallb] in H. apply andb_true_iff in H as [_ H].
      destruct (parse_i32 f'); [now apply L|reflexivity|reflexivity]. }
    destruct fs as [|[|c g] fs]; [apply (L None []); reflexivity| |now apply M]. destruct fs as [|g fs]; [now apply M|]. now apply L.
  - unfold cut at 1. unfold context at 1. unfold comma at 1, tag. change (lit ",") with [44]. cbn [app strip_prefix].
    cbn [no_comma forallb] in Hr. apply andb_true_iff in Hr as [Hc _]. destruct (N.eqb_spec 44 c); [now subst|reflexivity].
Qed.
(** ** which command *)
Lemma head_alt {A} t (q : cp A) (f : A -> command) (Q : cp command) h fs : no_comma t = true ->
  alt (pmap f (preceded (tag t) (cut q))) Q (h ++ tailf fs)
  = match strip_prefix t h with
    | Some r => pmap f (cut q) (r ++ tailf fs)
    | None => Q (h ++ tailf fs)
    end.
Proof.
  intros Ht. unfold alt. unfold pmap at 1. unfold preceded at 1. unfold pbind at 1. unfold tag at 1. rewrite strip_field by easy.
  destruct (strip_prefix t h) as [r|]; [|reflexivity]. cbn [option_map]. unfold pmap, cut. now destruct (q (r ++ tailf fs)).
Qed.
Lemma head_alt0 t (q : cp command) (Q : cp command) h fs : no_comma t = true ->
  alt (preceded (tag t) (cut q)) Q (h ++ tailf fs)
  = match strip_prefix t h with
    | Some r => cut q (r ++ tailf fs)
    | None => Q (h ++ tailf fs)
    end.
Proof.
  intros Ht. unfold alt. unfold preceded at 1. unfold pbind at 1. unfold tag at 1. rewrite strip_field by easy.
  destruct (strip_prefix t h) as [r|]; [|reflexivity]. cbn [option_map]. unfold cut. now destruct (q (r ++ tailf fs)).
Qed.
Lemma trigger_alt (Q : cp command) h fs : alt c_trigger Q (h ++ tailf fs)
  = match strip_prefix (lit "T") h with
    | Some r => trigger_body (r ++ tailf fs)
    | None => Q (h ++ tailf fs)
    end.
Proof.
  unfold alt, c_trigger, trigger_body. unfold pmap at 1. unfold preceded at 1. unfold pbind at 1. unfold pair at 1. unfold pbind at 1.
  unfold tag at 1. rewrite strip_field by easy. destruct (strip_prefix (lit "T") h) as [r|]; [|reflexivity]. cbn [option_map].
  unfold pmap at 1. unfold context at 1. unfold cut at 1. unfold pmap, preceded, pbind. unfold context at 2, cut at 2.
  destruct (comma (r ++ tailf fs)) as [r' ?|e|e|?]; try reflexivity.
  unfold cut. now destruct (pair _ _ r').
Qed.
Lemma move_alt (Q : cp command) h fs : no_comma h = true -> alt c_move Q (h ++ tailf fs)
  = match fs with
    | _ :: _ => if str_eqb h (lit "M")
                then pmap (fun '((e, (st, et)), x) => mk_cmd st (PMove e et x))
                  (c_two_body CmdMissingMoveX CmdInvalidMoveX CmdMissingMoveY CmdInvalidMoveY CmdInvalidContinuingMove) (tailf fs)
                else Q (h ++ tailf fs)
    | [] => Q (h ++ tailf fs)
    end.
Proof.
  intros Hh. unfold alt, c_move. unfold pmap at 1. unfold preceded at 1. unfold pbind at 1. unfold pair at 1. unfold pbind at 1.
  unfold tag at 1. rewrite strip_field by easy. change (lit "M") with [77].
  destruct h as [|c h]; [destruct fs; reflexivity|]. cbn [strip_prefix str_eqb]. rewrite (N.eqb_sym c 77).
  destruct (N.eqb_spec 77 c) as [E|]; [subst c|destruct fs; reflexivity]. cbn [strip_prefix option_map andb].
  unfold pmap at 1, peek. destruct h as [|c h].
  - cbn [app]. destruct fs as [|f fs]; [reflexivity|]. rewrite comma_tailf. cbn [str_eqb].
    unfold pmap, c_two_body, cut. now destruct (pbind _ _ (tailf (f :: fs))) as [? [[? [? ?]] ?]| | |].
  - cbn [no_comma forallb] in Hh. apply andb_true_iff in Hh as [_ Hh]. apply andb_true_iff in Hh as [Hc _].
    unfold comma, tag. change (lit ",") with [44]. cbn [app strip_prefix].
    destruct (N.eqb_spec 44 c); [now subst|]. destruct fs; reflexivity.
Qed.
Lemma strip1 a c h : strip_prefix [a] (c :: h) = if a =? c then Some h else None.
Proof. cbn. now destruct (a =? c). Qed.
Lemma same_line {D} (p : cp command) s (x : res command cmd_err) (g : command -> D) :
  rmap (fun c => c) (verbose_error_to_error (p s)) = x -> rmap g (verbose_error_to_error (p s)) = rmap g x.
Proof. intros <-. now destruct (verbose_error_to_error (p s)). Qed.
Definition cmd_alts : cp command :=
    (alt c_move (alt c_rotate (alt c_scale (alt c_vector_scale (alt c_fade (alt c_parameter
    (alt c_move_y (alt c_colour (alt c_move_x (alt c_trigger (alt c_loop
      (context CmdUnknownCommandType pfail)))))))))))).
Lemma cmd_at h fs : no_comma h = true -> forallb no_comma fs = true ->
  rmap (fun c => c) (verbose_error_to_error (cmd_alts (h ++ tailf fs))) = cmd_fields h fs.
Proof.
  intros Hh H. unfold cmd_alts. rewrite move_alt by easy. set (mv := pmap _ (c_two_body _ _ _ _ _)).
  unfold c_rotate, c_scale, c_vector_scale, c_fade, c_parameter, c_move_y, c_colour, c_move_x, c_loop, c_one, c_two_body.
  do 4 (rewrite head_alt by easy). rewrite head_alt0 by easy. rewrite head_alt by easy. rewrite head_alt0 by easy.
  rewrite head_alt by easy. rewrite trigger_alt. rewrite head_alt by easy.
  unfold cmd_fields.
  assert (W : forall X, (fs <> [] -> h = lit "M" -> False) -> match fs with _ :: _ => if str_eqb h (lit "M") then mv (tailf fs) else X | [] => X end = X).
  { intros X N. destruct fs; [reflexivity|]. destruct (str_eqb h (lit "M")) eqn:E; [|reflexivity].
    apply str_eqb_eq in E. exfalso. now apply N. }
  destruct h as [|c h]; [rewrite W by easy; destruct fs; reflexivity|].
  pose proof Hh as Hr. cbn [no_comma forallb] in Hr. apply andb_true_iff in Hr as [_ Hr]. fold (no_comma h) in Hr.
  change (lit "R") with [82]. change (lit "S") with [83]. change (lit "V") with [86]. change (lit "F") with [70].
  change (lit "P") with [80]. change (lit "C") with [67]. change (lit "T") with [84]. change (lit "L") with [76].
  rewrite !strip1.
  destruct (N.eqb_spec 82 c) as [<-|]; [rewrite W by easy; cbv iota; rewrite rmap_pmap; now apply one_at|].
  destruct (N.eqb_spec 83 c) as [<-|]; [rewrite W by easy; cbv iota; rewrite rmap_pmap; now apply one_at|].
  destruct (N.eqb_spec 86 c) as [<-|]; [rewrite W by easy; cbv iota; rewrite rmap_pmap; now apply (two_at CmdMissingScaleX CmdInvalidScaleX CmdMissingScaleY CmdInvalidScaleY CmdInvalidContinuingScales)|].
  destruct (N.eqb_spec 70 c) as [<-|]; [rewrite W by easy; cbv iota; rewrite rmap_pmap; now apply one_at|].
  destruct (N.eqb_spec 80 c) as [<-|]; [rewrite W by easy; cbv iota; now apply parameter_at|].
  destruct (N.eqb_spec 67 c) as [<-|]; [rewrite W by easy; now apply colour_at|].
  destruct (N.eqb_spec 77 c) as [<-|].
  - destruct h as [|d h].
    + destruct fs as [|f fs]; [reflexivity|]. change (str_eqb [77] (lit "M")) with true. cbv iota. unfold mv.
      rewrite rmap_pmap. apply (two_at CmdMissingMoveX CmdInvalidMoveX CmdMissingMoveY CmdInvalidMoveY CmdInvalidContinuingMove []); easy.
    + rewrite W by easy. pose proof Hr as Hr2. cbn [no_comma forallb] in Hr2. apply andb_true_iff in Hr2 as [_ Hr2]. fold (no_comma h) in Hr2.
      change (strip_prefix (lit "MX") (77 :: d :: h)) with (strip_prefix [88] (d :: h)).
      change (strip_prefix (lit "MY") (77 :: d :: h)) with (strip_prefix [89] (d :: h)). rewrite !strip1.
      destruct (N.eqb_spec 88 d) as [<-|]; [change (89 =? 88) with false; cbv iota; rewrite rmap_pmap; now apply one_at|].
      destruct (N.eqb_spec 89 d) as [<-|]; [cbv iota; rewrite rmap_pmap; now apply one_at|].
      destruct fs; reflexivity.
  - rewrite W by (intros _ K; injection K as K _; congruence).
    replace (strip_prefix (lit "MX") (c :: h)) with (@None str).
    2: { change (lit "MX") with [77; 88]. cbn [strip_prefix]. now destruct (N.eqb_spec 77 c). }
    replace (strip_prefix (lit "MY") (c :: h)) with (@None str).
    2: { change (lit "MY") with [77; 89]. cbn [strip_prefix]. now destruct (N.eqb_spec 77 c). }
    destruct (N.eqb_spec 84 c) as [<-|]; [now apply trigger_at|].
    destruct (N.eqb_spec 76 c) as [<-|]; [now apply loop_at|].
    destruct fs; [reflexivity|]. destruct (str_eqb (c :: h) (lit "M")) eqn:E; [|reflexivity].
    apply str_eqb_eq in E. injection E as E _. congruence.
Qed.
Lemma cmd_reads s : cmd_from_str s = rmap Some (rd_command s).
Proof.
  unfold cmd_from_str, cmd_parser, rd_command. f_equal. apply rmap_same. unfold preceded, pbind, take_while.
  change is_indent with (fun c => (c =? 32) || (c =? 95)).
  destruct (span _ s) as [a b]. cbn [snd]. pose proof (pieces_fields b) as (N & E & F).
  destruct (pieces 44 b) as [|h fs]; [easy|]. cbn [forallb] in F. apply andb_true_iff in F as [Fh F].
  rewrite commas_tailf in E. rewrite E. fold cmd_alts. rewrite cmd_at by easy. now destruct (cmd_fields h fs).
Qed.
