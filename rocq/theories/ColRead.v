(** The lines of [Colours] are read as [col_line] says. *)
From Coq Require Import String List NArith ZArith Bool Lia.
From Verif Require Import Str Num Nom Dec Parsers Colours Spec SpecWf SpecText SpecLine SpecColLine
  StrFacts NumFacts NomFacts FieldFacts CmdFacts ColoursFacts LineRead HoRead EvRead.
Import ListNotations.
Local Open Scope N_scope.

Lemma skip_span s : snd (span is_space0 s) = skip s.
Proof.
  induction s as [|c s IH]; [reflexivity|]. cbn [span skip]. unfold is_space0 at 1.
  destruct ((c =? 32) || (c =? 9)); [|reflexivity]. now destruct (span is_space0 s).
Qed.
Lemma space0_skip {C B} (k : str -> parser C B) (q : parser C B) s : (forall a, k a = q) ->
  pbind space0 k s = q (skip s).
Proof. intros H. unfold pbind, space0, take_while. rewrite <- skip_span. destruct (span is_space0 s) as [a b]. now rewrite H. Qed.
Lemma digits_span s : span (fun c => (48 <=? c) && (c <=? 57)) s = digits_of s.
Proof.
  induction s as [|c s IH]; [reflexivity|]. cbn [span digits_of]. destruct ((48 <=? c) && (c <=? 57)); [|reflexivity].
  rewrite IH. now destruct (digits_of s).
Qed.
Lemma skip_tail f fs : skip (f ++ tailf fs) = skip f ++ tailf fs.
Proof.
  induction f as [|c f IH]; [now destruct fs|]. cbn [app skip]. destruct ((c =? 32) || (c =? 9)); [exact IH|reflexivity].
Qed.
Lemma digits_tail f fs : digits_of (f ++ tailf fs) = (fst (digits_of f), snd (digits_of f) ++ tailf fs).
Proof.
  induction f as [|c f IH]; [now destruct fs|]. cbn [app digits_of]. destruct ((48 <=? c) && (c <=? 57)); [|reflexivity].
  rewrite IH. now destruct (digits_of f).
Qed.
Lemma skip_no_comma f : no_comma f = true -> no_comma (skip f) = true.
Proof.
  induction f as [|c f IH]; intros H; [reflexivity|]. cbn [skip]. destruct ((c =? 32) || (c =? 9)); [|exact H].
  cbn in H. apply andb_true_iff in H as [_ H]. now apply IH.
Qed.
Lemma digits_no_comma f : no_comma f = true -> no_comma (snd (digits_of f)) = true.
Proof.
  induction f as [|c f IH]; intros H; [reflexivity|]. cbn [digits_of]. destruct ((48 <=? c) && (c <=? 57)); [|exact H].
  cbn in H. apply andb_true_iff in H as [_ H]. destruct (digits_of f). now apply IH.
Qed.
Lemma spaces_skip f : if spaces f then skip f = [] else exists c r, skip f = c :: r.
Proof.
  induction f as [|c f IH]; [reflexivity|]. cbn [spaces forallb skip]. fold (spaces f).
  destruct ((c =? 32) || (c =? 9)); [exact IH|now exists c, f].
Qed.
Lemma digit1_number {C} (rd : str -> res Z int_err) s : rd [] = RErr IEmpty -> (forall x p, rd x <> RPanic p) ->
  match number rd s with
  | Some (z, rest) => @map_res C _ _ _ digit1 rd s = POk rest z
  | None => exists k, @map_res C _ _ _ digit1 rd s = PErr (mkErr k None)
  end.
Proof.
  intros E N. unfold number, map_res, digit1. rewrite digits_span. destruct (digits_of s) as [[|c a] b].
  - rewrite E. now eexists.
  - destruct (rd (c :: a)) eqn:R; [reflexivity|now eexists|now apply N in R].
Qed.
Lemma byte_at {B} inv f fs (k : Z -> parser rgb_err B) : no_comma f = true ->
  (exists e, pbind (context inv rgb_byte) k (skip f ++ tailf fs) = PErr e /\ e_ctx e = Some inv /\ number parse_u8 (skip f) = None)
  \/ (exists z rest, number parse_u8 (skip f) = Some (z, rest) /\ no_comma rest = true
      /\ pbind (context inv rgb_byte) k (skip f ++ tailf fs) = k z (rest ++ tailf fs)).
Proof.
  intros H. pose proof (@digit1_number rgb_err parse_u8 (skip f ++ tailf fs) eq_refl (fun x p => parse_int_no_panic _ _ _ _ _)) as D.
  unfold number in *. rewrite digits_tail in D. pose proof (digits_no_comma _ (skip_no_comma f H)) as Hn.
  destruct (digits_of (skip f)) as [a b]. cbn [fst snd] in *. unfold pbind, context, rgb_byte.
  destruct (parse_u8 a) as [z| |].
  - right. exists z, b. rewrite D. now repeat split.
  - left. destruct D as [k' ->]. eexists. now repeat split.
  - left. destruct D as [k' ->]. eexists. now repeat split.
Qed.
Definition rsep (miss : rgb_err) : parser rgb_err str := pbind space0 (fun _ => pbind (context miss comma) (fun _ => space0)).
Lemma rsep_at miss rest fs : no_comma rest = true ->
  match fs with
  | f :: fs' => if spaces rest then exists a, rsep miss (rest ++ tailf fs) = POk (skip f ++ tailf fs') a
                else rsep miss (rest ++ tailf fs) = PErr (mkErr KTag (Some miss))
  | [] => rsep miss (rest ++ tailf fs) = PErr (mkErr KTag (Some miss))
  end.
Proof.
  intros H. unfold rsep. rewrite (space0_skip _ _ _ (fun _ => eq_refl)).
  rewrite skip_tail. pose proof (spaces_skip rest) as S. pose proof (skip_no_comma rest H) as N.
  destruct (spaces rest).
  - rewrite S. cbn [app]. unfold pbind. rewrite comma_at. destruct fs as [|f fs]; [reflexivity|].
    unfold space0, take_while. pose proof (skip_span (f ++ tailf fs)) as K. rewrite skip_tail in K.
    destruct (span is_space0 (f ++ tailf fs)) as [a b]. cbn [snd] in K. rewrite K. now eexists.
  - destruct S as (c & r & S). rewrite S in *. unfold pbind. rewrite tag_longer by easy. now destruct fs.
Qed.
Lemma sep_at {B} miss (q : parser rgb_err B) rest fs : no_comma rest = true ->
  match fs with
  | f :: fs' => if spaces rest then preceded (rsep miss) q (rest ++ tailf fs) = q (skip f ++ tailf fs')
                else preceded (rsep miss) q (rest ++ tailf fs) = PErr (mkErr KTag (Some miss))
  | [] => preceded (rsep miss) q (rest ++ tailf fs) = PErr (mkErr KTag (Some miss))
  end.
Proof.
  intros H. pose proof (rsep_at miss rest fs H) as S. unfold preceded, pbind.
  destruct fs as [|f fs]; [now rewrite S|]. destruct (spaces rest); [|now rewrite S]. now destruct S as [a ->].
Qed.
Lemma rgb_reads s v : rgb_from_str s v = rmap Some (rgb_line (pieces 44 s)).
Proof.
  unfold rgb_from_str. f_equal. pose proof (pieces_fields s) as (N & E & F). destruct (pieces 44 s) as [|f fs]; [easy|].
  rewrite commas_tailf in E. subst s. clear N. cbn [forallb] in F. apply andb_true_iff in F as [Ff F].
  unfold rgb_parser. fold (rsep RgbMissingGreen). fold (rsep RgbMissingBlue). rewrite <- preceded_pbind. unfold preceded at 1.
  rewrite (space0_skip _ _ _ (fun _ => eq_refl)). rewrite skip_tail. unfold rgb_line, component at 1.
  match goal with |- verbose_error_to_error (pbind _ ?k _) = _ =>
    destruct (byte_at RgbInvalidRed f fs k Ff) as [(e & -> & Ee & ->) | (r & rest & -> & Hr & ->)] end.
  { cbn. now rewrite Ee. }
  pose proof (sep_at (B:=rgb) RgbMissingGreen) as S.
  rewrite <- preceded_pbind. 
  match goal with |- verbose_error_to_error (preceded _ ?q _) = _ => specialize (S q rest fs Hr) end.
  destruct fs as [|g fs]; [now rewrite S|].
  destruct (spaces rest); [rewrite S; clear S|now rewrite S].
  cbn [forallb] in F. apply andb_true_iff in F as [Fg F]. unfold component.
  match goal with |- verbose_error_to_error (pbind _ ?k _) = _ =>
    destruct (byte_at RgbInvalidGreen g fs k Fg) as [(e & -> & Ee & ->) | (gv & rest2 & -> & Hr2 & ->)] end.
  { cbn. now rewrite Ee. }
  pose proof (sep_at (B:=rgb) RgbMissingBlue) as S. rewrite <- preceded_pbind.
  match goal with |- verbose_error_to_error (preceded _ ?q _) = _ => specialize (S q rest2 fs Hr2) end.
  destruct fs as [|b fs]; [now rewrite S|].
  destruct (spaces rest2); [rewrite S; clear S|now rewrite S].
  rewrite <- skip_tail, <- commas_tailf. unfold pbind, context, consume_rest_type, map_res, prest.
  destruct (parse_u8 (skip (commas (b :: fs)))) eqn:P; [reflexivity|reflexivity|now apply u8_quiet in P].
Qed.
(** ** the line *)
Definition col_done (r : pres colour_ctx colour) : res (option colour) colour_err :=
  match verbose_error_to_error r with
  | ROk c => ROk (Some c)
  | RErr (CcErr e) => RErr e
  | RErr (CcRgb i) =>
      match rgb_from_str i min_version with
      | RErr e => RErr (ColRgb e)
      | ROk _ => RPanic PUnwrap
      | RPanic p => RPanic p
      end
  | RPanic p => RPanic p
  end.
Lemma col_sep_at s : match skip s with
  | c :: s' => if c =? 58 then exists a, col_separator s = POk (skip s') a else col_separator s = PErr (mkErr KTag None)
  | [] => col_separator s = PErr (mkErr KTag None)
  end.
Proof.
  unfold col_separator. rewrite (space0_skip _ _ _ (fun _ => eq_refl)). unfold pbind, tag. change (lit ":") with [58].
  destruct (skip s) as [|c r]; [reflexivity|]. cbn [strip_prefix]. rewrite (N.eqb_sym 58 c). destruct (c =? 58); [|reflexivity].
  unfold space0, take_while. rewrite <- (skip_span r). destruct (span is_space0 r). now eexists.
Qed.
Lemma col_rgb_at v s : col_rgb v s = match rgb_line (pieces 44 s) with
  | ROk x => POk [] x
  | RErr _ => PErr (mkErr KMapRes (Some (CcRgb s)))
  | RPanic p => PPanic p
  end.
Proof. unfold col_rgb, context, map_res, prest, v_unwrap. rewrite rgb_reads. now destruct (rgb_line (pieces 44 s)). Qed.
Lemma combo_rest_at v n r :
  col_done (pmap (Combo n) (cut (preceded (context (CcErr ColInvalidColonSeparator) col_separator) (col_rgb v))) r)
  = rmap Some (col_rest r (Combo n)).
Proof.
  unfold pmap, cut, preceded, pbind, context, col_rest. pose proof (col_sep_at r) as S.
  destruct (skip r) as [|c r']; [now rewrite S|]. destruct (c =? 58); [|now rewrite S]. destruct S as [a ->].
  rewrite col_rgb_at. unfold col_done.
  destruct (rgb_line (pieces 44 (skip r'))) as [x|e|p] eqn:E; [reflexivity| |reflexivity].
  cbn. rewrite rgb_reads, E. reflexivity.
Qed.
Lemma slider_rest_at v (k : rgb -> colour) r :
  col_done (pmap k (preceded (context (CcErr ColInvalidColonSeparator) (cut col_separator)) (cut (col_rgb v))) r)
  = rmap Some (col_rest r k).
Proof.
  unfold pmap, cut, preceded, pbind, context, col_rest. pose proof (col_sep_at r) as S.
  destruct (skip r) as [|c r']; [now rewrite S|]. destruct (c =? 58); [|now rewrite S]. destruct S as [a ->].
  rewrite col_rgb_at. unfold col_done.
  destruct (rgb_line (pieces 44 (skip r'))) as [x|e|p] eqn:E; [reflexivity| |reflexivity].
  cbn. rewrite rgb_reads, E. reflexivity.
Qed.
Lemma track_alt v (Q : parser colour_ctx colour) s : alt (col_track v) Q s
  = match strip_prefix (lit "SliderTrackOverride") s with
    | Some r => pmap SliderTrackOverride (preceded (context (CcErr ColInvalidColonSeparator) (cut col_separator)) (cut (col_rgb v))) r
    | None => Q s
    end.
Proof.
  unfold alt, col_track, pmap, preceded, pbind. unfold tag at 1. destruct (strip_prefix _ s) as [r|]; [|reflexivity].
  unfold context, cut. destruct (col_separator r) as [r' ?|e|e|?]; [|reflexivity..].
  now destruct (col_rgb v r').
Qed.
Definition border_name : parser colour_ctx str :=
  pbind (tag (lit "Slider")) (fun _ => pbind (alt (pchar 66) (pchar 98)) (fun _ => tag (lit "order"))).
Lemma border_tag s :
  match strip_prefix (lit "SliderBorder") s, strip_prefix (lit "Sliderborder") s with
  | Some r, _ | None, Some r => border_name s = POk r (lit "order")
  | None, None => exists e, border_name s = PErr e
  end.
Proof.
  assert (S : forall t, strip_prefix (lit "Slider" ++ t) s = match strip_prefix (lit "Slider") s with Some r => strip_prefix t r | None => None end).
  { intros t. change (lit "Slider") with [83; 108; 105; 100; 101; 114].
    generalize [83; 108; 105; 100; 101; 114]. intros l. revert s. induction l as [|a l IH]; intros s; [reflexivity|].
    cbn [app strip_prefix]. destruct s as [|c s]; [reflexivity|]. destruct (a =? c); [apply IH|reflexivity]. }
  change (lit "SliderBorder") with (lit "Slider" ++ 66 :: lit "order"). change (lit "Sliderborder") with (lit "Slider" ++ 98 :: lit "order").
  rewrite !S. unfold border_name, pbind, tag. destruct (strip_prefix (lit "Slider") s) as [[|c r]|]; [now eexists| |now eexists].
  cbn [strip_prefix]. unfold alt, pchar, kerr. rewrite (N.eqb_sym 66 c), (N.eqb_sym 98 c).
  destruct (N.eqb_spec c 66) as [->|]; [|destruct (N.eqb_spec c 98) as [->|]; [|now eexists]].
  - change (66 =? 98) with false. cbv iota. destruct (strip_prefix (lit "order") r); [reflexivity|now eexists].
  - cbv iota. destruct (strip_prefix (lit "order") r); [reflexivity|now eexists].
Qed.
Lemma border_alt v (Q : parser colour_ctx colour) s : alt (col_border v) Q s
  = match strip_prefix (lit "SliderBorder") s, strip_prefix (lit "Sliderborder") s with
    | Some r, _ | None, Some r =>
        pmap SliderBorder (preceded (context (CcErr ColInvalidColonSeparator) (cut col_separator)) (cut (col_rgb v))) r
    | None, None => Q s
    end.
Proof.
  pose proof (border_tag s) as B. unfold alt, col_border. fold border_name. unfold pmap, preceded. unfold pbind at 1 2.
  assert (K : forall r, border_name s = POk r (lit "order") ->
    match match match border_name s with POk r _ => context (CcErr ColInvalidColonSeparator) (cut col_separator) r
       | PErr e => PErr e | PFail e => PFail e | PPanic x => PPanic x end with
       | POk r _ => cut (col_rgb v) r | PErr e => PErr e | PFail e => PFail e | PPanic x => PPanic x end with
       | POk r a => POk r (SliderBorder a) | PErr _ => Q s | PFail e => PFail e | PPanic x => PPanic x end
    = match pbind (context (CcErr ColInvalidColonSeparator) (cut col_separator)) (fun _ => cut (col_rgb v)) r with
       | POk r a => POk r (SliderBorder a) | PErr e => PErr e | PFail e => PFail e | PPanic x => PPanic x end).
  { intros r ->. unfold pbind, context, cut. destruct (col_separator r) as [r' ?|e|e|?]; [|reflexivity..].
    now destruct (col_rgb v r'). }
  destruct (strip_prefix (lit "SliderBorder") s) as [r|]; [|destruct (strip_prefix (lit "Sliderborder") s) as [r|]].
  - rewrite <- (K r B). rewrite B. unfold context, cut. destruct (col_separator r) as [r' ?|e|e|?]; [|reflexivity..].
    now destruct (col_rgb v r').
  - rewrite <- (K r B). rewrite B. unfold context, cut. destruct (col_separator r) as [r' ?|e|e|?]; [|reflexivity..].
    now destruct (col_rgb v r').
  - destruct B as [e ->]. reflexivity.
Qed.
Lemma col_reads v s : colour_from_str v s = rmap Some (col_line s).
Proof.
  unfold colour_from_str. change (col_done (colour_parser v (trim s)) = rmap Some (col_line s)).
  unfold col_line. set (t := trim s). unfold colour_parser. unfold alt at 1. unfold col_combo. unfold pbind at 1.
  unfold preceded at 1. unfold pbind at 1. unfold tag at 1. destruct (strip_prefix (lit "Combo") t) as [r|].
  - pose proof (@digit1_number colour_ctx parse_i32 r eq_refl (fun x p => parse_int_no_panic _ _ _ _ _)) as D.
    unfold context at 1, cut at 1. destruct (number parse_i32 r) as [[n rest]|]; [|destruct D as [k ->]; reflexivity].
    rewrite D. rewrite <- (combo_rest_at v n rest). unfold pmap, cut.
    now destruct (preceded _ _ rest).
  - unfold kerr. rewrite track_alt. destruct (strip_prefix (lit "SliderTrackOverride") t) as [r|]; [apply slider_rest_at|].
    rewrite border_alt. destruct (strip_prefix (lit "SliderBorder") t) as [r|]; [apply slider_rest_at|].
    destruct (strip_prefix (lit "Sliderborder") t) as [r|]; [apply slider_rest_at|]. reflexivity.
Qed.
(** ** which texts are colours *)
Lemma skip_spec s : exists a, s = a ++ skip s /\ spaces a = true.
Proof.
  induction s as [|c s (a & E & S)]; [now exists []|]. cbn [skip]. destruct ((c =? 32) || (c =? 9)) eqn:Ec.
  - exists (c :: a). cbn [app]. split; [now f_equal|]. cbn [spaces forallb]. now rewrite Ec.
  - now exists [].
Qed.
Lemma digits_spec s : s = fst (digits_of s) ++ snd (digits_of s) /\ Forall digit (fst (digits_of s)).
Proof.
  induction s as [|c s (E & D)]; [split; [reflexivity|constructor]|]. cbn [digits_of]. destruct ((48 <=? c) && (c <=? 57)) eqn:Ec; [|split; [reflexivity|constructor]].
  destruct (digits_of s) as [a b]. cbn [fst snd app] in *. split; [now f_equal|]. constructor; [|easy].
  unfold digit. apply andb_true_iff in Ec as [A B]. apply N.leb_le in A, B. lia.
Qed.
Lemma skip_over a s : spaces a = true -> skip (a ++ s) = skip s.
Proof.
  induction a as [|c a IH]; intros H; [reflexivity|]. cbn [spaces forallb] in H. apply andb_true_iff in H as [Hc H].
  cbn [app skip]. rewrite Hc. now apply IH.
Qed.
Lemma digit_bool c : digit c -> ((48 <=? c) && (c <=? 57)) = true.
Proof. intros [A B]. apply andb_true_iff. split; now apply N.leb_le. Qed.
Lemma digits_over ds s : Forall digit ds -> digits_of (ds ++ s) = (ds ++ fst (digits_of s), snd (digits_of s)).
Proof.
  induction 1 as [|c ds Hc _ IH]; [cbn [app]; now rewrite <- surjective_pairing|]. cbn [app digits_of]. rewrite digit_bool, IH by easy. reflexivity.
Qed.
Lemma skip_digits ds s : ds <> [] -> Forall digit ds -> skip (ds ++ s) = ds ++ s.
Proof.
  intros N H. destruct ds as [|c ds]; [easy|]. apply Forall_inv in H as [A B]. cbn [app skip].
  destruct (N.eqb_spec c 32); [lia|]. destruct (N.eqb_spec c 9); [lia|reflexivity].
Qed.
Lemma spaces_digits s : spaces s = true -> digits_of s = ([], s).
Proof.
  destruct s as [|c s]; [easy|]. cbn [spaces forallb digits_of]. intros H. apply andb_true_iff in H as [H _].
  apply orb_true_iff in H as [H|H]; apply N.eqb_eq in H; now subst.
Qed.
Lemma int_digits signed ds z : int_text signed ds z -> Forall digit ds -> z = Z.of_N (value ds) /\ ds <> [].
Proof.
  intros H F. destruct H as [ds N D|ds N D|ds S N D]; [easy| |]; apply Forall_inv in F as [A B]; lia.
Qed.
Lemma number_u8 s z rest : number parse_u8 s = Some (z, rest) -> exists ds, s = ds ++ rest /\ byte_text ds z.
Proof.
  unfold number. destruct (digits_spec s) as [E D]. destruct (digits_of s) as [ds r]. cbn [fst snd] in *.
  destruct (parse_u8 ds) as [x| |] eqn:P; [|easy|easy]. intros H. injection H as <- <-. exists ds. split; [easy|].
  apply u8_accepts in P as [P B]. apply int_digits in P as [-> N]; [|easy]. constructor; [easy|easy|lia].
Qed.
Lemma number_i32 s z rest : number parse_i32 s = Some (z, rest) ->
  exists ds, s = ds ++ rest /\ ds <> [] /\ Forall digit ds /\ value ds <= 2147483647 /\ z = Z.of_N (value ds).
Proof.
  unfold number. destruct (digits_spec s) as [E D]. destruct (digits_of s) as [ds r]. cbn [fst snd] in *.
  destruct (parse_i32 ds) as [x| |] eqn:P; [|easy|easy]. intros H. injection H as <- <-. exists ds. split; [easy|].
  apply i32_accepts in P as [P B]. apply int_digits in P as [-> N]; [|easy]. repeat split; [easy|easy|lia].
Qed.
Lemma number_back rd ds u z : Forall digit ds -> digits_of u = ([], u) -> rd ds = ROk z -> number rd (ds ++ u) = Some (z, u).
Proof. intros F U R. unfold number. rewrite digits_over, U by easy. cbn [fst snd]. now rewrite app_nil_r, R. Qed.
Lemma byte_parse ds z : byte_text ds z -> parse_u8 ds = ROk z.
Proof. intros [ds' N F B]. apply u8_accepts. split; [now constructor|lia]. Qed.
Lemma byte_facts ds z : byte_text ds z -> ds <> [] /\ Forall digit ds.
Proof. now intros []. Qed.
Lemma spaces_no_comma s : spaces s = true -> no_comma s = true.
Proof.
  unfold spaces, no_comma. rewrite !forallb_forall. intros H c Hc. specialize (H c Hc).
  apply orb_true_iff in H as [H|H]; apply N.eqb_eq in H; now subst.
Qed.
Lemma digits_no_commas ds : Forall digit ds -> no_comma ds = true.
Proof.
  intros H. unfold no_comma. rewrite forallb_forall. rewrite Forall_forall in H. intros c Hc. specialize (H c Hc). unfold digit in H.
  apply negb_true_iff, N.eqb_neq. lia.
Qed.
Lemma component_inv {B} inv miss fs (k : Z -> list str -> res B rgb_err) b : component inv miss fs k = ROk b ->
  exists s0 ds s1 z f fs', fs = (s0 ++ ds ++ s1) :: f :: fs' /\ spaces s0 = true /\ spaces s1 = true /\ byte_text ds z
    /\ k z (f :: fs') = ROk b.
Proof.
  unfold component. destruct fs as [|f fs]; [easy|]. destruct (number parse_u8 (skip f)) as [[z rest]|] eqn:E; [|easy].
  destruct fs as [|g fs]; [easy|]. destruct (spaces rest) eqn:R; [|easy]. intros K.
  apply number_u8 in E as (ds & E & D). destruct (skip_spec f) as (s0 & F & S0).
  exists s0, ds, rest, z, g, fs. split; [|now repeat split]. f_equal. now rewrite <- E.
Qed.
Lemma component_back {B} inv miss s0 ds s1 f fs (k : Z -> list str -> res B rgb_err) z : spaces s0 = true -> spaces s1 = true ->
  byte_text ds z -> component inv miss ((s0 ++ ds ++ s1) :: f :: fs) k = k z (f :: fs).
Proof.
  intros H0 H1 D. unfold component. destruct (byte_facts ds z D) as [N F]. rewrite skip_over, skip_digits by easy.
  rewrite (number_back _ _ _ z F (spaces_digits _ H1) (byte_parse _ _ D)). now rewrite H1.
Qed.
Lemma rgb_accepts s x : rgb_line (pieces 44 s) = ROk x <-> rgb_text s x.
Proof.
  split.
  - destruct (pieces_fields s) as (N & E & F). intros H. unfold rgb_line in H.
    apply component_inv in H as (s0 & r & s1 & vr & f & fs & P & S0 & S1 & R & H).
    apply component_inv in H as (s2 & g & s3 & vg & f' & fs' & P' & S2 & S3 & G & H).
    injection P' as -> ->. rewrite P in E. rewrite !commas_tailf, !tailf_cons in E.
    destruct (parse_u8 (skip (commas (f' :: fs')))) as [vb| |] eqn:B; [|easy|easy]. injection H as <-.
    apply u8_accepts in B as [B L]. destruct (skip_spec (commas (f' :: fs'))) as (s4 & E4 & S4).
    rewrite commas_tailf in E4 at 1. rewrite E4 in E. rewrite E.
    replace ((s0 ++ r ++ s1) ++ 44 :: (s2 ++ g ++ s3) ++ 44 :: s4 ++ skip (commas (f' :: fs')))
      with (s0 ++ r ++ s1 ++ [44] ++ s2 ++ g ++ s3 ++ [44] ++ s4 ++ skip (commas (f' :: fs'))) by now rewrite <- !app_assoc.
    apply rgb_parts; [|easy|easy|easy|lia]. cbn [forallb]. now rewrite S0, S1, S2, S3, S4.
  - intros H. destruct H as [s0 r s1 s2 g s3 s4 b vr vg vb S R G B L]. cbn [forallb] in S.
    repeat (apply andb_true_iff in S as [? S]). destruct (byte_facts _ _ R) as [_ Fr]. destruct (byte_facts _ _ G) as [_ Fg].
    assert (P : pieces 44 (s0 ++ r ++ s1 ++ [44] ++ s2 ++ g ++ s3 ++ [44] ++ s4 ++ b) = [s0 ++ r ++ s1; s2 ++ g ++ s3; s4 ++ b]).
    { apply fields_pieces. split; [easy|]. split; [rewrite !commas_tailf, !tailf_cons; change (tailf []) with (@nil char); rewrite app_nil_r, <- !app_assoc; reflexivity|].
      cbn [forallb]. rewrite !no_comma_app. rewrite (spaces_no_comma s0), (spaces_no_comma s1), (spaces_no_comma s2), (spaces_no_comma s3), (spaces_no_comma s4),
        (digits_no_commas r), (digits_no_commas g), (int_text_no_comma _ _ _ B) by easy. reflexivity. }
    rewrite P. unfold rgb_line. rewrite (component_back _ _ s0 r s1 _ _ _ vr) by easy.
    rewrite (component_back _ _ s2 g s3 _ _ _ vg) by easy. rewrite commas_tailf. cbn [tailf map concat]. rewrite app_nil_r, skip_over by easy.
    assert (Sk : skip b = b).
    { destruct B as [ds N D|ds N D|ds K N D]; [|reflexivity|easy]. rewrite <- (app_nil_r ds). now apply skip_digits. }
    rewrite Sk. replace (parse_u8 b) with (@ROk Z int_err vb); [reflexivity|]. symmetry. apply u8_accepts. split; [easy|].
    split; [|lia]. destruct B; lia.
Qed.
Lemma col_rest_accepts r k c : col_rest r k = ROk c <-> exists s1 s2 t x, r = s1 ++ lit ":" ++ s2 ++ t /\ spaces s1 = true
  /\ spaces s2 = true /\ rgb_text t x /\ c = k x.
Proof.
  split.
  - unfold col_rest. destruct (skip_spec r) as (s1 & E & S1). destruct (skip r) as [|d r'] eqn:K; [easy|].
    destruct (N.eqb_spec d 58) as [->|]; [|easy]. destruct (skip_spec r') as (s2 & E2 & S2).
    destruct (rgb_line (pieces 44 (skip r'))) as [x| |] eqn:R; [|easy|easy]. intros H. injection H as <-.
    apply rgb_accepts in R. exists s1, s2, (skip r'), x. change (lit ":" ++ s2 ++ skip r') with (58 :: s2 ++ skip r').
    now rewrite <- E2.
  - intros (s1 & s2 & t & x & -> & S1 & S2 & R & ->). unfold col_rest. rewrite skip_over by easy.
    change (skip (lit ":" ++ s2 ++ t)) with (58 :: s2 ++ t). cbv iota beta. rewrite N.eqb_refl, skip_over by easy.
    assert (R' : rgb_text (skip t) x).
    { destruct R as [s0 r a1 a2 g a3 a4 b vr vg vb S R G B L]. pose proof S as S'. cbn [forallb] in S. apply andb_true_iff in S as [S0 S].
      rewrite skip_over by easy. destruct (byte_facts _ _ R) as [N F]. rewrite skip_digits by easy.
      apply (rgb_parts [] r a1 a2 g a3 a4 b); [|easy..]. exact S. }
    apply rgb_accepts in R'. now rewrite R'.
Qed.
Lemma sep_digits s1 s2 t : spaces s1 = true -> digits_of (s1 ++ lit ":" ++ s2 ++ t) = ([], s1 ++ lit ":" ++ s2 ++ t).
Proof.
  intros H. destruct s1 as [|c s1]; [reflexivity|]. cbn [spaces forallb] in H. apply andb_true_iff in H as [H _].
  cbn [app digits_of]. apply orb_true_iff in H as [H|H]; apply N.eqb_eq in H; now subst.
Qed.
Lemma col_accepts s c : col_line s = ROk c <-> colour_text (trim s) c.
Proof.
  unfold col_line. set (t := trim s). clearbody t. split.
  - destruct (strip_prefix (lit "Combo") t) as [r|] eqn:E.
    + apply strip_split in E as ->. destruct (number parse_i32 r) as [[n r']|] eqn:Nr; [|easy].
      apply number_i32 in Nr as (ds & -> & N & F & B & ->). intros H. apply col_rest_accepts in H as (s1 & s2 & u & x & -> & S1 & S2 & R & ->).
      now apply text_combo.
    + clear E. destruct (strip_prefix (lit "SliderTrackOverride") t) as [r|] eqn:E.
      * apply strip_split in E as ->. intros H. apply col_rest_accepts in H as (s1 & s2 & u & x & -> & S1 & S2 & R & ->). now apply text_track.
      * clear E. destruct (strip_prefix (lit "SliderBorder") t) as [r|] eqn:E.
        -- apply strip_split in E as ->. intros H. apply col_rest_accepts in H as (s1 & s2 & u & x & -> & S1 & S2 & R & ->).
           apply text_border; auto.
        -- clear E. destruct (strip_prefix (lit "Sliderborder") t) as [r|] eqn:E; [|easy].
           apply strip_split in E as ->. intros H. apply col_rest_accepts in H as (s1 & s2 & u & x & -> & S1 & S2 & R & ->).
           apply text_border; auto.
  - intros H. destruct H as [ds s1 s2 u x N F B S1 S2 R|s1 s2 u x S1 S2 R|b s1 s2 u x [-> | ->] S1 S2 R].
    + rewrite strip_self. rewrite (number_back _ _ _ (Z.of_N (value ds)) F (sep_digits _ _ _ S1)).
      * apply col_rest_accepts. now exists s1, s2, u, x.
      * apply i32_accepts. split; [now constructor|]. lia.
    + change (strip_prefix (lit "Combo") _) with (@None str). cbv iota. rewrite strip_self. apply col_rest_accepts. now exists s1, s2, u, x.
    + change (strip_prefix (lit "Combo") _) with (@None str). change (strip_prefix (lit "SliderTrackOverride") _) with (@None str).
      cbv iota. rewrite strip_self. apply col_rest_accepts. now exists s1, s2, u, x.
    + change (strip_prefix (lit "Combo") _) with (@None str). change (strip_prefix (lit "SliderTrackOverride") _) with (@None str).
      change (strip_prefix (lit "SliderBorder") _) with (@None str).
      cbv iota. rewrite strip_self. apply col_rest_accepts. now exists s1, s2, u, x.
Qed.
Lemma colour_accepts v s c : colour_from_str v s = ROk (Some c) <-> colour_text (trim s) c.
Proof. rewrite col_reads, <- col_accepts. destruct (col_line s); cbn; split; congruence. Qed.
Lemma rgb_from_accepts s v x : rgb_from_str s v = ROk (Some x) <-> rgb_text s x.
Proof. rewrite rgb_reads, <- rgb_accepts. destruct (rgb_line (pieces 44 s)); cbn; split; congruence. Qed.
