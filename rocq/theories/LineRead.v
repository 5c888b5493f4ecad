(** The parsers read field by field. *)
From Coq Require Import String List NArith ZArith Bool Lia.
From Verif Require Import Str Num Nom Dec Parsers Colours TimingPoints Spec SpecWf SpecText SpecLine
  StrFacts NumFacts NomFacts DecFacts FieldFacts CmdFacts.
Import ListNotations.
Local Open Scope N_scope.

(** ** every text is made of fields, in one way *)
Lemma commas_no_nl a b : no_comma a = true -> no_comma b = true -> forall x y,
  a ++ tailf x = b ++ tailf y -> a = b /\ tailf x = tailf y.
Proof.
  revert b. induction a as [|c a IH]; intros [|d b] Ha Hb x y H; cbn [app] in H.
  - now split.
  - destruct x as [|f x]; [discriminate|]. rewrite tailf_cons in H. injection H as <- _. discriminate.
  - destruct y as [|f y]; [discriminate|]. rewrite tailf_cons in H. injection H as -> _. discriminate.
  - injection H as <- H. cbn in Ha, Hb. apply andb_true_iff in Ha as [_ Ha].
    apply andb_true_iff in Hb as [_ Hb]. destruct (IH b Ha Hb x y H) as [-> ->]. now split.
Qed.
Lemma tailf_inj x : forall y, forallb no_comma x = true -> forallb no_comma y = true -> tailf x = tailf y -> x = y.
Proof.
  induction x as [|f x IH]; intros [|g y] Hx Hy H; try discriminate; [reflexivity|].
  rewrite !tailf_cons in H. injection H as H. cbn [forallb] in Hx, Hy.
  apply andb_true_iff in Hx as [Hf Hx]. apply andb_true_iff in Hy as [Hg Hy].
  destruct (commas_no_nl f g Hf Hg x y H) as [-> T]. f_equal. now apply IH.
Qed.
Lemma fields_unique s a b : fields_of s a -> fields_of s b -> a = b.
Proof.
  intros (Na & Sa & Ca) (Nb & Sb & Cb). subst s. destruct a as [|f a]; [easy|]. destruct b as [|g b]; [easy|].
  rewrite !commas_tailf in Sb. cbn [forallb] in Ca, Cb.
  apply andb_true_iff in Ca as [Hf Ca]. apply andb_true_iff in Cb as [Hg Cb].
  destruct (commas_no_nl f g Hf Hg a b Sb) as [-> T]. f_equal. now apply tailf_inj.
Qed.
Lemma fields_exist s : exists fs, fields_of s fs.
Proof.
  induction s as [|c s (fs & N & E & C)]; [exists [[]]; now repeat split|].
  destruct fs as [|f fs]; [easy|]. destruct (c =? 44) eqn:Ec.
  - apply N.eqb_eq in Ec as ->. exists ([] :: f :: fs). repeat split; [easy| |easy].
    rewrite commas_tailf, tailf_cons. cbn [app]. now rewrite E, commas_tailf.
  - exists ((c :: f) :: fs). repeat split; [easy| |].
    + rewrite commas_tailf. cbn [app]. now rewrite E, commas_tailf.
    + cbn [forallb no_comma] in *. now rewrite Ec.
Qed.

(** ** a number has no comma *)
Lemma int_text_no_comma signed s z : int_text signed s z -> no_comma s = true.
Proof.
  assert (D : forall ds, Forall digit ds -> no_comma ds = true).
  { intros ds H. unfold no_comma. rewrite forallb_forall. rewrite Forall_forall in H. intros c Hc. specialize (H c Hc).
    unfold digit in H. apply negb_true_iff, N.eqb_neq. lia. }
  intros [ds _ H|ds _ H|ds _ _ H]; cbn; now rewrite ?D.
Qed.
Lemma no_comma_tail f g fs : no_comma (f ++ tailf (g :: fs)) = false.
Proof. rewrite no_comma_app, tailf_cons. cbn. now rewrite andb_false_r. Qed.
Lemma i32_no_comma s z : parse_i32 s = ROk z -> no_comma s = true.
Proof. intros H. apply i32_accepts in H as [H _]. now apply int_text_no_comma in H. Qed.
Lemma u32_no_comma s z : parse_u32 s = ROk z -> no_comma s = true.
Proof. intros H. apply u32_accepts in H as [H _]. now apply int_text_no_comma in H. Qed.
Lemma u8_no_comma s z : parse_u8 s = ROk z -> no_comma s = true.
Proof. intros H. apply u8_accepts in H as [H _]. now apply int_text_no_comma in H. Qed.
Definition fails {A E} (r : res A E) : Prop := exists e, r = RErr e.
Lemma i32_comma s : no_comma s = false -> fails (parse_i32 s).
Proof.
  intros H. destruct (parse_i32 s) eqn:E; [apply i32_no_comma in E; congruence|now eexists|].
  now apply parse_int_no_panic in E.
Qed.
Lemma u32_comma s : no_comma s = false -> fails (parse_u32 s).
Proof.
  intros H. destruct (parse_u32 s) eqn:E; [apply u32_no_comma in E; congruence|now eexists|].
  now apply parse_int_no_panic in E.
Qed.
Lemma u8_comma s : no_comma s = false -> fails (parse_u8 s).
Proof.
  intros H. destruct (parse_u8 s) eqn:E; [apply u8_no_comma in E; congruence|now eexists|].
  now apply parse_int_no_panic in E.
Qed.

(** ** one field *)
(** [read] a field: what the parsers do with it, whatever comes next *)
Definition fcase {C A X} (m i : C) (rd : str -> res A X) (fs : list str) : pres C A :=
  match fs with
  | [] => PErr (mkErr KTag (Some m))
  | f :: fs' => match rd f with
                | ROk a => POk (tailf fs') a
                | RErr _ => PErr (mkErr KMapRes (Some i))
                | RPanic p => PPanic p
                end
  end.
Section F.
  Context {C : Type}.
  Notation pp := (parser C).
  Lemma comma_at (m : C) fs : context m comma (tailf fs)
    = match fs with [] => PErr (mkErr KTag (Some m)) | f :: fs' => POk (f ++ tailf fs') (lit ",") end.
  Proof. destruct fs; [reflexivity|]. unfold context. now rewrite comma_tailf. Qed.
  Lemma first_at {A X} (i : C) (rd : str -> res A X) f fs : no_comma f = true ->
    context i (comma_field_type rd) (f ++ tailf fs)
    = match rd f with
      | ROk a => POk (tailf fs) a
      | RErr _ => PErr (mkErr KMapRes (Some i))
      | RPanic p => PPanic p
      end.
  Proof.
    intros H. unfold context, comma_field_type, map_res. rewrite comma_field_tailf by easy.
    now destruct (rd f).
  Qed.
  Lemma field_at {A X} (m i : C) (rd : str -> res A X) fs : forallb no_comma fs = true ->
    preceded (context m comma) (context i (comma_field_type rd)) (tailf fs) = fcase m i rd fs.
  Proof.
    intros H. unfold preceded, pbind. rewrite comma_at. destruct fs as [|f fs]; [reflexivity|].
    cbn [forallb] in H. apply andb_true_iff in H as [H _]. now apply first_at.
  Qed.
  Lemma plain_at (m : C) fs : forallb no_comma fs = true ->
    preceded (context m comma) comma_field (tailf fs) = fcase m m rd_text fs.
  Proof.
    intros H. unfold preceded, pbind. rewrite comma_at. destruct fs as [|f fs]; [reflexivity|].
    cbn [forallb] in H. apply andb_true_iff in H as [H _]. cbn. now apply comma_field_tailf.
  Qed.
  Definition lcase {A X} (m i : C) (rd : str -> res A X) (fs : list str) : pres C A :=
    match fs with
    | [] => PErr (mkErr KTag (Some m))
    | _ => match rd (commas fs) with
           | ROk a => POk [] a
           | RErr _ => PErr (mkErr KMapRes (Some i))
           | RPanic p => PPanic p
           end
    end.
  Lemma last_at {A X} (m i : C) (rd : str -> res A X) fs :
    preceded (context m comma) (context i (consume_rest_type rd)) (tailf fs) = lcase m i rd fs.
  Proof.
    unfold preceded, pbind. rewrite comma_at. destruct fs as [|f fs]; [reflexivity|].
    cbn [lcase]. rewrite commas_tailf. unfold context, consume_rest_type, map_res, prest.
    now destruct (rd (f ++ tailf fs)).
  Qed.
  (** chains of fields *)
  Lemma next_at {A B D X} (m i : C) (rd : str -> res A X) (k : A -> pp B) K fs (g : B -> D) :
    (forall a fs', forallb no_comma fs' = true -> rmap g (verbose_error_to_error (k a (tailf fs'))) = K a fs') ->
    forallb no_comma fs = true ->
    rmap g (verbose_error_to_error
      (pbind (preceded (context m comma) (context i (comma_field_type rd))) k (tailf fs))) = next m i rd fs K.
  Proof.
    intros HK H. unfold pbind at 1. rewrite field_at by easy. destruct fs as [|f fs]; [reflexivity|].
    cbn [fcase next]. cbn [forallb] in H. apply andb_true_iff in H as [_ H].
    destruct (rd f); [now apply HK|reflexivity|reflexivity].
  Qed.
  Lemma next_at0 {A B X} (m i : C) (rd : str -> res A X) (k : A -> pp B) K fs :
    (forall a fs', forallb no_comma fs' = true -> verbose_error_to_error (k a (tailf fs')) = K a fs') ->
    forallb no_comma fs = true ->
    verbose_error_to_error
      (pbind (preceded (context m comma) (context i (comma_field_type rd))) k (tailf fs)) = next m i rd fs K.
  Proof.
    intros HK H. unfold pbind at 1. rewrite field_at by easy. destruct fs as [|f fs]; [reflexivity|].
    cbn [fcase next]. cbn [forallb] in H. apply andb_true_iff in H as [_ H].
    destruct (rd f); [now apply HK|reflexivity|reflexivity].
  Qed.
  Lemma pmap_pbind {A B D} (g : B -> D) (p : pp A) (k : A -> pp B) s :
    pmap g (pbind p k) s = pbind p (fun a => pmap g (k a)) s.
  Proof. unfold pmap, pbind. now destruct (p s). Qed.
  Lemma preceded_pbind {A B D} (p : pp A) (q : pp B) (k : B -> pp D) s :
    preceded p (pbind q k) s = pbind (preceded p q) k s.
  Proof. unfold preceded, pbind. now destruct (p s). Qed.
  (** two readers that agree *)
  Definition agree {A X Y} (f : str -> res A X) (g : str -> res A Y) : Prop :=
    forall s, match f s, g s with
              | ROk a, ROk b => a = b
              | RErr _, RErr _ => True
              | RPanic p, RPanic q => p = q
              | _, _ => False
              end.
  Lemma next_agree {A B X Y} (m i : C) (f : str -> res A X) (g : str -> res A Y) fs
    (K : A -> list str -> res B C) : agree f g -> next m i f fs K = next m i g fs K.
  Proof.
    intros H. destruct fs as [|x fs]; [reflexivity|]. cbn. specialize (H x).
    destruct (f x), (g x); try easy; now subst.
  Qed.
  Lemma last_agree {A B X Y} (m i : C) (f : str -> res A X) (g : str -> res A Y) fs
    (K : A -> res B C) : agree f g -> last_field m i f fs K = last_field m i g fs K.
  Proof.
    intros H. destruct fs as [|x fs]; [reflexivity|]. cbn [last_field]. specialize (H (commas (x :: fs))).
    destruct (f _), (g _); try easy; now subst.
  Qed.
End F.
Lemma agree_dec : agree (@parse_decimal unit) rd_dec.
Proof. intros s. reflexivity. Qed.
Lemma agree_unwrap {A X} (f : str -> res (option A) X) (g : str -> res A X) :
  (forall s, f s = rmap Some (g s)) -> agree (fun s => v_unwrap (f s)) g.
Proof. intros H s. unfold v_unwrap. rewrite H. now destruct (g s). Qed.
Lemma agree_flag : agree parse_zero_one_bool rd_flag.
Proof.
  intros s. unfold parse_zero_one_bool, rd_flag. destruct (parse_i32 s) as [z| |p] eqn:E; try easy.
  - destruct z as [|[]|]; easy.
  - now apply parse_int_no_panic in E.
Qed.

(** ** timing points *)
Lemma upto_at {A} v n (p : parser tp_err A) s : upto v n p s = if (v <=? n)%Z then p s else PErr (mkErr KVerify None).
Proof. unfold upto, preceded, pbind, verify, pret. now destruct (v <=? n)%Z. Qed.
Lemma rest_at {A X} (i : tp_err) (rd : str -> res A X) s : context i (consume_rest_type rd) s
  = match rd s with ROk a => POk [] a | RErr _ => PErr (mkErr KMapRes (Some i)) | RPanic p => PPanic p end.
Proof. unfold context, consume_rest_type, map_res, prest. now destruct (rd s). Qed.
Lemma agree_fields {A X} (f : str -> res A X) : agree f f.
Proof. intros s. now destruct (f s). Qed.

Definition ue_line (v : version) (fs : list str) : res (option bool * option effects) tp_err :=
  next TpMissingUninherited TpInvalidUninherited rd_flag fs (fun u fs =>
  match fs with
  | [] => if (v <=? 5)%Z then ROk (Some u, None) else RErr TpMissingEffects
  | _ => last_field TpMissingEffects TpInvalidEffects parse_u32 fs (fun e => ROk (Some u, Some e))
  end).
Lemma flag_comma s : no_comma s = false -> fails (parse_zero_one_bool s).
Proof. intros H. unfold parse_zero_one_bool. destruct (i32_comma s H) as [e ->]. now eexists. Qed.
Lemma ue_at v fs : forallb no_comma fs = true ->
  verbose_error_to_error (preceded (context TpMissingUninherited comma) (tp_uninherited_effects v) (tailf fs))
  = ue_line v fs.
Proof.
  intros H. unfold preceded at 1. unfold pbind at 1. rewrite comma_at. unfold ue_line.
  rewrite <- (next_agree _ _ _ _ fs _ agree_flag).
  destruct fs as [|u fs]; [reflexivity|]. cbn [forallb] in H. apply andb_true_iff in H as [Hu H].
  unfold tp_uninherited_effects, alt, pmap at 1. rewrite upto_at.
  fold (@consume_rest_type tp_err bool bool_err parse_zero_one_bool). rewrite rest_at. cbn [next].
  assert (S2 : verbose_error_to_error
    (pbind (context TpInvalidUninherited (map_res comma_field parse_zero_one_bool)) (fun u0 =>
       pmap (fun e => (Some u0, Some e))
         (preceded (context TpMissingEffects comma)
            (context TpInvalidEffects (consume_rest_versioned_type effects_from_str)))) (u ++ tailf fs))
    = match parse_zero_one_bool u with
      | ROk a => match fs with [] => RErr TpMissingEffects
        | _ => last_field TpMissingEffects TpInvalidEffects parse_u32 fs (fun e => ROk (Some a, Some e)) end
      | RErr _ => RErr TpInvalidUninherited
      | RPanic p => RPanic p
      end).
  { unfold pbind. fold (@comma_field_type tp_err bool bool_err parse_zero_one_bool). rewrite first_at by easy.
    destruct (parse_zero_one_bool u) as [b| |]; try reflexivity.
    unfold pmap. fold (@consume_rest_type tp_err effects int_err (fun s => v_unwrap (effects_from_str s))).
    change (consume_rest_versioned_type effects_from_str) with
      (@consume_rest_type tp_err effects int_err (fun s => v_unwrap (effects_from_str s))).
    rewrite last_at. rewrite <- (last_agree _ _ (fun s => v_unwrap (effects_from_str s)) parse_u32).
    - destruct fs as [|e fs]; [reflexivity|]. cbn [lcase last_field].
      now destruct (v_unwrap (effects_from_str (commas (e :: fs)))).
    - now apply agree_unwrap. }
  destruct (v <=? 5)%Z eqn:V5; [|rewrite S2; destruct (parse_zero_one_bool u); try reflexivity; now destruct fs].
  destruct fs as [|e fs].
  - cbn [tailf concat map] in S2 |- *. rewrite app_nil_r in S2 |- *. destruct (parse_zero_one_bool u) eqn:E; try reflexivity.
    exact S2.
  - destruct (flag_comma (u ++ tailf (e :: fs)) (no_comma_tail u e fs)) as [x ->]. exact S2.
Qed.

Definition vol_line (v : version) (fs : list str) : res (Z * option bool * option effects) tp_err :=
  if (v <=? 4)%Z
  then last_field TpMissingVolume TpInvalidVolume parse_i32 fs (fun vol => ROk (vol, None, None))
  else next TpMissingVolume TpInvalidVolume parse_i32 fs (fun vol fs =>
  match fs with
  | [] => ROk (vol, None, None)
  | _ => rmap (fun ue => (vol, fst ue, snd ue)) (ue_line v fs)
  end).
Lemma agree_vol : agree (fun s => v_unwrap (tp_volume_from_str s)) parse_i32.
Proof. now apply agree_unwrap. Qed.
Lemma vol_at v fs : forallb no_comma fs = true ->
  verbose_error_to_error (preceded (context TpMissingVolume comma) (tp_volume_rest v) (tailf fs)) = vol_line v fs.
Proof.
  intros H. unfold preceded at 1. unfold pbind at 1. rewrite comma_at. unfold vol_line.
  rewrite <- (next_agree _ _ _ _ fs _ agree_vol), <- (last_agree _ _ _ _ fs _ agree_vol).
  destruct fs as [|u fs]; [now destruct (v <=? 4)%Z|].
  cbn [forallb] in H. apply andb_true_iff in H as [Hu H].
  unfold tp_volume_rest. unfold alt at 1. unfold pmap at 1. rewrite upto_at.
  destruct (v <=? 4)%Z eqn:V4.
  - unfold context, cut, consume_rest_versioned_type, map_res, prest. cbn [last_field].
    rewrite commas_tailf. now destruct (v_unwrap (tp_volume_from_str (u ++ tailf fs))).
  - change (consume_rest_versioned_type tp_volume_from_str) with
      (@consume_rest_type tp_err Z int_err (fun s => v_unwrap (tp_volume_from_str s))).
    change (comma_field_versioned_type tp_volume_from_str) with
      (@comma_field_type tp_err Z int_err (fun s => v_unwrap (tp_volume_from_str s))).
    set (rd := fun s => v_unwrap (tp_volume_from_str s)) in *.
    unfold alt, pmap at 1. rewrite rest_at. cbn [next].
    assert (S2 : verbose_error_to_error
      (pbind (context TpInvalidVolume (comma_field_type rd)) (fun vol =>
        pmap (fun ue => (vol, fst ue, snd ue))
          (preceded (context TpMissingUninherited comma) (tp_uninherited_effects v))) (u ++ tailf fs))
      = match rd u with
        | ROk a => rmap (fun ue => (a, fst ue, snd ue)) (ue_line v fs)
        | RErr _ => RErr TpInvalidVolume
        | RPanic p => RPanic p
        end).
    { unfold pbind. rewrite first_at by easy. destruct (rd u); try reflexivity.
      rewrite <- ue_at by easy. unfold pmap.
      destruct (preceded _ _ (tailf fs)) as [r a0|e|e|p]; try reflexivity; cbn; now destruct (e_ctx e). }
    destruct fs as [|e fs].
    + cbn [tailf concat map] in S2 |- *. rewrite app_nil_r in S2 |- *. destruct (rd u) eqn:E; try reflexivity.
      exact S2.
    + assert (F : fails (rd (u ++ tailf (e :: fs)))).
      { destruct (i32_comma (u ++ tailf (e :: fs)) (no_comma_tail u e fs)) as [x Hx].
        exists x. unfold rd, tp_volume_from_str. now rewrite Hx. }
      destruct F as [x ->]. exact S2.
Qed.

Lemma agree_index : agree (fun s => v_unwrap (sample_index_from_str s)) rd_tp_index.
Proof. apply agree_unwrap. intros s. unfold sample_index_from_str, rd_tp_index. now destruct (parse_u32 s). Qed.
Lemma agree_set : agree (fun s => v_unwrap (tp_sample_set_from_str s)) rd_tp_set.
Proof. apply agree_unwrap. intros s. unfold tp_sample_set_from_str, rd_tp_set. now destruct (parse_i32 s). Qed.
Lemma index_at v fs : forallb no_comma fs = true ->
  verbose_error_to_error (tp_index_rest v (tailf fs))
  = next TpMissingSampleIndex TpInvalidSampleIndex rd_tp_index fs (fun i fs =>
    match fs with
    | [] => if (v <=? 4)%Z then ROk (i, (100%Z, None, None)) else RErr TpMissingVolume
    | _ => rmap (fun r => (i, r)) (vol_line v fs)
    end).
Proof.
  intros H. unfold tp_index_rest, preceded at 1. unfold pbind at 1. rewrite comma_at.
  rewrite <- (next_agree _ _ _ _ fs _ agree_index).
  destruct fs as [|u fs]; [reflexivity|]. cbn [forallb] in H. apply andb_true_iff in H as [Hu H].
  unfold alt, pmap at 1. rewrite upto_at.
  change (consume_rest_versioned_type sample_index_from_str) with
    (@consume_rest_type tp_err sample_index int_err (fun s => v_unwrap (sample_index_from_str s))).
  change (comma_field_versioned_type sample_index_from_str) with
    (@comma_field_type tp_err sample_index int_err (fun s => v_unwrap (sample_index_from_str s))).
  set (rd := fun s => v_unwrap (sample_index_from_str s)) in *. rewrite rest_at. cbn [next].
  assert (S2 : verbose_error_to_error
    (pbind (context TpInvalidSampleIndex (comma_field_type rd)) (fun i =>
      pmap (fun r => (i, r)) (preceded (context TpMissingVolume comma) (tp_volume_rest v))) (u ++ tailf fs))
    = match rd u with
      | ROk a => rmap (fun r => (a, r)) (vol_line v fs)
      | RErr _ => RErr TpInvalidSampleIndex
      | RPanic p => RPanic p
      end).
  { unfold pbind. rewrite first_at by easy. destruct (rd u); try reflexivity.
    rewrite <- vol_at by easy. unfold pmap.
    destruct (preceded _ _ (tailf fs)) as [r a0|e|e|p]; try reflexivity; cbn; now destruct (e_ctx e). }
  assert (N : vol_line v [] = RErr TpMissingVolume) by (unfold vol_line; now destruct (v <=? 4)%Z).
  destruct (v <=? 4)%Z eqn:V4.
  - destruct fs as [|e fs].
    + cbn [tailf concat map] in S2 |- *. rewrite app_nil_r in S2 |- *. destruct (rd u) eqn:E; try reflexivity.
      exact S2.
    + assert (F : fails (rd (u ++ tailf (e :: fs)))).
      { destruct (u32_comma (u ++ tailf (e :: fs)) (no_comma_tail u e fs)) as [x Hx].
        exists x. unfold rd, sample_index_from_str. now rewrite Hx. }
      destruct F as [x ->]. exact S2.
  - rewrite S2. destruct (rd u); try reflexivity. destruct fs; [now rewrite N|reflexivity].
Qed.

Lemma tp_line_reads v s fs : fields_of s fs -> tp_from_str v s = rmap Some (tp_line v fs).
Proof.
  intros (N & -> & H). destruct fs as [|t fs]; [easy|]. clear N. unfold tp_from_str. f_equal.
  cbn [forallb] in H. apply andb_true_iff in H as [Ht H]. rewrite commas_tailf.
  unfold tp_parser. unfold pbind at 1, map_run. rewrite first_at by easy.
  unfold tp_line. cbn [next rd_dec].
  unfold parse_decimal at 1. unfold andthen. destruct (shift_in v (decimal_of_str t)) as [d|[]|p]; [|reflexivity].
  unfold preceded at 1. unfold pbind at 1. rewrite comma_at.
  destruct (v <=? 3)%Z eqn:V3.
  - destruct fs as [|b fs]; [reflexivity|]. unfold alt, pmap at 1. rewrite upto_at, V3.
    cbn [last_field]. rewrite commas_tailf. reflexivity.
  - destruct fs as [|b fs]; [reflexivity|]. unfold alt, pmap at 1. rewrite upto_at, V3.
    cbn [forallb] in H. apply andb_true_iff in H as [Hb H]. cbn [next rd_dec].
    unfold pbind at 1, comma_field_type at 1, map_res. rewrite comma_field_tailf by easy.
    unfold parse_decimal.
    apply next_at0; [|easy]. clear fs H. intros m fs H.
    rewrite <- (next_agree _ _ _ _ fs _ agree_set).
    apply next_at0; [|easy]. clear fs H. intros ss fs H.
    transitivity (rmap (fun '(i, (vol, u, e)) => mk_tp d (decimal_of_str b) m ss i vol u e)
      (verbose_error_to_error (tp_index_rest v (tailf fs)))).
    { unfold pmap. destruct (tp_index_rest v (tailf fs)) as [r [i [[vol u] e]]|e|e|p]; try reflexivity;
        cbn; now destruct (e_ctx e). }
    rewrite index_at by easy. destruct fs as [|i fs]; [reflexivity|]. cbn [next].
    destruct (rd_tp_index i) as [a| |]; [|reflexivity|reflexivity].
    destruct fs as [|x fs]; [now destruct (v <=? 4)%Z|]. unfold vol_line.
    destruct (v <=? 4)%Z.
    + cbn [last_field]. now destruct (parse_i32 _).
    + cbn [next]. destruct (parse_i32 x) as [vol| |]; [|reflexivity|reflexivity].
      destruct fs as [|u fs]; [reflexivity|]. unfold ue_line. cbn [next].
      destruct (rd_flag u); [|reflexivity|reflexivity].
      destruct fs as [|e fs]; [now destruct (v <=? 5)%Z|].
      cbn [last_field]. now destruct (parse_u32 _).
Qed.
