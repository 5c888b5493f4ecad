(** Reading and printing the own line of every event. *)
From Coq Require Import String List NArith ZArith Bool Lia.
From Verif Require Import Str Num Nom Dec Parsers Unicode Storyboard NormalEvents Events
  Spec SpecWf SpecText SpecTypes SpecCmd SpecEvents
  StrFacts NumFacts NomFacts DecFacts FieldFacts LayoutFacts TpFacts CmdFacts.
Import ListNotations.
Local Open Scope N_scope.

(** ** times and paths *)
Lemma old_shown v : old_version v = ((v =? 3) || (v =? 4))%Z.
Proof.
  unfold old_version. destruct (Z.leb_spec 3 v), (Z.leb_spec v 4), (Z.eqb_spec v 3), (Z.eqb_spec v 4); lia || easy.
Qed.
Lemma time_print dbg v t : time_ok v t = true -> time_to_string dbg v t = ROk (print_Z (shown_time v t)).
Proof.
  unfold time_ok, time_to_string, shown_time. rewrite old_shown, andb_true_iff. intros [_ H].
  destruct ((v =? 3) || (v =? 4))%Z; [|easy]. unfold i32_sub, i32_arith. now rewrite H.
Qed.
Lemma time_read dbg v t : time_ok v t = true -> time_in dbg v (shown_time v t) = ROk t.
Proof.
  unfold time_ok, time_in, shown_time. rewrite old_shown, andb_true_iff. intros [H _].
  destruct ((v =? 3) || (v =? 4))%Z; [|easy]. unfold i32_add, i32_arith.
  replace (t - 24 + 24)%Z with t by lia. now rewrite H.
Qed.
Lemma time_shown v t : time_ok v t = true -> in_i32 (shown_time v t) = true.
Proof. unfold time_ok. rewrite andb_true_iff. now intros [_ H]. Qed.
Lemma path_print p : path_ok p = true -> print_file_path p = p.
Proof.
  unfold path_ok, print_file_path. rewrite !andb_true_iff. intros [_ H].
  destruct (contains_char 32 p); [|easy]. cbn in H. now rewrite H.
Qed.
Lemma path_no_comma p : path_ok p = true -> no_comma p = true.
Proof. unfold path_ok. rewrite !andb_true_iff. tauto. Qed.
Lemma path_no_nl p : path_ok p = true -> no_nl p = true.
Proof. unfold path_ok. rewrite !andb_true_iff. tauto. Qed.
Lemma path_end p b : path_end_ok p b = true -> path_ok p = true /\ (b = true -> no_cr_end p = true).
Proof. unfold path_end_ok. rewrite andb_true_iff. intros [H1 H2]. split; [easy|]. now intros ->. Qed.

(** ** one line steps *)
Section S.
  Context {C : Type}.
  Lemma ctx_comma (m : C) f fs : context m comma (tailf (f :: fs)) = POk (f ++ tailf fs) (lit ",").
  Proof. apply context_ok, comma_tailf. Qed.
  Lemma f_step {A E} (m i : C) (p : str -> res A E) f fs x : no_comma f = true -> p f = ROk x ->
    preceded (context m comma) (context i (comma_field_type p)) (tailf (f :: fs)) = POk (tailf fs) x.
  Proof. intros H1 H2. eapply preceded_step; [apply ctx_comma|]. now apply context_ok, field_tailf. Qed.
  Lemma fv_step {A E} (m i : C) (p : str -> res (option A) E) f fs x : no_comma f = true -> p f = ROk (Some x) ->
    preceded (context m comma) (context i (comma_field_versioned_type p)) (tailf (f :: fs)) = POk (tailf fs) x.
  Proof. intros H1 H2. eapply preceded_step; [apply ctx_comma|]. now apply context_ok, vfield_tailf. Qed.
  Lemma r_step {A E} (m i : C) (p : str -> res A E) f x : p f = ROk x ->
    preceded (context m comma) (context i (consume_rest_type p)) (tailf [f]) = POk [] x.
  Proof.
    intros H. eapply preceded_step; [apply ctx_comma|]. apply context_ok. change (tailf []) with (@nil N).
    rewrite app_nil_r. eapply map_res_ok; [apply prest_ok|easy].
  Qed.
  Lemma rv_step {A E} (m i : C) (p : str -> res (option A) E) f x : p f = ROk (Some x) ->
    preceded (context m comma) (context i (consume_rest_versioned_type p)) (tailf [f]) = POk [] x.
  Proof.
    intros H. eapply preceded_step; [apply ctx_comma|]. apply context_ok. change (tailf []) with (@nil N).
    rewrite app_nil_r. eapply map_res_ok; [apply prest_ok|]. unfold v_unwrap. now rewrite H.
  Qed.
  Lemma p_step (m : C) f fs : no_comma f = true ->
    preceded (context m comma) comma_field (tailf (f :: fs)) = POk (tailf fs) f.
  Proof. intros H. eapply preceded_step; [apply ctx_comma|]. now apply comma_field_tailf. Qed.
  Lemma head_step {A} (w m : C) h f fs (q : parser C A) X : q (f ++ tailf fs) = X ->
    preceded (pair (context w (tag h)) (context m comma)) q (h ++ tailf (f :: fs)) = X.
  Proof.
    intros H. apply (preceded_step _ _ _ (f ++ tailf fs) (h, lit ",")); [|easy].
    eapply pbind_step; [apply context_ok, tag_app|]. apply (pmap_step (fun b => (h, b))), ctx_comma.
  Qed.
  Lemma start_step dbg v (i : C) t fs : time_ok v t = true ->
    start_time_offset dbg v i (print_Z (shown_time v t) ++ tailf fs) = POk (tailf fs) t.
  Proof.
    intros H. apply context_ok. eapply map_run_ok; [apply i32_field; now apply time_shown|]. now apply time_read.
  Qed.
  Lemma end_step dbg v (i : C) t : time_ok v t = true ->
    end_time_rest dbg v i (print_Z (shown_time v t) ++ tailf []) = POk [] t.
  Proof.
    intros H. apply context_ok. eapply map_run_ok; [apply i32_rest; now apply time_shown|]. now apply time_read.
  Qed.
  Lemma fnp_step (mx ix my iy : C) f p : path_ok f = true -> opt_position_ok p = true ->
    file_name_and_position mx ix my iy (f ++ tailf (opt_position p)) = POk [] (f, p).
  Proof.
    intros Hf Hp. unfold file_name_and_position. eapply pbind_step; [now apply comma_field_tailf, path_no_comma|].
    apply (pmap_step (fun b => (f, b))). destruct p as [[x y]|]; [|now apply alt_l].
    cbn [opt_position opt_position_ok pos_x pos_y] in *. rewrite !andb_true_iff in Hp. destruct Hp as [[[Hx _] Hy] _].
    eapply alt_2; [reflexivity|]. apply (pmap_step (fun '(x, y) => Some (mk_pos x y)) _ _ _ (x, y)).
    destruct (@cmd_dec_parse unit x Hx) as [Hc Hd]. eapply pbind_step; [now apply (f_step _ _ _ _ _ x)|].
    apply (pmap_step (fun b => (x, b))). apply r_step. unfold parse_decimal.
    unfold dec_line in Hy. apply andb_true_iff in Hy as [Hy _]. now rewrite decimal_print_parse.
  Qed.
End S.

(** ** tables *)
Lemma legacy_layer_parse l : layer_legacy_from_str (print_Z (layer_legacy_to_Z l)) = ROk (Some l).
Proof. now destruct l. Qed.
Lemma legacy_origin_parse l : origin_legacy_from_str (print_Z (origin_type_to_Z l)) = ROk (Some l).
Proof. now destruct l. Qed.
Lemma sb_layer_parse l : no_comma (sb_layer_to_string l) = true
  /\ sb_layer_from_str (sb_layer_to_string l) = ROk (Some l).
Proof. now destruct l. Qed.
Lemma loop_type_parse l : loop_type_from_str (loop_type_to_string l) = ROk (Some l).
Proof. now destruct l. Qed.
Lemma volume_parse z : volume_ok z = true -> au_volume_from_str (print_Z z) = ROk (Some z).
Proof.
  unfold volume_ok. intros H. apply andb_true_iff in H as [H1 H2]. apply Z.leb_le in H1, H2.
  unfold au_volume_from_str. rewrite parse_print_u8.
  - unfold au_volume_of_Z. destruct (Z.ltb_spec 100 z); [lia|easy].
  - unfold in_u8, u8_max. apply andb_true_iff. split; apply Z.leb_le; lia.
Qed.
Lemma name_no_comma t : no_comma (origin_name t) = true.
Proof. now destruct t. Qed.
Lemma num_not_name z : origin_of_name (print_Z z) = None.
Proof.
  destruct (print_Z_head z) as (c & t & -> & Hc). unfold origin_of_name.
  repeat match goal with |- context [str_eqb ?a ?b] =>
    replace (str_eqb a b) with false by
      (symmetry; apply Bool.not_true_iff_false; rewrite str_eqb_eq; intros K; injection K as K1 K2;
       subst c; discriminate Hc) end.
  reflexivity.
Qed.
Lemma origin_of_Z_other z : ((z <? 0) || (9 <? z))%Z = true -> origin_type_of_Z z = None.
Proof.
  intros H. destruct z as [|p|p]; try easy; cbn in H. do 4 (destruct p as [p|p|]; try easy).
Qed.
Lemma origin_parse o : origin_ok o = true ->
  no_comma (origin_to_string o) = true /\ origin_from_str (origin_to_string o) = ROk (Some o).
Proof.
  destruct o as [[t|z] s]; unfold origin_ok, origin_to_string; cbn [or_type or_short].
  - intros _. destruct s; destruct t; split; reflexivity.
  - rewrite !andb_true_iff. intros [[-> Hi] Hz]. split; [apply print_Z_no_comma|].
    unfold origin_from_str. rewrite num_not_name, parse_print_i32 by easy. cbn. now rewrite origin_of_Z_other.
Qed.

(** ** the own line *)
Definition own_fields (v : version) (e : event) : list str :=
  match e with
  | EComment _ => []
  | EBackground x => [lit "0"; print_Z (bg_start x); bg_file x] ++ opt_position (bg_pos x)
  | EVideo x =>
      [if vi_short x then lit "1" else lit "Video"; print_Z (shown_time v (vi_start x)); vi_file x]
      ++ opt_position (vi_pos x)
  | EBreak x =>
      [if br_short x then lit "2" else lit "Break"; print_Z (shown_time v (br_start x));
       print_Z (shown_time v (br_end x))]
  | EColourTransformation x =>
      [lit "3"; print_Z (shown_time v (ctr_start x)); print_Z (ctr_r x); print_Z (ctr_g x); print_Z (ctr_b x)]
  | ESpriteLegacy x =>
      [lit "4"; print_Z (layer_legacy_to_Z (lg_layer x)); print_Z (origin_type_to_Z (lg_origin x)); lg_file x]
      ++ opt_position (lg_pos x)
  | EAnimationLegacy x =>
      [lit "5"; print_Z (layer_legacy_to_Z (lg_layer x)); print_Z (origin_type_to_Z (lg_origin x)); lg_file x]
      ++ opt_position (lg_pos x)
  | ESampleLegacy x =>
      [lit "6"; print_decimal (sl_time x); print_Z (layer_legacy_to_Z (sl_layer x)); sl_file x]
      ++ opt_field (sl_volume x)
  | EObject x =>
      match ob_type x with
      | ObSprite f => lit "Sprite" :: object_fields x (origin_to_string (ob_origin x)) f
      | ObAnimation n d l f =>
          lit "Animation" :: object_fields x (origin_to_string (ob_origin x)) f
          ++ [print_Z n; print_rdec d; loop_type_to_string l]
      end
  | EAudioSample x =>
      [lit "Sample"; print_Z (au_time x); print_Z (au_layer_to_Z (au_layer_f x)); au_file x; print_Z (au_volume x)]
  end.
Definition own_text (v : version) (e : event) : str :=
  match e with EComment c => lit "//" ++ c | _ => commas (own_fields v e) end.
Lemma numbered_fun {A} (l : list A) x z z' : NoDup l -> numbered l x z -> numbered l x z' -> z = z'.
Proof.
  intros Hn [H1 H2] [H3 H4]. apply Z2Nat.inj; try easy. rewrite NoDup_nth_error in Hn. apply Hn.
  - apply nth_error_Some. now rewrite H2.
  - now rewrite H2, H4.
Qed.
Ltac nodup := repeat constructor; intros K; cbn in K; repeat destruct K as [K|K]; try easy.
Lemma legacy_layers_nodup : NoDup legacy_layers.
Proof. nodup. Qed.
Lemma origin_types_nodup : NoDup origin_types.
Proof. nodup. Qed.
Lemma sample_layers_nodup : NoDup sample_layers.
Proof. nodup. Qed.
Lemma legacy_layer_num l : numbered legacy_layers l (layer_legacy_to_Z l).
Proof. now destruct l. Qed.
Lemma origin_type_num l : numbered origin_types l (origin_type_to_Z l).
Proof. now destruct l. Qed.
Lemma sample_layer_num l : numbered sample_layers l (au_layer_to_Z l).
Proof. now destruct l. Qed.
Lemma origin_text_iff o s : origin_ok o = true -> (origin_text o s <-> s = origin_to_string o).
Proof.
  intros Ho. split.
  - intros H. revert Ho. destruct H as [t z H|t|z]; intros Ho; unfold origin_to_string; cbn [or_type or_short]; try easy.
    now rewrite (numbered_fun _ _ _ _ origin_types_nodup H (origin_type_num t)).
  - intros ->. destruct o as [[t|z] [|]]; unfold origin_to_string; cbn [or_type or_short];
      try (constructor; apply origin_type_num); try constructor. easy.
Qed.
Lemma own_fields_iff v e fs : own_ok v e = true -> (forall c, e <> EComment c) ->
  (event_fields v e fs <-> fs = own_fields v e).
Proof.
  intros Ho Hc. split.
  - intros H. revert Ho Hc. destruct H; intros Ho Hc; try reflexivity; cbn [own_fields].
    + now rewrite (numbered_fun _ _ _ _ legacy_layers_nodup H (legacy_layer_num (lg_layer x))),
        (numbered_fun _ _ _ _ origin_types_nodup H0 (origin_type_num (lg_origin x))).
    + now rewrite (numbered_fun _ _ _ _ legacy_layers_nodup H (legacy_layer_num (lg_layer x))),
        (numbered_fun _ _ _ _ origin_types_nodup H0 (origin_type_num (lg_origin x))).
    + now rewrite (numbered_fun _ _ _ _ legacy_layers_nodup H (legacy_layer_num (sl_layer x))).
    + cbn [own_ok] in Ho. unfold object_ok in Ho. rewrite !andb_true_iff in Ho. destruct Ho as [[[Ho _] _] _].
      apply origin_text_iff in H0; [|easy]. subst org. now rewrite H.
    + cbn [own_ok] in Ho. unfold object_ok in Ho. rewrite !andb_true_iff in Ho. destruct Ho as [[[Ho _] _] _].
      apply origin_text_iff in H0; [|easy]. subst org. now rewrite H.
    + now rewrite (numbered_fun _ _ _ _ sample_layers_nodup H (sample_layer_num (au_layer_f x))).
  - intros ->. destruct e; cbn [own_fields]; try constructor; try apply legacy_layer_num; try apply origin_type_num;
      try apply sample_layer_num; [now destruct (Hc s)|].
    cbn [own_ok] in Ho. unfold object_ok in Ho. rewrite !andb_true_iff in Ho. destruct Ho as [[[Ho _] _] _].
    destruct (ob_type x) eqn:E; econstructor; eauto; now apply origin_text_iff.
Qed.
Lemma own_text_iff v e s : own_ok v e = true -> (event_line v e s <-> s = own_text v e).
Proof.
  intros Ho. split.
  - intros H. revert Ho. destruct H as [c|e' fs H]; intros Ho; [easy|].
    assert (forall c, e' <> EComment c) by (intros c ->; inversion H).
    apply own_fields_iff in H as ->; [|easy|easy]. destruct e'; try reflexivity. now destruct (H0 s).
  - intros ->. destruct e; try (apply el_fields; apply own_fields_iff; easy). apply el_comment.
Qed.

(** ** printing *)
Definition ev_own (dbg : bool) (v : version) (e : event) : run (option str) :=
  match e with
  | EComment c => ROk (Some (lit "//" ++ c))
  | EBackground x => ROk (Some (bg_to_string_cmd x))
  | EVideo x => rmap Some (vid_to_string_cmd dbg v x)
  | EBreak x => rmap Some (brk_to_string dbg v x)
  | EColourTransformation x => ctr_to_string dbg v x
  | ESpriteLegacy x => ROk (Some (leg_to_string (lit "4") x))
  | EAnimationLegacy x => ROk (Some (leg_to_string (lit "5") x))
  | ESampleLegacy x => ROk (Some (sl_to_string x))
  | EObject x => ROk (Some (ob_to_string_cmd x))
  | EAudioSample x => ROk (Some (au_to_string x))
  end.
Lemma position_tailf p : position_str p = tailf (opt_position p).
Proof. destruct p as [[x y]|]; [|easy]. cbn. now rewrite app_nil_r. Qed.
Lemma own_print dbg v e : own_ok v e = true -> ev_own dbg v e = ROk (Some (own_text v e)).
Proof.
  intros H. unfold own_text. destruct e; cbn [ev_own own_ok] in *; try reflexivity; cbn [own_fields]; rewrite ?andb_true_iff in H.
  - destruct H as [[_ H] _]. apply path_end in H as [H _]. cbn [app]. rewrite commas_tailf, !tailf_cons, <- position_tailf.
    unfold bg_to_string_cmd. rewrite path_print by easy. reflexivity.
  - destruct H as [[Ht H] _]. apply path_end in H as [H _]. cbn [app]. rewrite commas_tailf, !tailf_cons, <- position_tailf.
    unfold vid_to_string_cmd. rewrite time_print by easy. cbn [rmap]. rewrite path_print by easy. reflexivity.
  - destruct H as [H1 H2]. unfold brk_to_string. rewrite !time_print by easy. reflexivity.
  - destruct H as [[[[Hv Ht] _] _] _]. unfold ctr_to_string. rewrite Hv, time_print by easy. reflexivity.
  - destruct H as [H _]. apply path_end in H as [H _]. cbn [app]. rewrite commas_tailf, !tailf_cons, <- position_tailf.
    unfold leg_to_string. rewrite path_print by easy. reflexivity.
  - destruct H as [H _]. apply path_end in H as [H _]. cbn [app]. rewrite commas_tailf, !tailf_cons, <- position_tailf.
    unfold leg_to_string. rewrite path_print by easy. reflexivity.
  - destruct H as [[_ H] _]. apply path_end in H as [H _]. cbn [app]. rewrite commas_tailf, !tailf_cons.
    unfold sl_to_string. rewrite path_print by easy. destruct (sl_volume x); cbn [opt_field]; [|reflexivity].
    rewrite tailf_cons. change (tailf []) with (@nil N). rewrite app_nil_r. reflexivity.
  - unfold object_ok in H. rewrite !andb_true_iff in H. destruct H as [_ H].
    unfold ob_to_string_cmd, object_fields. destruct (ob_type x) as [f|n d l f]; rewrite !andb_true_iff in H.
    + destruct H as [H _]. rewrite path_print by easy. cbn [app]. rewrite commas_tailf, !tailf_cons.
      change (tailf []) with (@nil N). rewrite app_nil_r. rewrite <- ?app_assoc. reflexivity.
    + destruct H as [[H _] _]. rewrite path_print by easy. cbn [app]. rewrite commas_tailf, !tailf_cons.
      change (tailf []) with (@nil N). rewrite app_nil_r. rewrite <- ?app_assoc. reflexivity.
  - destruct H as [[_ H] _]. unfold au_to_string. rewrite path_print by easy. reflexivity.
Qed.
