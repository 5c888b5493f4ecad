(** What reading the [Events] section produces. *)
From Coq Require Import String List NArith ZArith Bool Lia.
From Verif Require Import Str Num Nom Dec Parsers Unicode Storyboard NormalEvents Events
  Spec SpecWf SpecText SpecTypes SpecCmd SpecEvents
  StrFacts NumFacts NomFacts DecFacts FieldFacts LineFacts LayoutFacts TpFacts CmdFacts CmdRound CmdTree EvFacts EvRound EvLoop.
Import ListNotations.
Local Open Scope N_scope.

(** ** texts without line breaks *)
Section C.
  Context {C : Type}.
  (** On a text without line breaks [p] leaves such a text and a value in [P]. *)
  Definition cl {A} (P : A -> Prop) (p : parser C A) : Prop :=
    forall s r a, clean s = true -> p s = POk r a -> clean r = true /\ P a.
  Definition any {A} (a : A) : Prop := True.
  Lemma cl_weaken {A} (P Q : A -> Prop) p : (forall a, P a -> Q a) -> cl P p -> cl Q p.
  Proof. intros H K s r a Hs E. destruct (K s r a Hs E). auto. Qed.
  Lemma cl_pbind {A B} (P : A -> Prop) (Q : B -> Prop) (p : parser C A) f :
    cl P p -> (forall a, P a -> cl Q (f a)) -> cl Q (pbind p f).
  Proof.
    intros Hp Hf s r b Hs E. apply pbind_inv in E as (r1 & a & E1 & E2). destruct (Hp _ _ _ Hs E1) as [K1 K2].
    exact (Hf a K2 _ _ _ K1 E2).
  Qed.
  Lemma cl_pmap {A B} (P : A -> Prop) (Q : B -> Prop) (f : A -> B) p :
    cl P p -> (forall a, P a -> Q (f a)) -> cl Q (pmap f p).
  Proof. intros Hp Hf s r b Hs E. apply pmap_inv in E as (a & E & ->). destruct (Hp _ _ _ Hs E). auto. Qed.
  Lemma cl_preceded {A B} (Q : B -> Prop) (p : parser C A) q : cl any p -> cl Q q -> cl Q (preceded p q).
  Proof. intros Hp Hq. eapply cl_pbind; eauto. Qed.
  Lemma cl_pair {A B} (P : A -> Prop) (Q : B -> Prop) (p : parser C A) (q : parser C B) :
    cl P p -> cl Q q -> cl (fun x => P (fst x) /\ Q (snd x)) (pair p q).
  Proof. intros Hp Hq. eapply cl_pbind; [exact Hp|]. intros a Ha. eapply cl_pmap; [exact Hq|]. easy. Qed.
  Lemma cl_terminated {A B} (P : A -> Prop) (p : parser C A) (q : parser C B) : cl P p -> cl any q -> cl P (terminated p q).
  Proof.
    intros Hp Hq s r a Hs E. apply terminated_inv in E as (r1 & b & E1 & E2). destruct (Hp _ _ _ Hs E1) as [K1 K2].
    destruct (Hq _ _ _ K1 E2). easy.
  Qed.
  Lemma cl_alt {A} (P : A -> Prop) (p q : parser C A) : cl P p -> cl P q -> cl P (alt p q).
  Proof. intros Hp Hq s r a Hs E. apply alt_inv in E as [E|E]; eauto. Qed.
  Lemma cl_context {A} (P : A -> Prop) c (p : parser C A) : cl P p -> cl P (context c p).
  Proof. intros Hp s r a Hs E. apply context_inv in E. eauto. Qed.
  Lemma cl_cut {A} (P : A -> Prop) (p : parser C A) : cl P p -> cl P (cut p).
  Proof. intros Hp s r a Hs E. apply cut_inv in E. eauto. Qed.
  Lemma cl_verify {A} (P : A -> Prop) f (p : parser C A) : cl P p -> cl P (verify p f).
  Proof. intros Hp s r a Hs E. apply verify_inv in E as [E _]. eauto. Qed.
  Lemma cl_peek {A} (P : A -> Prop) (p : parser C A) : cl P p -> cl P (peek p).
  Proof.
    intros Hp s r a Hs E. unfold peek in E. destruct (p s) eqn:K; try easy. injection E as <- <-.
    destruct (Hp _ _ _ Hs K). easy.
  Qed.
  Lemma cl_tag t : cl any (@tag C t).
  Proof. intros s r a Hs E. apply tag_inv in E as [-> _]. rewrite clean_app, andb_true_iff in Hs. now split. Qed.
  Lemma cl_comma : cl any (@comma C).
  Proof. apply cl_tag. Qed.
  Lemma cl_eof : cl any (@eof C).
  Proof. intros s r a Hs E. now apply eof_inv in E as (_ & -> & _). Qed.
  Lemma cl_prest : cl (fun a => clean a = true) (@prest C).
  Proof. intros s r a Hs E. injection E as <- <-. easy. Qed.
  Lemma cl_take_while f : cl (fun a => clean a = true) (@take_while C f).
  Proof. intros s r a Hs E. apply take_while_inv in E as (-> & _ & _). rewrite clean_app, andb_true_iff in Hs. tauto. Qed.
  Lemma cl_map_res {A B E} (P : A -> Prop) (Q : B -> Prop) (p : parser C A) (f : A -> res B E) :
    cl P p -> (forall a b, P a -> f a = ROk b -> Q b) -> cl Q (map_res p f).
  Proof. intros Hp Hf s r b Hs K. apply map_res_inv in K as (a & K1 & K2). destruct (Hp _ _ _ Hs K1). eauto. Qed.
  Lemma cl_map_opt {A B} (P : A -> Prop) (p : parser C A) (f : A -> option B) : cl P p -> cl any (map_opt p f).
  Proof.
    intros Hp s r b Hs K. unfold map_opt in K. destruct (p s) eqn:K1; try easy. destruct (f a); [|easy].
    injection K as <- <-. destruct (Hp _ _ _ Hs K1). easy.
  Qed.
  Lemma cl_map_run {A B} (P : A -> Prop) (Q : B -> Prop) (p : parser C A) (f : A -> run B) :
    cl P p -> (forall a b, P a -> f a = ROk b -> Q b) -> cl Q (map_run p f).
  Proof.
    intros Hp Hf s r b Hs K. unfold map_run in K. destruct (p s) eqn:K1; try easy. destruct (f a) as [b'|[]|] eqn:K2; [|easy].
    injection K as <- <-. destruct (Hp _ _ _ Hs K1). eauto.
  Qed.
  Lemma cl_many0 {A} (P : A -> Prop) (p : parser C A) : cl P p -> cl (Forall P) (many0 p).
  Proof.
    intros Hp s r l Hs K. apply many0_chain in K. induction K as [|s s' r a l K1 K2 IH]; [split; [easy|constructor]|].
    destruct (Hp _ _ _ Hs K1) as [H1 H2]. destruct (IH H1). split; [easy|now constructor].
  Qed.
  Lemma cl_comma_field : cl (fun a => clean a = true /\ no_comma a = true) (@comma_field C).
  Proof.
    intros s r a Hs E. destruct (cl_take_while _ _ _ _ Hs E) as [H1 H2]. apply comma_field_inv in E. now decompose [and] E.
  Qed.
  Lemma cl_field {A E} (Q : A -> Prop) (f : str -> res A E) :
    (forall a b, clean a = true -> no_comma a = true -> f a = ROk b -> Q b) -> cl Q (@comma_field_type C A E f).
  Proof. intros H. eapply cl_map_res; [apply cl_comma_field|]. intros a b [H1 H2]. now apply H. Qed.
  Lemma cl_vfield {A E} (Q : A -> Prop) (f : str -> res (option A) E) :
    (forall a b, clean a = true -> no_comma a = true -> f a = ROk (Some b) -> Q b) -> cl Q (@comma_field_versioned_type C A E f).
  Proof. intros H. eapply cl_map_res; [apply cl_comma_field|]. intros a b [H1 H2] K. apply v_unwrap_inv in K. exact (H _ _ H1 H2 K). Qed.
  Lemma cl_rest {A E} (Q : A -> Prop) (f : str -> res A E) :
    (forall a b, clean a = true -> f a = ROk b -> Q b) -> cl Q (@consume_rest_type C A E f).
  Proof. intros H. eapply cl_map_res; [apply cl_prest|]. easy. Qed.
  Lemma cl_vrest {A E} (Q : A -> Prop) (f : str -> res (option A) E) :
    (forall a b, clean a = true -> f a = ROk (Some b) -> Q b) -> cl Q (@consume_rest_versioned_type C A E f).
  Proof. intros H. eapply cl_map_res; [apply cl_prest|]. intros a b H1 K. apply v_unwrap_inv in K. exact (H _ _ H1 K). Qed.
  (** decimals *)
  Definition dec_clean (d : decimal) : Prop := wf_decimal d = true /\ clean (print_decimal d) = true.
  Definition dec_fld (d : decimal) : Prop := dec_clean d /\ cmd_dec d = true.
  Lemma decimal_clean a : clean a = true -> dec_clean (decimal_of_str a).
  Proof.
    intros H. split; [apply decimal_of_str_wf|]. unfold decimal_of_str. destruct (parse_rdec a); [apply clean_rdec|exact H].
  Qed.
  Lemma cl_dec : cl dec_fld (@comma_field_type C _ _ (@parse_decimal unit)).
  Proof.
    apply cl_field. intros a b H1 H2 [= <-]. pose proof (decimal_clean a H1) as [K1 K2]. split; [easy|]. unfold cmd_dec. rewrite K1.
    unfold decimal_of_str. destruct (parse_rdec a) as [d|]; [|easy]. cbn.
    pose proof (print_rdec_field d) as F. unfold field_text in F. now apply andb_true_iff in F.
  Qed.
  Lemma cl_dec_rest : cl dec_clean (@consume_rest_type C _ _ (@parse_decimal unit)).
  Proof. apply cl_rest. intros a b H [= <-]. now apply decimal_clean. Qed.
  Lemma cl_any_field {A E} (f : str -> res A E) : cl any (@comma_field_type C A E f).
  Proof. apply cl_field. easy. Qed.
  Lemma cl_any_vfield {A E} (f : str -> res (option A) E) : cl any (@comma_field_versioned_type C A E f).
  Proof. apply cl_vfield. easy. Qed.
  Lemma cl_any_rest {A E} (f : str -> res A E) : cl any (@consume_rest_type C A E f).
  Proof. apply cl_rest. easy. Qed.
  Lemma cl_any {A} (P : A -> Prop) (p : parser C A) : cl P p -> cl any p.
  Proof. now apply cl_weaken. Qed.
  Lemma cl_any_pair {A B} (p : parser C A) (q : parser C B) : cl any p -> cl any q -> cl any (pair p q).
  Proof. intros H1 H2. eapply cl_any, cl_pair; eauto. Qed.
  Lemma cl_any_pmap {A B} (f : A -> B) (p : parser C A) : cl any p -> cl any (pmap f p).
  Proof. intros H. eapply cl_pmap; [exact H|easy]. Qed.
  Lemma cl_any_pbind {A B} (p : parser C A) (f : A -> parser C B) : cl any p -> (forall a, cl any (f a)) -> cl any (pbind p f).
  Proof. intros H K. eapply cl_pbind; eauto. Qed.
  Lemma cl_any_prest : cl any (@prest C).
  Proof. eapply cl_any, cl_prest. Qed.
  Lemma cl_any_comma_field : cl any (@comma_field C).
  Proof. eapply cl_any, cl_comma_field. Qed.
  Lemma cl_any_map_res {A B E} (p : parser C A) (f : A -> res B E) : cl any p -> cl any (map_res p f).
  Proof. intros H. eapply cl_map_res; [exact H|easy]. Qed.
End C.
Ltac cla := repeat (first [apply cl_comma | apply cl_tag | apply cl_eof | apply cl_any_prest | apply cl_any_comma_field
  | apply cl_any_field | apply cl_any_vfield | apply cl_any_rest
  | apply cl_context | apply cl_cut | apply cl_verify | apply cl_peek | apply cl_alt | apply cl_preceded
  | apply cl_any_pair | apply cl_any_pmap | apply cl_any_map_res | apply cl_map_opt with (P := any)]).

(** ** commands *)
Lemma cl_easing_times : cl any c_easing_times.
Proof. unfold c_easing_times, c_easing, c_start_time, c_end_time. cla. Qed.
Lemma cl_c_field {A} (P : A -> Prop) m i (p : cp A) : cl P p -> cl P (c_field m i p).
Proof. intros H. apply cl_preceded; [apply cl_context, cl_comma|now apply cl_context]. Qed.
Lemma decs_lines l : Forall dec_clean l -> dec_lines l = true.
Proof.
  intros H. unfold dec_lines. apply andb_true_iff. rewrite Forall_forall in H. split.
  - apply forallb_forall. intros d Hd. destruct (H d Hd) as [_ K]. destruct d as [d|s]; [easy|]. now apply clean_no_nl in K.
  - destruct (rev l) as [|d t] eqn:E; [easy|]. apply clean_no_cr. apply H. apply in_rev. rewrite E. now left.
Qed.
Definition one_line_cmd (c : command) : Prop := cmd_one_line c = true.
Lemma cl_one h m i ic : cl (fun x => dec_lines (snd (fst x) :: snd x) = true) (c_one h m i ic).
Proof.
  unfold c_one. apply cl_preceded; [apply cl_tag|]. apply cl_cut. eapply cl_pbind; [apply cl_easing_times|]. intros t _.
  eapply cl_pbind; [apply cl_c_field, cl_dec|]. intros x Hx. eapply cl_pmap.
  - apply cl_terminated; [|cla]. apply cl_many0. apply cl_preceded; [apply cl_comma|apply cl_dec].
  - cbn. intros l Hl. apply decs_lines. constructor; [apply Hx|]. eapply Forall_impl; [|exact Hl]. now intros d [K _].
Qed.
Lemma cl_two m1 i1 m2 i2 ic :
  cl (fun x => dec_lines (fst (ct_start (snd x)) :: snd (ct_start (snd x)) :: concat (map pair_decs (ct_rest (snd x)))) = true)
     (c_two_body m1 i1 m2 i2 ic).
Proof.
  unfold c_two_body. apply cl_cut. eapply cl_pbind; [apply cl_easing_times|]. intros t _.
  eapply cl_pbind; [apply cl_c_field, cl_dec|]. intros x Hx. eapply cl_pbind; [apply cl_c_field, cl_dec|]. intros y Hy.
  eapply cl_pmap.
  - apply cl_terminated; [|cla]. apply cl_many0. apply cl_preceded; [apply cl_comma|].
    apply cl_pair with (Q := fun o => match o with Some d => dec_fld d | None => True end); [apply cl_dec|].
    apply cl_alt; [eapply cl_pmap; [apply cl_eof|easy]|]. apply cl_cut. eapply cl_pmap; [|].
    + apply cl_preceded; [apply cl_comma|apply cl_dec].
    + easy.
  - cbn. intros l Hl. apply decs_lines. constructor; [apply Hx|]. constructor; [apply Hy|].
    induction Hl as [|[a b] l [H1 H2] Hl IH]; [constructor|]. cbn [map concat]. apply Forall_app. split; [|exact IH].
    cbn [fst snd] in *. unfold pair_decs. cbn [fst snd]. constructor; [apply H1|]. destruct b; constructor; [apply H2|constructor].
Qed.
Lemma cl_cmd : cl one_line_cmd cmd_parser.
Proof.
  unfold cmd_parser, one_line_cmd. apply cl_preceded; [eapply cl_any, cl_take_while|].
  assert (O : forall h m i ic (f : easing * (option Z * option Z) * decimal * list decimal -> command),
     (forall x, dec_lines (snd (fst x) :: snd x) = true -> cmd_one_line (f x) = true) ->
     cl (fun c => cmd_one_line c = true) (pmap f (c_one h m i ic))).
  { intros h m i ic f Hf. eapply cl_pmap; [apply cl_one|]. exact Hf. }
  apply cl_alt.
  { eapply cl_pmap; [apply cl_preceded; [|apply cl_two]; cla|]. intros [[e [st et]] x] H. exact H. }
  apply cl_alt. { apply O. intros [[[e [st et]] x] l] H. exact H. }
  apply cl_alt. { apply O. intros [[[e [st et]] x] l] H. exact H. }
  apply cl_alt.
  { eapply cl_pmap; [apply cl_preceded; [|apply cl_two]; cla|]. intros [[e [st et]] x] H. exact H. }
  apply cl_alt. { apply O. intros [[[e [st et]] x] l] H. exact H. }
  apply cl_alt.
  { unfold c_parameter. apply cl_preceded; [cla|]. apply cl_cut. eapply cl_pbind; [apply cl_easing_times|]. intros [e [st et]] _.
    eapply cl_pbind; [apply cl_c_field, cl_any_vfield|]. intros p _. eapply cl_pmap.
    - apply cl_terminated; [|cla]. apply cl_many0. apply cl_preceded; [cla|apply cl_any_vfield].
    - easy. }
  apply cl_alt. { apply O. intros [[[e [st et]] x] l] H. exact H. }
  apply cl_alt.
  { unfold c_colour. apply cl_preceded; [cla|]. apply cl_cut. eapply cl_pbind; [apply cl_easing_times|]. intros [e [st et]] _.
    do 3 (eapply cl_pbind; [apply cl_c_field, cl_any_field|intros ? _]). eapply cl_pmap.
    - apply cl_terminated; [|cla]. apply cl_many0. apply cl_preceded; [cla|].
      apply cl_any_pbind; [apply cl_any_field|]. intros. apply cl_any_pbind.
      + unfold c_cont_colour. cla.
      + intros. unfold c_cont_colour. cla.
    - easy. }
  apply cl_alt. { apply O. intros [[[e [st et]] x] l] H. exact H. }
  apply cl_alt.
  { unfold c_trigger. eapply cl_pmap.
    - apply cl_preceded; [cla|]. apply cl_cut. apply cl_any_pair; [cla|]. apply cl_any_pair; [unfold c_start_time; cla|].
      unfold c_trigger_all, c_trigger_group, c_trigger_nothing, c_trigger_end. apply cl_alt; [|cla].
      apply cl_any_pbind; [cla|]. intros. cla.
    - now intros [t [st [e g]]] _. }
  apply cl_alt.
  { unfold c_loop. eapply cl_pmap.
    - apply cl_preceded; [cla|]. apply cl_cut. unfold c_start_time, c_field. cla.
    - now intros [st n] _. }
  intros s r a _ H. discriminate.
Qed.
Lemma cmd_read s c : clean s = true -> cmd_from_str s = ROk (Some c) -> tree_ok c = true.
Proof.
  intros Hs H. pose proof (cmd_image _ _ H) as [H1 H2]. unfold cmd_from_str in H.
  destruct (cmd_parser s) as [r c'|e|e|x] eqn:E; try (cbn in H; now destruct (e_ctx e)); [|easy]. injection H as ->.
  apply cl_cmd in E as [_ E]; [|easy]. unfold one_line_cmd in E.
  destruct c as [st p]. destruct p; cbn [tree_ok]; rewrite H1, E; try easy; unfold bare in H2; cbn in H2; injection H2 as <-; easy.
Qed.

(** ** the own line *)
Lemma quoted_print p : quoted p = print_file_path p.
Proof. reflexivity. Qed.
Lemma quoted_clean p : clean p = true -> clean (quoted p) = true.
Proof. intros H. unfold quoted. destruct (_ && _); [|easy]. now rewrite !clean_app, H. Qed.
Lemma quoted_ok p : clean p = true -> no_comma p = true -> path_ok (quoted p) = true.
Proof.
  intros H1 H2. pose proof (clean_no_nl _ (quoted_clean p H1)) as Hn. unfold path_ok. rewrite Hn.
  unfold quoted. destruct (contains_char 32 p && negb (starts_with_char 34 p && ends_with_char 34 p)) eqn:E.
  - rewrite !no_comma_app, H2. cbn [no_comma forallb andb negb].
    change ([34] ++ p ++ [34]) with (([34] ++ p) ++ [34]). rewrite ends_with_char_snoc. cbn. now rewrite !orb_true_r.
  - rewrite H2. cbn [andb]. destruct (contains_char 32 p); [|easy]. cbn in E. now apply negb_false_iff in E.
Qed.
Lemma quoted_end_ok p b : clean p = true -> no_comma p = true -> path_end_ok (quoted p) b = true.
Proof.
  intros H1 H2. unfold path_end_ok. rewrite quoted_ok by easy. rewrite (clean_no_cr _ (quoted_clean p H1)). now rewrite orb_true_r.
Qed.
Lemma time_in_ok dbg v a t : dbg = true \/ old_version v = false -> in_i32 a = true -> time_in dbg v a = ROk t -> time_ok v t = true.
Proof.
  unfold time_in, time_ok, shown_time. rewrite old_shown. intros Hd Ha.
  destruct ((v =? 3) || (v =? 4))%Z.
  - destruct Hd as [->|]; [|easy]. unfold i32_add, i32_arith. destruct (in_i32 (a + 24)) eqn:E; [|easy]. intros [= <-].
    rewrite E. now replace (a + 24 - 24)%Z with a by lia.
  - intros [= <-]. now rewrite Ha.
Qed.
(** [times_fit dbg v w]: what is read as a time in version [v] is fit for version [w] *)
Definition times_fit (dbg : bool) (v w : version) : Prop :=
  forall a t, in_i32 a = true -> time_in dbg v a = ROk t -> time_ok w t = true.
Lemma times_fit_own dbg v : dbg = true \/ old_version v = false -> times_fit dbg v v.
Proof. intros Hd a t. now apply time_in_ok. Qed.
Lemma wrap_in z : in_i32 (wrap_i32 z) = true.
Proof.
  unfold in_i32, wrap_i32, i32_min, i32_max. pose proof (Z.mod_pos_bound (z - -2147483648) 4294967296 ltac:(lia)). apply andb_true_iff. rewrite !Z.leb_le. lia.
Qed.
Lemma times_fit_new dbg v : times_fit dbg v 5%Z.
Proof.
  intros a t Ha. unfold time_in, time_ok, shown_time. cbn [Z.eqb orb Pos.eqb]. rewrite andb_diag. destruct (old_version v); [|now intros [= <-]].
  unfold i32_add, i32_arith. destruct (in_i32 (a + 24)) eqn:E; [now intros [= <-]|]. destruct dbg; [easy|]. intros [= <-]. apply wrap_in.
Qed.
Lemma dec_clean_line d : dec_clean d -> dec_line d = true /\ no_cr_end (print_decimal d) = true.
Proof.
  intros [H1 H2]. unfold dec_line. rewrite H1. split; [|now apply clean_no_cr]. destruct d; [easy|]. now apply clean_no_nl in H2.
Qed.
Lemma dec_fld_obj d : dec_fld d -> obj_dec d = true.
Proof. intros [H1 H2]. unfold obj_dec. rewrite H2. apply dec_clean_line in H1 as [H1 _]. now apply andb_true_iff in H1. Qed.

Section S.
  Context {C : Type}.
  Lemma cl_fnp (mx ix my iy : C) :
    cl (fun x => clean (fst x) = true /\ no_comma (fst x) = true /\ opt_position_ok (snd x) = true)
       (file_name_and_position mx ix my iy).
  Proof.
    unfold file_name_and_position. eapply cl_weaken; [|apply cl_pair with (Q := fun p => opt_position_ok p = true);
      [apply cl_comma_field|]]; [cbn; intros x H; decompose [and] H; now repeat split|].
    apply cl_alt; [eapply cl_pmap; [apply cl_eof|easy]|]. eapply cl_pmap.
    - apply cl_pair; (apply cl_preceded; [cla|]); apply cl_context; [apply cl_dec|apply cl_dec_rest].
    - intros [x y] [[H1 H2] H3]. cbn [fst snd] in *. cbn [opt_position_ok pos_x pos_y].
      destruct (dec_clean_line _ H1) as [K1 _], (dec_clean_line _ H3) as [K3 K4]. now rewrite H2, K1, K3, K4.
  Qed.
  Lemma cl_i32 : cl (fun z => in_i32 z = true) (@comma_field_type C _ _ parse_i32).
  Proof. apply cl_field. intros a b _ _ H. now apply parse_i32_range in H. Qed.
  Lemma cl_start dbg v w (i : C) : times_fit dbg v w ->
    cl (fun t => time_ok w t = true) (start_time_offset dbg v i).
  Proof.
    intros Hd. apply cl_context. eapply cl_map_run; [apply cl_i32|]. intros a b Ha. now apply Hd.
  Qed.
  Lemma cl_end dbg v w (i : C) : times_fit dbg v w ->
    cl (fun t => time_ok w t = true) (end_time_rest dbg v i).
  Proof.
    intros Hd. apply cl_context. eapply cl_map_run.
    - apply cl_rest with (Q := fun z => in_i32 z = true). intros a b _ H. now apply parse_i32_range in H.
    - intros a b Ha. now apply Hd.
  Qed.
End S.
(** [e] was read from one line *)
Definition read_own (v : version) (e : event) : Prop :=
  commands_of e = [] /\ (in_version v e = true -> own_ok v (written_event e) = true).
Lemma cl_bg v : cl (fun x => read_own v (EBackground x)) bg_parser.
Proof.
  unfold bg_parser. apply cl_preceded; [cla|]. eapply cl_pmap.
  - apply cl_pair; [apply cl_context, cl_i32|]. apply cl_preceded; [cla|]. apply cl_fnp.
  - intros [t [f p]] (H1 & H2 & H3 & H4). cbn [fst snd] in *. split; [easy|]. intros _. cbn. now rewrite H1, quoted_end_ok, H4.
Qed.
Lemma cl_vid dbg v w : times_fit dbg v w -> cl (fun x => read_own w (EVideo x)) (vid_parser dbg v).
Proof.
  intros Hd. unfold vid_parser. eapply cl_pbind with (P := any); [cla|]. intros sh _.
  eapply cl_pbind; [apply cl_preceded; [cla|]; now apply cl_start with (w := w)|]. intros t Ht. eapply cl_pmap.
  - apply cl_preceded; [cla|]. apply cl_fnp.
  - intros [f p] (H2 & H3 & H4). cbn [fst snd] in *. split; [easy|]. intros _. cbn. now rewrite Ht, quoted_end_ok, H4.
Qed.
Lemma cl_brk dbg v w : times_fit dbg v w -> cl (fun x => read_own w (EBreak x)) (brk_parser dbg v).
Proof.
  intros Hd. unfold brk_parser. eapply cl_pbind with (P := any); [cla|]. intros sh _.
  eapply cl_pbind; [apply cl_preceded; [cla|]; now apply cl_start with (w := w)|]. intros t Ht. eapply cl_pmap.
  - apply cl_preceded; [cla|]. now apply cl_end with (w := w).
  - intros e He. split; [easy|]. intros _. cbn. now rewrite Ht, He.
Qed.
Lemma cl_ctr dbg v w : times_fit dbg v w ->
  cl (fun x => read_own w (EColourTransformation x)) (ctr_parser dbg v).
Proof.
  intros Hd. unfold ctr_parser.
  assert (U : forall C, cl (fun z => in_u8 z = true) (@comma_field_type C _ _ parse_u8)).
  { intros C. apply cl_field. intros a b _ _ H. now apply parse_u8_range in H. }
  eapply cl_pbind; [apply cl_preceded; [cla|]; now apply cl_start with (w := w)|]. intros t Ht.
  eapply cl_pbind; [apply cl_preceded; [cla|]; apply cl_context, U|]. intros r Hr.
  eapply cl_pbind; [apply cl_preceded; [cla|]; apply cl_context, U|]. intros g Hg. eapply cl_pmap.
  - apply cl_preceded; [cla|]. apply cl_context. apply cl_rest with (Q := fun z => in_u8 z = true).
    intros a b _ H. now apply parse_u8_range in H.
  - intros b Hb. split; [easy|]. intros Hv. cbn in *. now rewrite Hv, Ht, Hr, Hg, Hb.
Qed.
Lemma cl_leg v h (k : legacy -> event) : k = ESpriteLegacy \/ k = EAnimationLegacy -> cl (fun x => read_own v (k x)) (leg_parser h).
Proof.
  intros Hk. unfold leg_parser. apply cl_preceded; [cla|]. eapply cl_pbind with (P := any); [cla|]. intros l _.
  eapply cl_pbind with (P := any); [cla|]. intros o _. eapply cl_pmap.
  - apply cl_preceded; [cla|]. apply cl_fnp.
  - intros [f p] (H2 & H3 & H4). cbn [fst snd] in *. destruct Hk as [-> | ->]; (split; [easy|]); intros _; cbn; now rewrite quoted_end_ok, H4.
Qed.
Lemma volume_range s z : au_volume_from_str s = ROk (Some z) -> volume_ok z = true.
Proof.
  unfold au_volume_from_str. destruct (parse_u8 s) as [y| |] eqn:E; try easy. apply parse_u8_range in E.
  unfold au_volume_of_Z. destruct (Z.ltb_spec 100 y); [easy|]. intros [= <-]. unfold in_u8 in E. apply andb_true_iff in E as [E _].
  unfold volume_ok. rewrite E. now apply Z.leb_le.
Qed.
Lemma cl_sl v : cl (fun x => read_own v (ESampleLegacy x)) sl_parser.
Proof.
  unfold sl_parser. apply cl_preceded; [cla|]. eapply cl_pbind; [apply cl_context, cl_dec|]. intros t Ht.
  eapply cl_pbind with (P := any); [cla|]. intros l _.
  eapply cl_pbind; [apply cl_preceded; [cla|]; apply cl_comma_field|]. intros f [H2 H3]. eapply cl_pmap.
  - apply cl_alt with (P := fun o => opt_ok volume_ok o = true); [eapply cl_pmap; [apply cl_eof|easy]|].
    eapply cl_pmap; [apply cl_preceded; [cla|]; apply cl_context, cl_vrest with (Q := fun z => volume_ok z = true)|easy].
    intros a b _. apply volume_range.
  - intros vol Hv. split; [easy|]. intros _. cbn. now rewrite dec_fld_obj, quoted_end_ok, Hv.
Qed.
Lemma cl_au v : cl (fun x => read_own v (EAudioSample x)) au_parser.
Proof.
  unfold au_parser. eapply cl_pbind; [apply cl_preceded; [cla|]; apply cl_context, cl_i32|]. intros t Ht.
  eapply cl_pbind with (P := any); [cla|]. intros l _.
  eapply cl_pbind; [apply cl_preceded; [cla|]; apply cl_comma_field|]. intros f [H2 H3]. eapply cl_pmap.
  - apply cl_alt with (P := fun z => volume_ok z = true); [eapply cl_pmap; [apply cl_eof|easy]|].
    apply cl_preceded; [cla|]. apply cl_context, cl_vfield. intros a b _ _. apply volume_range.
  - intros vol Hv. split; [easy|]. intros _. cbn. now rewrite Ht, quoted_ok, Hv.
Qed.
Lemma origin_range s o : origin_from_str s = ROk (Some o) -> origin_ok o = true.
Proof.
  unfold origin_from_str. destruct (origin_of_name s); [now intros [= <-]|].
  destruct (parse_i32 s) as [z| |] eqn:E; try easy. apply parse_i32_range in E. cbn. intros [= <-].
  unfold origin_ok. cbn [or_type or_short]. destruct (origin_type_of_Z z) eqn:K; [easy|]. rewrite E. cbn.
  destruct z as [|p|p]; try easy. do 4 (destruct p as [p|p|]; try easy).
Qed.
Lemma cl_common : cl (fun x => origin_ok (fst (snd x)) = true /\ clean (fst (snd (snd x))) = true
    /\ no_comma (fst (snd (snd x))) = true /\ dec_fld (pos_x (snd (snd (snd x)))) /\ dec_fld (pos_y (snd (snd (snd x))))) ob_common.
Proof.
  unfold ob_common. eapply cl_weaken; [|apply cl_pair with (P := any); [cla|];
    apply cl_pair with (P := fun o => origin_ok o = true); [apply cl_preceded; [cla|]; apply cl_context, cl_vfield; intros a b _ _; apply origin_range|];
    apply cl_pair; [apply cl_preceded; [cla|apply cl_comma_field]|];
    apply cl_pmap with (Q := fun p => dec_fld (pos_x p) /\ dec_fld (pos_y p)) (P := fun x => dec_fld (fst x) /\ dec_fld (snd x));
      [apply cl_pair; (apply cl_preceded; [cla|]); apply cl_context, cl_dec|]].
  - cbn. intros x H. destruct H as (_ & H1 & (H2 & H3) & H4). tauto.
  - now intros [x y].
Qed.
Lemma rdec_read s d : parse_rdec_res s = ROk d -> wf_rdec d = true.
Proof. unfold parse_rdec_res. destruct (parse_rdec s) eqn:E; [|easy]. intros [= <-]. now apply parse_rdec_wf in E. Qed.
Lemma cl_ob v : cl (fun x => read_own v (EObject x)) ob_parser.
Proof.
  unfold ob_parser. apply cl_alt; [|apply cl_alt].
  - apply cl_preceded; [cla|]. eapply cl_pmap; [apply cl_cut, cl_common|].
    intros [l [o [f p]]] (H1 & H2 & H3 & H4 & H5). cbn [fst snd] in *. split; [easy|]. intros _. cbn. unfold object_ok. cbn.
    destruct H5 as [H5 H6]. pose proof (dec_clean_line _ H5) as [_ H7]. rewrite H1, H7, quoted_ok by easy.
    rewrite !dec_fld_obj by easy. easy.
  - eapply cl_pmap.
    + apply cl_preceded; [cla|]. apply cl_cut. apply cl_pair; [apply cl_common|].
      apply cl_pair with (P := fun n => in_u32 n = true).
      * apply cl_preceded; [cla|]. apply cl_context, cl_field. intros a b _ _ H. now apply parse_u32_range in H.
      * apply cl_pair with (P := fun d => wf_rdec d = true) (Q := any).
        -- apply cl_preceded; [cla|]. apply cl_context, cl_field. intros a b _ _ H. now apply rdec_read in H.
        -- unfold ob_loop. apply cl_alt; [apply cl_preceded; [cla|]; apply cl_context, cl_vrest; easy|].
           apply cl_any_pmap. unfold nothing. apply cl_preceded; [eapply cl_any, cl_take_while|apply cl_eof].
    + intros [[l [o [f p]]] [n [d lt]]] [(H1 & H2 & H3 & H4 & H5) (H6 & H7 & _)]. cbn [fst snd] in *.
      split; [easy|]. intros _. cbn. unfold object_ok. cbn. now rewrite H1, !dec_fld_obj, quoted_ok, H6, H7.
  - intros s r a _ H. discriminate.
Qed.
Lemma vee_inv {C A} (p : parser C A) s a : rmap Some (verbose_error_to_error (p s)) = ROk (Some a) -> exists r, p s = POk r a.
Proof.
  destruct (p s) as [r x|e|e|x]; cbn; try (destruct (e_ctx e)); try easy. intros [= ->]. eauto.
Qed.
Lemma rmap2_inv {A B E F} (f : A -> B) (g : E -> F) r b : rmap2 f g r = ROk (Some b) -> exists a, r = ROk (Some a) /\ b = f a.
Proof. destruct r as [[a|]| |]; cbn; try easy. intros [= <-]. eauto. Qed.
Lemma line_read dbg v w s e : times_fit dbg v w -> clean s = true ->
  ev_from_line dbg v s = ROk (Some e) -> read_own w e.
Proof.
  intros Hd Hs. unfold ev_from_line.
  assert (K : forall C A (p : parser C A) f (P : event -> Prop) x, cl (fun a => P (f a)) p -> (exists r, p s = POk r x) -> P (f x)).
  { intros C A p f P x Hp [r E]. now apply Hp in E. }
  destruct (ev_kind_parser s) as [r k|e'|e'|p]; try easy. destruct k; intros H;
    try (apply rmap2_inv in H as (x & H & ->); apply vee_inv in H).
  - exact (K _ _ _ EBackground (read_own w) _ (cl_bg w) H).
  - exact (K _ _ _ EVideo (read_own w) _ (cl_vid dbg v w Hd) H).
  - exact (K _ _ _ EBreak (read_own w) _ (cl_brk dbg v w Hd) H).
  - exact (K _ _ _ EColourTransformation (read_own w) _ (cl_ctr dbg v w Hd) H).
  - exact (K _ _ _ ESpriteLegacy (read_own w) _ (cl_leg w _ ESpriteLegacy (or_introl eq_refl)) H).
  - exact (K _ _ _ EAnimationLegacy (read_own w) _ (cl_leg w _ EAnimationLegacy (or_intror eq_refl)) H).
  - exact (K _ _ _ ESampleLegacy (read_own w) _ (cl_sl w) H).
  - destruct (ob_from_str s) as [[o|]|er|] eqn:E; try easy.
    + injection H as <-. apply vee_inv in E. exact (K _ _ _ EObject (read_own w) _ (cl_ob w) E).
    + destruct er; try easy. destruct (rmap2 EAudioSample EvAudioSample (au_from_str s)) as [[a|]|er2|] eqn:E2; try easy.
      * injection H as <-. apply rmap2_inv in E2 as (x & H & ->). unfold au_from_str in H. destruct s; [easy|].
        apply vee_inv in H. exact (K _ _ _ EAudioSample (read_own w) _ (cl_au w) H).
      * destruct er2; try easy. now destruct e0.
Qed.

(** ** the loop *)
Definition read_event (v : version) (e : event) : Prop :=
  forallb tree_ok (commands_of e) = true /\ (in_version v e = true -> own_ok v (written_event e) = true).
Lemma tree_ok_eq c : tree_ok c = cmd_ok c && cmd_one_line c && forallb tree_ok (body c).
Proof. destruct c as [s p]. destruct p; reflexivity. Qed.
Lemma pushed_tree cs c n cs' : pushed cs c n cs' -> forallb tree_ok cs = true -> tree_ok c = true -> forallb tree_ok cs' = true.
Proof.
  intros H. induction H as [cs c|l k b c n b' Hk H IH]; intros H1 H2.
  - rewrite forallb_app, H1. cbn. now rewrite H2.
  - rewrite forallb_app in *. apply andb_true_iff in H1 as [H1 H3]. rewrite H1. cbn in *. rewrite andb_true_r in *.
    rewrite tree_ok_eq in H3. rewrite !andb_true_iff in H3. destruct H3 as [[H3 H4] H5].
    unfold body in H5. rewrite Hk in H5. rewrite tree_ok_eq.
    assert (E : cmd_ok (cmd_set_subs b' k) = cmd_ok k /\ cmd_one_line (cmd_set_subs b' k) = cmd_one_line k) by (destruct k as [s p]; now destruct p).
    destruct E as [-> ->]. unfold body. rewrite (set_subs_subs k b b' Hk), H3, H4. now apply IH.
Qed.
Lemma written_cmds e : commands_of (written_event e) = commands_of e.
Proof. now destruct e. Qed.
Lemma set_cmds_own v cs e : own_ok v (written_event (ev_set_cmds cs e)) = own_ok v (written_event e)
  /\ in_version v (ev_set_cmds cs e) = in_version v e.
Proof. now destruct e. Qed.
Lemma commands_set cs e x : ev_cmds e = Some x -> commands_of (ev_set_cmds cs e) = cs /\ commands_of e = x.
Proof. destruct e; cbn; intros [= <-]; easy. Qed.
Lemma expand_nil line tail : expand_vars [] tail line = line.
Proof. reflexivity. Qed.
Lemma step_read dbg v w evs s evs' : times_fit dbg v w -> clean s = true ->
  Forall (read_event w) evs -> ev_step dbg v [] evs s = ROk evs' -> Forall (read_event w) evs'.
Proof.
  intros Hd Hs H. unfold ev_step. destruct (strip_prefix (lit "//") s) as [c|] eqn:E.
  - intros [= <-]. apply Forall_app. split; [easy|]. constructor; [|constructor]. split; [easy|]. intros _.
    apply strip_prefix_spec in E. subst s. rewrite clean_app, andb_true_iff in Hs. destruct Hs as [_ Hs].
    cbn. unfold one_line. now rewrite clean_no_nl, clean_no_cr.
  - destruct (Nat.ltb 0 (indent_of s)).
    + destruct (last_opt_cases evs) as [[-> ->]|(l & e & -> & ->)]; [easy|]. destruct (ev_cmds e) as [cs|] eqn:Ec; [|easy].
      destruct (cmd_parse [] s) as [[c|]|er|] eqn:Ep; cbn [rmap_err rbind]; try easy; [|now intros [= <-]].
      destruct (try_push_cmd cs c (indent_of s)) as [cs'| |] eqn:Et; try easy. cbn [rmap_err rmap]. intros [= <-].
      rewrite set_last_snoc. apply Forall_app in H as [H1 H2]. apply Forall_app. split; [easy|]. constructor; [|constructor].
      inversion H2 as [|? ? [K1 K2] _]; subst. destruct (commands_set cs' e cs Ec) as [C1 C2].
      destruct (set_cmds_own w cs' e) as [S1 S2]. split; [rewrite C1|now rewrite S1, S2].
      apply try_push_iff in Et. eapply pushed_tree; [exact Et|now rewrite C2 in K1|].
      unfold cmd_parse in Ep. destruct (line_without_header s); try easy. cbn [rbind expand_vars] in Ep. now apply cmd_read in Ep.
    + destruct (ev_from_line dbg v s) as [[e|]| |] eqn:El; cbn [rmap]; try easy; [|now intros [= <-]]. intros [= <-].
      apply Forall_app. split; [easy|]. constructor; [|constructor]. apply (line_read dbg v w) in El as [K1 K2]; [|easy|easy].
      split; [now rewrite K1|easy].
Qed.
Lemma loop_read dbg v w ls : times_fit dbg v w -> forallb clean ls = true -> forall i evs l,
  Forall (read_event w) evs -> ev_loop dbg v [] i evs ls = ROk l -> Forall (read_event w) l.
Proof.
  intros Hd. induction ls as [|s ls IH]; intros Hs i evs l H; cbn [ev_loop]; [now intros [= <-]|].
  cbn [forallb] in Hs. apply andb_true_iff in Hs as [H1 H2]. destruct (is_blank s); [now apply IH|].
  destruct (ev_step dbg v [] evs s) as [evs'| |] eqn:E; try easy. apply IH; [easy|]. now apply (step_read dbg v w) in E.
Qed.
Lemma lines_clean s : forallb no_cr (lines s) = true -> forallb clean (lines s) = true.
Proof.
  intros H. pose proof (lines_no_nl s) as Hn. rewrite forallb_forall in *. intros l Hl. specialize (H l Hl). specialize (Hn l Hl).
  unfold clean, no_cr, no_nl in *. rewrite forallb_forall in *. intros c Hc. now rewrite (H c Hc), (Hn c Hc).
Qed.
Lemma written_events_ok dbg s v l : dbg = true \/ old_version v = false -> forallb no_cr (lines s) = true ->
  events_from_str dbg s v = ROk (Some l) -> forallb (event_ok v) (written v l) = true.
Proof.
  intros Hd Hs H. unfold events_from_str, events_from_str_vars in H.
  destruct (ev_loop dbg v [] 0 [] (lines s)) as [l'| |] eqn:E; try easy. injection H as ->.
  apply (loop_read dbg v v) in E; [|now apply times_fit_own|now apply lines_clean|constructor]. unfold written. rewrite forallb_map.
  induction E as [|e l [K1 K2] E IH]; [easy|]. cbn [filter]. destruct (in_version v e) eqn:Hv; [|easy]. cbn [forallb].
  rewrite IH, andb_true_r. unfold event_ok. now rewrite written_cmds, K1, K2.
Qed.
(** printing a list is printing what is written of it *)
Lemma print_written dbg v vars e : in_version v e = true -> ev_to_string dbg v vars (written_event e) = ev_to_string dbg v vars e.
Proof.
  assert (Q : forall p, print_file_path (quoted p) = print_file_path p).
  { intros p. unfold quoted, print_file_path.
    destruct (contains_char 32 p && negb (starts_with_char 34 p && ends_with_char 34 p)) eqn:E; [|now rewrite E].
    change ([34] ++ p ++ [34]) with (([34] ++ p) ++ [34]). rewrite ends_with_char_snoc. cbn.
    now rewrite andb_false_r. }
  destruct e; cbn [written_event ev_to_string in_version]; intros _; try reflexivity.
  - unfold bg_to_string_cmd. cbn. now rewrite Q.
  - unfold vid_to_string_cmd. cbn. now rewrite Q.
  - unfold leg_to_string. cbn. now rewrite Q.
  - unfold leg_to_string. cbn. now rewrite Q.
  - unfold sl_to_string. cbn. now rewrite Q.
  - unfold ob_to_string_cmd. cbn. destruct (ob_type x); now rewrite Q.
  - unfold au_to_string. cbn. now rewrite Q.
Qed.
Lemma events_print_written dbg v vars l :
  events_to_string_vars dbg vars l v = events_to_string_vars dbg vars (written v l) v.
Proof.
  unfold events_to_string_vars, map_string_new_line, written.
  assert (K : rmap (@flatten_opt _) (TimingPoints.run_list (map (ev_to_string dbg v vars) l))
    = rmap (@flatten_opt _) (TimingPoints.run_list (map (ev_to_string dbg v vars) (map written_event (filter (in_version v) l))))).
  { induction l as [|e l IH]; [easy|]. cbn [map filter TimingPoints.run_list].
    destruct (in_version v e) eqn:Hv.
    - cbn [map TimingPoints.run_list]. rewrite print_written by easy. destruct (ev_to_string dbg v vars e) as [o| |]; cbn [rbind]; try easy.
      destruct (TimingPoints.run_list _), (TimingPoints.run_list _); cbn in *; try easy.
      all: injection IH as IH; unfold flatten_opt in *; cbn [flat_map]; now rewrite IH.
    - destruct e; try easy. cbn [ev_to_string]. unfold ctr_to_string. cbn in Hv. rewrite Hv. cbn [rbind].
      rewrite <- IH. destruct (TimingPoints.run_list _); easy. }
  destruct (TimingPoints.run_list (map (ev_to_string dbg v vars) l)), (TimingPoints.run_list (map _ (map _ _)));
    cbn in *; try easy.
  all: injection K as K; now rewrite K.
Qed.
Lemma events_reread dbg s v l : dbg = true \/ old_version v = false -> forallb no_cr (lines s) = true ->
  events_from_str dbg s v = ROk (Some l) ->
  exists t, events_to_string dbg l v = ROk (Some t) /\ events_from_str dbg t v = ROk (Some (written v l)).
Proof.
  intros Hd Hs H. pose proof (written_events_ok _ _ _ _ Hd Hs H) as K. apply events_round_trip with (dbg := dbg) in K as (t & K1 & K2).
  exists t. split; [|easy]. unfold events_to_string in *. now rewrite events_print_written.
Qed.
(** whatever the version, and whether or not the times have wrapped *)
Lemma read_events_new dbg s v l : forallb no_cr (lines s) = true ->
  events_from_str dbg s v = ROk (Some l) -> Forall (read_event 5%Z) l.
Proof.
  intros Hs H. unfold events_from_str, events_from_str_vars in H.
  destruct (ev_loop dbg v [] 0 [] (lines s)) as [l'| |] eqn:E; try easy. injection H as ->.
  apply (loop_read dbg v 5%Z) in E; [easy|apply times_fit_new|now apply lines_clean|constructor].
Qed.
