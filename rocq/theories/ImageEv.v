(** Which events reading gives (C76). *)
From Coq Require Import String List NArith ZArith Bool Lia.
From Verif Require Import Str Num Nom Dec Parsers Unicode Storyboard NormalEvents Events Osb Spec
  SpecWf SpecText SpecTypes SpecLine SpecEvLine SpecCmd SpecEvents SpecEvSection SpecWalk SpecSections SpecOsb SpecImage
  StrFacts NumFacts NomFacts DecFacts FieldFacts LayoutFacts TpFacts CmdFacts CmdRound CmdTree EvLoop CmdRead EvSection LineRead HoRead
  WalkFacts HoObj ImageLine ImageObj ImageCmd ImageLate.
Import ListNotations.
Local Open Scope N_scope.

(** ** fields for values *)
(** some field is read as [a] *)
Definition field_for {A X} (rd : str -> res A X) (a : A) : Prop := exists f, field_text f = true /\ rd f = ROk a.
Lemma field_Z z : field_text (print_Z z) = true.
Proof. unfold field_text. now rewrite print_Z_no_comma, print_Z_no_nl. Qed.
Lemma for_i32 z : in_i32 z = true -> field_for parse_i32 z.
Proof. intros H. exists (print_Z z). split; [apply field_Z|now apply parse_print_i32]. Qed.
Lemma for_u8 z : in_u8 z = true -> field_for parse_u8 z.
Proof. intros H. exists (print_Z z). split; [apply field_Z|now apply parse_print_u8]. Qed.
Lemma for_u32 z : in_u32 z = true -> field_for parse_u32 z.
Proof. intros H. exists (print_Z z). split; [apply field_Z|now apply parse_print_u32]. Qed.
Lemma for_dec d : wf_dec_field d = true -> field_for rd_dec d.
Proof.
  intros H. exists (print_decimal d). split; [|now apply field_dec]. unfold field_text. now rewrite wf_dec_field_no_comma, wf_dec_field_no_nl.
Qed.
Lemma for_rdec d : wf_rdec d = true -> field_for rd_rdec d.
Proof.
  intros H. exists (print_rdec d). split.
  - pose proof (wf_dec_field_no_comma (DNum d)) as K1. pose proof (wf_dec_field_no_nl (DNum d)) as K2.
    unfold field_text. cbn [print_decimal] in *. rewrite K1, K2; [easy|..]; unfold wf_dec_field; cbn; now rewrite H.
  - unfold rd_rdec. now rewrite parse_print_rdec.
Qed.
Lemma for_volume z : volume_ok z = true -> field_for rd_au_volume z.
Proof.
  unfold volume_ok. intros H. exists (print_Z z). split; [apply field_Z|]. unfold rd_au_volume.
  rewrite parse_print_u8 by (unfold in_u8, u8_max; lia). now replace (z <=? 100)%Z with true by lia.
Qed.
Lemma for_text f : file_range f = true -> field_for rd_text f.
Proof. now exists f. Qed.
Lemma for_layer l : field_for rd_layer l.
Proof.
  destruct l; [exists (lit "0")|exists (lit "1")|exists (lit "2")|exists (lit "3")|exists (lit "4")|exists (lit "5")]; split; reflexivity.
Qed.
Lemma for_origin l : field_for rd_origin l.
Proof.
  destruct l; [exists (lit "0")|exists (lit "1")|exists (lit "2")|exists (lit "3")|exists (lit "4")|exists (lit "5")
              |exists (lit "6")|exists (lit "7")|exists (lit "8")|exists (lit "9")]; split; reflexivity.
Qed.
Lemma for_au_layer l : field_for rd_au_layer l.
Proof. destruct l; [exists (lit "0")|exists (lit "1")|exists (lit "2")|exists (lit "3")]; split; reflexivity. Qed.
Lemma for_sb_layer l : field_for rd_sb_layer l.
Proof.
  destruct l; [exists (lit "Background")|exists (lit "Fail")|exists (lit "Pass")|exists (lit "Foreground")|exists (lit "Overlay")]; split; reflexivity.
Qed.
Lemma for_loop l : field_for rd_loop_type l.
Proof. destruct l; [exists (lit "LoopForever")|exists (lit "LoopOnce")]; split; reflexivity. Qed.
(** a number is none of the names *)
Lemma number_no_name {A} (l : list (string * A)) s z : parse_i32 s = ROk z ->
  forallb (fun x => match parse_i32 (lit (fst x)) with ROk _ => false | _ => true end) l = true -> rd_name l s = RErr tt.
Proof.
  intros Hs. induction l as [|[n a] l IH]; [easy|]. cbn [forallb fst rd_name]. rewrite andb_true_iff. intros [H1 H2].
  destruct (str_eqb s (lit n)) eqn:E; [|auto]. apply str_eqb_eq in E. subst s. now rewrite Hs in H1.
Qed.
Lemma for_sb_origin o : origin_values o = true -> field_for rd_sb_origin o.
Proof.
  destruct o as [[t|z] sh]; unfold origin_values; cbn [or_type or_short].
  - intros _. destruct sh.
    + destruct t; [exists (lit "0")|exists (lit "1")|exists (lit "2")|exists (lit "3")|exists (lit "4")|exists (lit "5")
              |exists (lit "6")|exists (lit "7")|exists (lit "8")|exists (lit "9")]; split; reflexivity.
    + destruct t; [exists (lit "TopLeft")|exists (lit "Centre")|exists (lit "CentreLeft")|exists (lit "TopRight")|exists (lit "BottomCentre")
              |exists (lit "TopCentre")|exists (lit "Custom")|exists (lit "CentreRight")|exists (lit "BottomLeft")|exists (lit "BottomRight")]; split; reflexivity.
  - rewrite !andb_true_iff. intros [[-> H1] H2]. exists (print_Z z). split; [apply field_Z|]. unfold rd_sb_origin.
    rewrite (number_no_name _ _ z) by first [now apply parse_print_i32|reflexivity]. rewrite parse_print_i32 by easy.
    now replace ((0 <=? z) && (z <? 10))%Z with false by lia.
Qed.

(** ** lines for events *)
Definition pos_fields (p : option position_t) : list str :=
  match p with Some p => print_decimal (pos_x p) :: pieces 44 (print_decimal (pos_y p)) | None => [] end.
Lemma clear_field f fs : field_text f = true -> clear_fields fs -> clear_fields (f :: fs).
Proof. unfold field_text. rewrite andb_true_iff. intros [H1 H2]. now apply clear_cons. Qed.
Lemma pos_clear p : place_range p = true -> clear_fields (pos_fields p).
Proof.
  destruct p as [[x y]|]; [|easy]. unfold place_range, pos_fields. cbn [opt_all pos_x pos_y]. rewrite !andb_true_iff. intros [[H1 H2] H3].
  apply clear_cons; [now apply wf_dec_field_no_comma|now apply wf_dec_field_no_nl|]. apply clear_pieces. now apply dec_no_nl_print.
Qed.
Lemma file_pos_given {B E} (mf mx my : E) f p (k : file_path -> option position_t -> res B E) : place_range p = true ->
  file_pos mf mx my (f :: pos_fields p) k = k f p.
Proof.
  destruct p as [[x y]|]; [|easy]. unfold place_range, pos_fields. cbn [opt_all pos_x pos_y]. rewrite !andb_true_iff. intros [[H1 H2] H3].
  unfold file_pos, next, rd_text. rewrite field_dec by easy.
  destruct (pieces_some (print_decimal y)) as (g & gs & E0). rewrite E0. unfold last_field. rewrite <- E0, commas_pieces. unfold rd_dec.
  now rewrite dec_back.
Qed.
Definition own_head (h : str) : bool := match h with c :: _ => negb ((c =? 47) || (c =? 32) || (c =? 95)) | [] => false end.
Definition event_line_for (dbg : bool) (v : version) (e : event) : Prop :=
  exists line, line_item dbg v [] line (ItEvent e) /\ no_nl line = true /\ is_blank line = false.
Lemma head_line dbg v h fs e : own_head h = true -> field_text h = true -> clear_fields fs -> fs <> [] -> ev_line dbg v h fs = ROk e ->
  event_line_for dbg v e.
Proof.
  intros Hh Ht Hc Hf He. destruct fs as [|f fs]; [easy|]. assert (C : clear_fields (h :: f :: fs)) by now apply clear_field.
  exists (commas (h :: f :: fs)). split; [|split].
  - destruct C as [C1 C2]. destruct h as [|c h]; [easy|]. cbn [own_head] in Hh. apply negb_true_iff in Hh. rewrite !orb_false_iff in Hh. destruct Hh as [[A B] D].
    apply li_event with (h := c :: h) (fs := f :: fs).
    + intros t Et. change (commas ((c :: h) :: f :: fs)) with (c :: h ++ 44 :: commas (f :: fs)) in Et. injection Et as -> _. now vm_compute in A.
    + change (commas ((c :: h) :: f :: fs)) with (c :: h ++ 44 :: commas (f :: fs)). cbn [depth]. now rewrite B, D.
    + apply fields_pieces. now apply pieces_commas.
    + exact He.
  - destruct C as [C1 C2]. now apply commas_nl.
  - apply commas_full.
Qed.
Lemma for_clock dbg v t : clock_range dbg v t = true -> exists f z, field_text f = true /\ parse_i32 f = ROk z /\ time_in dbg v z = ROk t.
Proof. intros H. destruct (clock_back dbg v t H) as (z & Z1 & Z2). destruct (for_i32 z Z1) as (f & F1 & F2). now exists f, z. Qed.
Ltac fields := repeat first [apply clear_nil | apply clear_field; [assumption|] | now apply pos_clear].
Lemma event_given dbg v e : clocks_range dbg v e = true -> own_range e = true -> commands_of e = [] -> event_line_for dbg v e.
Proof.
  intros Hv H Hc. destruct e as [c|[t f p cs]|[t f p cs sh]|[t1 t2 sh]|[t r g b]|[l o f p cs]|[l o f p cs]|[t l f vol cs]|[l o [x y] ty cs]|[t l f vol]];
    cbn [own_range commands_of bg_start bg_file bg_pos bg_cmds vi_start vi_file vi_pos vi_cmds br_start br_end ctr_start ctr_r ctr_g ctr_b
         lg_file lg_pos lg_cmds sl_time sl_file sl_volume sl_cmds ob_origin ob_pos ob_type ob_cmds pos_x pos_y au_time au_file au_volume clocks_range] in *;
    try rewrite !andb_true_iff in H; try subst cs.
  - exists (lit "//" ++ c). split; [constructor|]. split; [now rewrite no_nl_app, H|]. now rewrite is_blank_forallb.
  - destruct H as [[H1 H2] H3]. destruct (for_i32 t H1) as (ft & T1 & T2).
    apply head_line with (h := lit "0") (fs := ft :: f :: pos_fields p); try reflexivity; [fields|easy|].
    change (rmap_err EvBackground (rmap EBackground (bg_line (ft :: f :: pos_fields p))) = ROk (EBackground (mk_bg t f p []))).
    unfold bg_line, next. rewrite T2. now rewrite file_pos_given.
  - destruct H as [[H1 H2] H3]. destruct (for_clock dbg v t Hv) as (ft & t0 & T1 & T2 & T3).
    apply head_line with (h := if sh then lit "1" else lit "Video") (fs := ft :: f :: pos_fields p); try (now destruct sh); [fields|].
    replace (ev_line dbg v (if sh then lit "1" else lit "Video") (ft :: f :: pos_fields p))
      with (rmap_err EvVideo (rmap EVideo (vid_line dbg v sh (ft :: f :: pos_fields p)))) by now destruct sh.
    unfold vid_line, next. rewrite T2, T3. cbn [andthen]. now rewrite file_pos_given.
  - destruct H as [H1 H2]. apply andb_true_iff in Hv as [V1 V2].
    destruct (for_clock dbg v t1 V1) as (f1 & z1 & T1 & T2 & T5). destruct (for_clock dbg v t2 V2) as (f2 & z2 & T3 & T4 & T6).
    apply head_line with (h := if sh then lit "2" else lit "Break") (fs := [f1; f2]); try (now destruct sh); [fields|].
    replace (ev_line dbg v (if sh then lit "2" else lit "Break") [f1; f2])
      with (rmap_err EvBreak (rmap EBreak (brk_line dbg v sh [f1; f2]))) by now destruct sh.
    unfold brk_line, next, last_field. rewrite T2, T5. cbn [andthen commas]. rewrite T4, T6. reflexivity.
  - destruct H as [[[H1 H2] H3] H4]. destruct (for_clock dbg v t Hv) as (ft & t0 & T1 & T2 & T3). destruct (for_u8 r H2) as (fr & R1 & R2).
    destruct (for_u8 g H3) as (fg & G1 & G2). destruct (for_u8 b H4) as (fb & B1 & B2).
    apply head_line with (h := lit "3") (fs := [ft; fr; fg; fb]); try reflexivity; [fields|easy|].
    change (rmap_err EvColourTransformation (rmap EColourTransformation (ctr_line dbg v [ft; fr; fg; fb])) = ROk (EColourTransformation (mk_ct t r g b))).
    unfold ctr_line, next, last_field. rewrite T2, T3. cbn [andthen commas]. now rewrite R2, G2, B2.
  - destruct H as [H1 H2]. destruct (for_layer l) as (fl & L1 & L2). destruct (for_origin o) as (fo & O1 & O2).
    apply head_line with (h := lit "4") (fs := fl :: fo :: f :: pos_fields p); try reflexivity; [fields|easy|].
    change (rmap_err EvSpriteLegacy (rmap ESpriteLegacy (leg_line (fl :: fo :: f :: pos_fields p))) = ROk (ESpriteLegacy (mk_leg l o f p []))).
    unfold leg_line, next. rewrite L2, O2. now rewrite file_pos_given.
  - destruct H as [H1 H2]. destruct (for_layer l) as (fl & L1 & L2). destruct (for_origin o) as (fo & O1 & O2).
    apply head_line with (h := lit "5") (fs := fl :: fo :: f :: pos_fields p); try reflexivity; [fields|easy|].
    change (rmap_err EvAnimationLegacy (rmap EAnimationLegacy (leg_line (fl :: fo :: f :: pos_fields p))) = ROk (EAnimationLegacy (mk_leg l o f p []))).
    unfold leg_line, next. rewrite L2, O2. now rewrite file_pos_given.
  - destruct H as [[H1 H2] H3]. destruct (for_dec t H1) as (ft & T1 & T2). destruct (for_layer l) as (fl & L1 & L2).
    destruct vol as [vol|].
    + destruct (for_volume vol H3) as (fv & V1 & V2).
      apply head_line with (h := lit "6") (fs := [ft; fl; f; fv]); try reflexivity; [fields|easy|].
      change (rmap_err EvSampleLegacy (rmap ESampleLegacy (sl_line [ft; fl; f; fv])) = ROk (ESampleLegacy (mk_sl t l f (Some vol) []))).
      unfold sl_line, next, rd_text, last_field. rewrite T2, L2. cbn [commas]. now rewrite V2.
    + apply head_line with (h := lit "6") (fs := [ft; fl; f]); try reflexivity; [fields|easy|].
      change (rmap_err EvSampleLegacy (rmap ESampleLegacy (sl_line [ft; fl; f])) = ROk (ESampleLegacy (mk_sl t l f None []))).
      unfold sl_line, next, rd_text, last_field. now rewrite T2, L2.
  - destruct H as [[[H1 H2] H3] H4]. destruct (for_sb_layer l) as (fl & L1 & L2). destruct (for_sb_origin o H1) as (fo & O1 & O2).
    destruct (for_dec x H2) as (fx & X1 & X2). destruct (for_dec y H3) as (fy & Y1 & Y2). destruct ty as [f|n d lt f].
    + apply head_line with (h := lit "Sprite") (fs := [fl; fo; f; fx; fy]); try reflexivity; [fields|easy|].
      change (rmap_err EvObject (rmap EObject (sprite_line [fl; fo; f; fx; fy])) = ROk (EObject (mk_obj l o (mk_pos x y) (ObSprite f) []))).
      unfold sprite_line, ob_fields, next, rd_text. now rewrite L2, O2, X2, Y2.
    + rewrite !andb_true_iff in H4. destruct H4 as [[F1 F2] F3]. destruct (for_u32 n F2) as (fn & N1 & N2). destruct (for_rdec d F3) as (fd & D1 & D2).
      destruct (for_loop lt) as (ft & T1 & T2).
      apply head_line with (h := lit "Animation") (fs := [fl; fo; f; fx; fy; fn; fd; ft]); try reflexivity; [fields|easy|].
      change (rmap_err EvObject (rmap EObject (animation_line [fl; fo; f; fx; fy; fn; fd; ft])) = ROk (EObject (mk_obj l o (mk_pos x y) (ObAnimation n d lt f) []))).
      unfold animation_line, ob_fields, next, rd_text. rewrite L2, O2, X2, Y2, N2, D2. cbn [commas]. now rewrite T2.
  - destruct H as [[H1 H2] H3]. destruct (for_i32 t H1) as (ft & T1 & T2). destruct (for_au_layer l) as (fl & L1 & L2).
    destruct (for_volume vol H3) as (fv & V1 & V2).
    apply head_line with (h := lit "Sample") (fs := [ft; fl; f; fv]); try reflexivity; [fields|easy|].
    change (rmap_err EvAudioSample (rmap EAudioSample (au_line [ft; fl; f; fv])) = ROk (EAudioSample (mk_au t l f vol))).
    unfold au_line, next, rd_text. now rewrite T2, L2, V2.
Qed.

(** ** the events of lines *)
Lemma next_given {A B E X} (m i : E) (rd : str -> res A X) fs (k : A -> list str -> res B E) b : next m i rd fs k = ROk b -> clear_fields fs ->
  exists f a fs', rd f = ROk a /\ k a fs' = ROk b /\ field_text f = true /\ clear_fields fs'.
Proof.
  unfold next. destruct fs as [|f fs]; [easy|]. intros H [C1 C2]. cbn [forallb] in *. apply andb_true_iff in C1 as [C1 C3], C2 as [C2 C4].
  destruct (rd f) as [a| |] eqn:E0; try easy. exists f, a, fs. unfold field_text. now rewrite C1, C2.
Qed.
Lemma last_given {A B E X} (m i : E) (rd : str -> res A X) fs (k : A -> res B E) b : last_field m i rd fs k = ROk b -> clear_fields fs ->
  exists f a, rd f = ROk a /\ k a = ROk b /\ no_nl f = true.
Proof.
  unfold last_field. destruct fs as [|f fs]; [easy|]. intros H [C1 C2]. destruct (rd (commas (f :: fs))) as [a| |] eqn:E0; try easy.
  exists (commas (f :: fs)), a. repeat split; try easy. now apply commas_nl.
Qed.
Lemma rd_dec_field f d : rd_dec f = ROk d -> field_text f = true -> wf_dec_field d = true.
Proof.
  intros [= <-] H. unfold wf_dec_field. rewrite decimal_of_str_wf. unfold decimal_of_str. now destruct (parse_rdec f).
Qed.
Lemma file_pos_read {B E} (mf mx my : E) fs (k : file_path -> option position_t -> res B E) b : file_pos mf mx my fs k = ROk b -> clear_fields fs ->
  exists f p, k f p = ROk b /\ file_range f = true /\ place_range p = true.
Proof.
  unfold file_pos. intros H C. apply next_given in H as (f & f' & fs' & [= <-] & H & F & C'); [|easy].
  destruct fs' as [|g fs']; [now exists f, None|]. apply next_given in H as (x & dx & fs2 & X & H & Fx & C2); [|easy].
  apply last_given in H as (y & dy & Y & H & Fy); [|easy]. exists f, (Some (mk_pos dx dy)). repeat split; try easy.
  unfold place_range. cbn [opt_all pos_x pos_y]. rewrite (rd_dec_field _ _ X Fx). injection Y as <-. now rewrite decimal_of_str_wf, dec_flat.
Qed.
Lemma volume_read f z : rd_au_volume f = ROk z -> volume_ok z = true.
Proof.
  unfold rd_au_volume. destruct (parse_u8 f) as [y| |] eqn:E; try easy. apply parse_u8_range in E. unfold in_u8, volume_ok in *.
  destruct (y <=? 100)%Z eqn:K; [|easy]. intros [= <-]. lia.
Qed.
Lemma name_origin l f (o : origin_type) : rd_name l f = ROk o -> exists n, In (n, o) l.
Proof.
  induction l as [|[n a] l IH]; [easy|]. cbn [rd_name]. destruct (str_eqb f (lit n)); [|intros H; destruct (IH H) as [m Hm]; exists m; now right].
  intros [= ->]. exists n. now left.
Qed.
Lemma origin_read f o : rd_sb_origin f = ROk o -> origin_values o = true.
Proof.
  unfold rd_sb_origin. destruct (rd_name _ f) as [t| |]; [now intros [= <-]| |].
  all: destruct (parse_i32 f) as [z| |] eqn:E; try easy; apply parse_i32_range in E; intros [= <-]; unfold origin_values; cbn [or_type or_short];
    destruct ((0 <=? z) && (z <? 10))%Z eqn:K; [|rewrite E; cbn; apply negb_true_iff; lia];
    destruct (nth_error all_origins (Z.to_nat z)) eqn:N; [easy|]; apply nth_error_None in N; cbn [all_origins length] in N; lia.
Qed.
Lemma rdec_given f d : rd_rdec f = ROk d -> wf_rdec d = true.
Proof. unfold rd_rdec. destruct (parse_rdec f) eqn:E; [|easy]. intros [= <-]. now apply parse_rdec_wf in E. Qed.
Lemma bg_given fs x : bg_line fs = ROk x -> clear_fields fs -> own_range (EBackground x) = true.
Proof.
  unfold bg_line. intros H C. apply next_given in H as (f & t & fs' & T & H & F & C'); [|easy]. apply file_pos_read in H as (g & p & [= <-] & G & P); [|easy].
  cbn. apply parse_i32_range in T. now rewrite T, G, P.
Qed.
Lemma clock_read dbg v f z {B E} (k : Z -> res B E) b : parse_i32 f = ROk z -> andthen (time_in dbg v z) k = ROk b ->
  exists t, k t = ROk b /\ in_i32 t = true /\ clock_range dbg v t = true.
Proof.
  intros T H. apply parse_i32_range in T. destruct (time_in dbg v z) as [t|[]|] eqn:E0; try discriminate H. exists t. split; [exact H|].
  apply clock_in in E0; [|easy]. split; [|easy]. unfold clock_range in E0. now apply andb_true_iff in E0.
Qed.
Lemma vid_given dbg v sh fs x : vid_line dbg v sh fs = ROk x -> clear_fields fs -> own_range (EVideo x) = true /\ clocks_range dbg v (EVideo x) = true.
Proof.
  unfold vid_line. intros H C. apply next_given in H as (f & t & fs' & T & H & F & C'); [|easy]. apply (clock_read _ _ _ _ _ _ T) in H as (y & H & Y1 & Y2).
  apply file_pos_read in H as (g & p & [= <-] & G & P); [|easy]. cbn. now rewrite Y1, G, P.
Qed.
Lemma brk_given dbg v sh fs x : brk_line dbg v sh fs = ROk x -> clear_fields fs -> own_range (EBreak x) = true /\ clocks_range dbg v (EBreak x) = true.
Proof.
  unfold brk_line. intros H C. apply next_given in H as (f & t & fs' & T & H & F & C'); [|easy]. apply (clock_read _ _ _ _ _ _ T) in H as (y & H & Y1 & Y2).
  apply last_given in H as (g & e & E & H & G); [|easy]. apply (clock_read _ _ _ _ _ _ E) in H as (z & H & Z1 & Z2). injection H as <-.
  cbn. now rewrite Y1, Z1, Y2, Z2.
Qed.
Lemma ctr_given dbg v fs x : ctr_line dbg v fs = ROk x -> clear_fields fs ->
  own_range (EColourTransformation x) = true /\ clocks_range dbg v (EColourTransformation x) = true.
Proof.
  unfold ctr_line. intros H C. apply next_given in H as (f & t & fs' & T & H & F & C'); [|easy]. apply (clock_read _ _ _ _ _ _ T) in H as (y & H & Y1 & Y2).
  apply next_given in H as (f1 & r & fs1 & R & H & F1 & C1); [|easy]. apply next_given in H as (f2 & g & fs2 & G & H & F2 & C2); [|easy].
  apply last_given in H as (f3 & b & B & H & F3); [|easy]. injection H as <-. cbn. apply parse_u8_range in R, G, B.
  now rewrite Y1, R, G, B.
Qed.
Lemma leg_given fs x : leg_line fs = ROk x -> clear_fields fs -> own_range (ESpriteLegacy x) = true /\ own_range (EAnimationLegacy x) = true.
Proof.
  unfold leg_line. intros H C. apply next_given in H as (f & l & fs' & L & H & F & C'); [|easy].
  apply next_given in H as (f1 & o & fs1 & O & H & F1 & C1); [|easy]. apply file_pos_read in H as (g & p & [= <-] & G & P); [|easy].
  cbn. now rewrite G, P.
Qed.
Lemma sl_given fs x : sl_line fs = ROk x -> clear_fields fs -> own_range (ESampleLegacy x) = true.
Proof.
  unfold sl_line. intros H C. apply next_given in H as (f & t & fs' & T & H & F & C'); [|easy].
  apply next_given in H as (f1 & l & fs1 & L & H & F1 & C1); [|easy]. apply next_given in H as (f2 & g & fs2 & [= <-] & H & F2 & C2); [|easy].
  apply (rd_dec_field _ _ T) in F. destruct fs2 as [|w fs2].
  - injection H as <-. cbn. rewrite F. unfold file_range. now rewrite F2.
  - apply last_given in H as (f3 & b & B & H & F3); [|easy]. injection H as <-. cbn. apply volume_read in B. unfold file_range. now rewrite F, F2, B.
Qed.
Lemma au_given fs x : au_line fs = ROk x -> clear_fields fs -> own_range (EAudioSample x) = true.
Proof.
  unfold au_line. intros H C. apply next_given in H as (f & t & fs' & T & H & F & C'); [|easy].
  apply next_given in H as (f1 & l & fs1 & L & H & F1 & C1); [|easy]. apply next_given in H as (f2 & g & fs2 & [= <-] & H & F2 & C2); [|easy].
  apply parse_i32_range in T. destruct fs2 as [|w fs2].
  - injection H as <-. cbn. unfold file_range. now rewrite T, F2.
  - apply next_given in H as (f3 & b & fs3 & B & H & F3 & _); [|easy]. injection H as <-. cbn. apply volume_read in B. unfold file_range. now rewrite T, F2, B.
Qed.
Lemma ob_given {B} fs (k : sb_layer -> origin -> file_path -> position_t -> list str -> res B ob_err) b : ob_fields fs k = ROk b -> clear_fields fs ->
  exists l o f x y fs', k l o f (mk_pos x y) fs' = ROk b /\ clear_fields fs' /\ origin_values o = true /\ file_range f = true
    /\ wf_dec_field x = true /\ wf_dec_field y = true.
Proof.
  unfold ob_fields. intros H C. apply next_given in H as (f0 & l & fs0 & L & H & F0 & C0); [|easy].
  apply next_given in H as (f1 & o & fs1 & O & H & F1 & C1); [|easy]. apply next_given in H as (f2 & g & fs2 & [= <-] & H & F2 & C2); [|easy].
  apply next_given in H as (f3 & x & fs3 & X & H & F3 & C3); [|easy]. apply next_given in H as (f4 & y & fs4 & Y & H & F4 & C4); [|easy].
  exists l, o, f2, x, y, fs4. apply origin_read in O. apply (rd_dec_field _ _ X) in F3. apply (rd_dec_field _ _ Y) in F4. unfold file_range. tauto.
Qed.
Lemma sprite_given fs x : sprite_line fs = ROk x -> clear_fields fs -> own_range (EObject x) = true.
Proof.
  unfold sprite_line. intros H C. apply ob_given in H as (l & o & f & x0 & y0 & fs' & [= <-] & C' & O & F & X & Y); [|easy]. cbn. now rewrite O, X, Y, F.
Qed.
Lemma animation_given fs x : animation_line fs = ROk x -> clear_fields fs -> own_range (EObject x) = true.
Proof.
  unfold animation_line. intros H C. apply ob_given in H as (l & o & f & x0 & y0 & fs' & H & C' & O & F & X & Y); [|easy].
  apply next_given in H as (f1 & n & fs1 & N & H & F1 & C1); [|easy]. apply next_given in H as (f2 & d & fs2 & D & H & F2 & C2); [|easy].
  apply parse_u32_range in N. apply rdec_given in D.
  assert (K : forall lt, own_range (EObject (mk_obj l o (mk_pos x0 y0) (ObAnimation n d lt f) [])) = true) by (intros; cbn; now rewrite O, X, Y, F, N, D).
  cbv zeta in H. destruct fs2 as [|w fs2]; [injection H as <-; apply K|]. destruct (rd_loop_type _) as [lt| |]; try easy. injection H as <-. apply K.
Qed.
Lemma wrapped {A E} (mk : A -> event) (err : E -> ev_err) r e : rmap_err err (rmap mk r) = ROk e -> exists x, r = ROk x /\ e = mk x.
Proof. destruct r as [x| |]; cbn; try easy. intros [= <-]. eauto. Qed.
Lemma ev_given dbg v h fs e : ev_line dbg v h fs = ROk e -> clear_fields fs -> own_range e = true /\ clocks_range dbg v e = true.
Proof.
  intros H C. unfold ev_line in H. cbv zeta in H.
  assert (N : forall r, clear_fields (if @is_empty char r then fs else [])) by (intros []; easy).
  repeat match type of H with
    | match strip_prefix ?a h with _ => _ end = _ => destruct (strip_prefix a h) as [r|]
    | match ?r with [] => _ | _ :: _ => RPanic _ end = _ => destruct r; [|discriminate H] end; try discriminate H;
  apply wrapped in H as (x & H & ->);
  first [ now apply vid_given in H | now apply brk_given in H | now apply ctr_given in H
        | split; [|reflexivity];
          first [ now apply bg_given in H | now apply leg_given in H
                | now apply sl_given in H | apply sprite_given in H; [exact H|apply N] | apply animation_given in H; [exact H|apply N]
                | apply au_given in H; [exact H|apply N] ] ].
Qed.
Lemma event_item_read dbg v line e : line_item dbg v [] line (ItEvent e) -> no_nl line = true -> own_range e = true /\ clocks_range dbg v e = true.
Proof.
  intros H Hn. remember (ItEvent e) as it. destruct H as [c|l h fs e' _ _ Hf He|]; try discriminate Heqit; injection Heqit as <-.
  - rewrite no_nl_app in Hn. apply andb_true_iff in Hn as [_ Hn]. now split.
  - apply ev_given in He; [easy|]. apply clear_pieces in Hn. apply fields_pieces in Hf. rewrite Hf in Hn.
    destruct Hn as [H1 H2]. cbn [forallb] in *. apply andb_true_iff in H1 as [_ H1], H2 as [_ H2]. easy.
Qed.

(** ** the section *)
Definition item_range (dbg : bool) (v : version) (x : item) : Prop :=
  match x with
  | ItEvent e => own_range e = true /\ clocks_range dbg v e = true /\ commands_of e = []
  | ItCommand d c => d <> 0%nat /\ cmd_ok c = true /\ cmd_flat c = true /\ bare c = c
  end.
Lemma own_bare dbg v e : own_range (with_commands [] e) = own_range e /\ clocks_range dbg v (with_commands [] e) = clocks_range dbg v e
  /\ commands_of (with_commands [] e) = [].
Proof. destruct e as [c|[]|[]|[]|[]|[]|[]|[]|[]|[]]; repeat split; reflexivity. Qed.
Lemma event_items_range dbg v e : event_in dbg v e = true <-> Forall (item_range dbg v) (event_items e).
Proof.
  unfold event_in, event_range, event_items. rewrite !andb_true_iff, Forall_cons_iff. cbn [item_range]. destruct (own_bare dbg v e) as (-> & -> & ->).
  rewrite (trees_places _ 1), Forall_map. pose proof (places_bares (commands_of e) 1) as B.
  assert (K : Forall place_fit (preorders 1 (commands_of e)) <-> Forall (fun x => item_range dbg v (ItCommand (fst x) (snd x))) (preorders 1 (commands_of e))).
  { rewrite !Forall_forall in *. split; intros H x Hx; specialize (H x Hx); specialize (B x Hx); unfold place_fit, item_range in *; [|tauto].
    repeat split; try tauto. lia. }
  tauto.
Qed.
Lemma items_range dbg v evs : forallb (event_in dbg v) evs = true <-> Forall (item_range dbg v) (SpecWalk.items evs).
Proof.
  unfold SpecWalk.items. induction evs as [|e evs IH]; [now split; constructor|]. cbn [map concat forallb]. now rewrite andb_true_iff, Forall_app, IH, event_items_range.
Qed.
Lemma events_give dbg v l : some_text (fun s => events_from_str dbg s v) l <-> forallb (event_in dbg v) l = true.
Proof.
  rewrite items_range. split.
  - intros [s H]. apply lines_items0 in H. assert (Hn : forallb no_nl (full_lines s) = true).
    { apply forallb_forall. intros x Hx. apply filter_In in Hx as [Hx _]. pose proof (lines_no_nl s) as K. rewrite forallb_forall in K. auto. }
    assert (Hb : Forall (fun x => match x with ItEvent e => commands_of e = [] | _ => True end) (SpecWalk.items l)).
    { unfold SpecWalk.items. clear. induction l as [|e l IH]; [constructor|]. cbn [map concat]. apply Forall_app. split; [|exact IH].
      unfold event_items. constructor; [apply (own_bare false 14%Z)|]. apply Forall_map, Forall_forall. easy. }
    revert Hn Hb. induction H as [|a x ls xs H _ IH]; [constructor|]. cbn [forallb]. rewrite andb_true_iff, Forall_cons_iff. intros [H1 H2] [B1 B2].
    constructor; [|auto]. destruct x as [e|d c]; cbn [item_range]; [|now apply command_item_read in H]. apply event_item_read in H as [K1 K2]; easy.
  - intros H. destruct (text_for (line_item dbg v []) (SpecWalk.items l)) as [s Hs].
    + eapply Forall_impl; [|exact H]. intros [e|d c]; cbn [item_range]; [intros (H1 & H2 & H3); now apply event_given|].
      intros (H1 & H2 & H3 & H4). now apply command_line_given.
    + exists s. now apply lines_items0.
Qed.
