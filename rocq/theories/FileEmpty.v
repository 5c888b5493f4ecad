(** Sections without lines (C34). *)
From Coq Require Import String List NArith ZArith Bool Lia.
From Verif Require Import Str Num Nom Dec Parsers KeyValue General Editor Metadata Difficulty Colours
  TimingPoints HitObjects Storyboard NormalEvents Events Osb OsuFile Spec SpecText SpecFile
  StrFacts NumFacts NomFacts LayoutFacts TriggerFacts FileFacts FileLoop FileTheorems.
Import ListNotations.
Local Open Scope N_scope.

Lemma version_cases v : (3 <= v <= 14)%Z ->
  In v [3; 4; 5; 6; 7; 8; 9; 10; 11; 12; 13; 14]%Z.
Proof. intros H. cbn [In]. lia. Qed.
Definition empty_value dbg v name : res osu_file (line_err osu_err) :=
  match osu_section dbg (osu_new v) name [] 0 with Some r => r | None => RPanic PFuel end.
Lemma section_empty dbg acc name i : In name section_names -> (3 <= osu_version acc <= 14)%Z ->
  exists f, osu_section dbg acc name [] i = Some (ROk f).
Proof.
  intros Hn Hv. apply version_cases in Hv. destruct acc as [v g e o m d ev tp c h]. cbn [osu_version] in Hv.
  assert (H : forall x, sec_name x = name -> known x) by (intros x <-; exact Hn).
  specialize (H (mk_sec name 0 []) eq_refl). apply known_cases in H. cbn [sec_name] in H. clear Hn.
  cbn [In] in Hv. unfold osu_section.
  destruct H as [H|[H|[H|[H|[H|[H|[H|H]]]]]]]; rewrite H;
  repeat match goal with
  | |- context [str_eqb (lit ?a) (lit ?b)] =>
      let t := eval vm_compute in (str_eqb (lit a) (lit b)) in
      change (str_eqb (lit a) (lit b)) with t
  end; cbn beta iota;
  repeat (destruct Hv as [<-|Hv]; [eexists; vm_compute; reflexivity|]); destruct Hv.
Qed.

Lemma join_header_empty h n : join [c_nl] (h :: repeat [] n) = h ++ repeat 10 n.
Proof.
  destruct n as [|n]; [cbn [repeat join]; now rewrite app_nil_r|].
  rewrite join_cons by easy. f_equal. induction n as [|n IH]; [easy|].
  change (repeat [] (S (S n))) with (@nil N :: repeat [] (S n)). rewrite join_cons by easy.
  cbn [app]. change (repeat 10 (S (S n))) with (10 :: repeat 10 (S n)). f_equal. exact IH.
Qed.
Lemma name_ok name : In name section_names -> forallb (fun c => negb ((c =? 93) || (c =? 10))) name = true.
Proof. unfold section_names. cbn [map In]. intros H. repeat (destruct H as [<-|H]; [reflexivity|]). destruct H. Qed.
Lemma square_empty w name n : In name section_names -> forallb layout_char w = true ->
  @square_section unit (w ++ (91 :: name ++ [93]) ++ repeat 10 n) = POk [] (w, name, repeat 10 n, []).
Proof.
  intros Hn Hw. unfold square_section, multispace0, delimited.
  eapply pbind_step; [apply take_while_app; [exact Hw|reflexivity]|]. cbn [app].
  eapply pbind_step.
  { eapply preceded_step; [apply (tag_one 91)|]. rewrite <- app_assoc. eapply terminated_step.
    - unfold take_till. apply take_while_app; [now apply name_ok|]. reflexivity.
    - apply (tag_one 93). }
  cbv beta. eapply pbind_step.
  { apply take_while_all. apply forallb_forall. intros y Hy. apply repeat_spec in Hy. now subst y. }
  reflexivity.
Qed.

(** the last section has no lines *)
Lemma empty_last dbg s ws v pre secs f0 name n :
  file_layout s ws v pre secs ((91 :: name ++ [93]) :: repeat [] n) ->
  all_read dbg v secs (osu_new v) f0 -> In name section_names -> ~ In name (map sec_name secs) ->
  if dbg then osu_from_str dbg s = RPanic POverflow else exists f, osu_from_str dbg s = ROk f.
Proof.
  intros H (A & B & C) Hn Hd. rewrite (read_layout dbg s ws v pre secs _ H) by (right; eauto).
  rewrite join_header_empty.
  assert (Hv : (3 <= v <= 14)%Z) by (destruct H as (num & rest & _ & [_ Hv] & _); exact Hv).
  set (w := after [] secs _).
  assert (Hw : forallb layout_char w = true) by (unfold w; cbn [after]; now destruct secs).
  pose proof (square_empty w name n Hn Hw) as Hq.
  rewrite (many0_cons _ _ _ _ square_section_safe Hq) by (rewrite !app_length; cbn [app length]; rewrite app_length; cbn [length]; lia).
  replace (many0 square_section []) with (@POk unit (list (str * str * str * str)) [] []) by reflexivity.
  pose proof (layout_secs _ _ _ _ _ _ H) as Hs.
  destruct (loop_before dbg secs (lines_count ws + Z.of_nat (length pre)) [] (osu_new v) [] []
    [(w, name, repeat 10 n, [])] f0 Hs B) as (line' & w' & He & _); try assumption; [easy|].
  rewrite app_nil_r in He. rewrite He. cbn [quads app osu_loop].
  apply mem_str_not_In in Hd. rewrite Hd.
  destruct (section_empty dbg f0 name (line' + lines_count w + lines_count (repeat 10 n)) Hn) as [f1 Hf].
  { now rewrite (describes_version _ _ _ _ _ C). }
  rewrite Hf. cbn [rbind]. unfold usize_pred. change (lines_count [] =? 0)%Z with true. cbv iota.
  destruct dbg; cbn [rbind]; eauto.
Qed.

(** a section without lines followed by another one *)
Lemma kv_header_refused {S E} (errs : kv_errs E) (fields : list (field S E)) new l t v r :
  forallb (fun c => negb ((c =? 58) || (c =? 10))) l = true -> is_blank (l ++ 10 :: t) = false ->
  kv_from_str errs fields new (l ++ 10 :: t) v <> ROk r.
Proof.
  intros Hl Hb. unfold kv_from_str, get_colon_field_value_lines.
  assert (exists e, @field_line unit (l ++ 10 :: t) = PErr e) as [e He].
  { exists (mkErr KChar None). unfold field_line. apply pbind_err. unfold terminated.
    eapply pbind_step; [unfold take_till; apply take_while_app; [exact Hl|reflexivity]|].
    apply pmap_err. reflexivity. }
  rewrite (many0_stop _ _ _ He). rewrite Hb. easy.
Qed.
Lemma header_refused dbg acc name i y t : In name section_names -> In y section_names ->
  (3 <= osu_version acc <= 14)%Z -> (name = lit "Colours" -> (5 <= osu_version acc)%Z) ->
  forall f, osu_section dbg acc name ((91 :: y ++ [93]) ++ 10 :: t) i <> Some (ROk f).
Proof.
  intros Hn Hy Hv Hc f. set (h := 91 :: y ++ [93]).
  destruct acc as [v g e o m d ev tp c hh]. cbn [osu_version] in *.
  assert (H : forall x, sec_name x = name -> known x) by (intros x <-; exact Hn).
  specialize (H (mk_sec name 0 []) eq_refl). apply known_cases in H. cbn [sec_name] in H. clear Hn.
  assert (Hh : In h (map (fun y => 91 :: y ++ [93]) section_names)) by now apply (in_map (fun y => 91 :: y ++ [93])).
  clearbody h. clear Hy y.
  assert (Hk : forallb (fun c => negb ((c =? 58) || (c =? 10))) h = true).
  { unfold section_names in Hh. cbn [map In] in Hh. repeat (destruct Hh as [<-|Hh]; [reflexivity|]). destruct Hh. }
  assert (Hb : is_blank h = false).
  { unfold section_names in Hh. cbn [map In] in Hh. repeat (destruct Hh as [<-|Hh]; [reflexivity|]). destruct Hh. }
  assert (Hb2 : is_blank (h ++ 10 :: t) = false).
  { rewrite is_blank_forallb, forallb_app, <- is_blank_forallb. now rewrite Hb. }
  assert (Hl : lines (h ++ 10 :: t) = h :: lines t).
  { apply lines_app_nl.
    - unfold section_names in Hh. cbn [map In] in Hh. repeat (destruct Hh as [<-|Hh]; [reflexivity|]). destruct Hh.
    - unfold section_names in Hh. cbn [map In] in Hh. repeat (destruct Hh as [<-|Hh]; [reflexivity|]). destruct Hh. }
  apply version_cases in Hv. unfold osu_section.
  destruct H as [H|[H|[H|[H|[H|[H|[H|H]]]]]]]; rewrite H;
  repeat match goal with
  | |- context [str_eqb (lit ?a) (lit ?b)] =>
      let t := eval vm_compute in (str_eqb (lit a) (lit b)) in
      change (str_eqb (lit a) (lit b)) with t
  end; cbn beta iota; intros HH; injection HH as HH; apply rmap_pl_ok in HH; destruct HH as (a & HH & _).
  - now apply (kv_header_refused _ _ _ _ _ _ _ Hk Hb2) in HH.
  - now apply (kv_header_refused _ _ _ _ _ _ _ Hk Hb2) in HH.
  - now apply (kv_header_refused _ _ _ _ _ _ _ Hk Hb2) in HH.
  - now apply (kv_header_refused _ _ _ _ _ _ _ Hk Hb2) in HH.
  - unfold events_from_str, events_from_str_vars in HH. rewrite Hl in HH. cbn [ev_loop] in HH. rewrite Hb in HH.
    assert (forall evs, ev_step dbg v [] [] h <> ROk evs) as Hne.
    { unfold section_names in Hh. cbn [map In] in Hh, Hv. intros evs.
      repeat (destruct Hh as [<-|Hh]; [repeat (destruct Hv as [<-|Hv]; [destruct dbg; vm_compute; discriminate|]); destruct Hv|]). destruct Hh. }
    destruct (ev_step dbg v [] [] h); try easy. now apply (Hne a0).
  - unfold timing_points_from_str in HH. rewrite Hl in HH. cbn [parse_lines] in HH. rewrite Hb in HH.
    assert (forall a, tp_from_str v h <> ROk a) as Hne.
    { unfold section_names in Hh. cbn [map In] in Hh, Hv. intros a'.
      repeat (destruct Hh as [<-|Hh]; [repeat (destruct Hv as [<-|Hv]; [vm_compute; discriminate|]); destruct Hv|]). destruct Hh. }
    destruct (tp_from_str v h); try easy. now apply (Hne a0).
  - specialize (Hc H). unfold colours_from_str, old_version in HH.
    replace ((3 <=? v) && (v <=? 4))%Z with false in HH by lia.
    rewrite Hl in HH. cbn [parse_lines] in HH. rewrite Hb in HH.
    assert (forall a, colour_from_str v h <> ROk a) as Hne.
    { unfold section_names in Hh. cbn [map In] in Hh, Hv. intros a'. clear Hc HH.
      repeat (destruct Hh as [<-|Hh]; [repeat (destruct Hv as [<-|Hv]; [vm_compute; discriminate|]); destruct Hv|]). destruct Hh. }
    destruct (colour_from_str v h); try easy. now apply (Hne a0).
  - unfold hit_objects_from_str in HH. rewrite Hl in HH. cbn [parse_lines] in HH. rewrite Hb in HH.
    assert (forall a, v_unwrap (ho_from_str v h) <> ROk a) as Hne.
    { unfold section_names in Hh. cbn [map In] in Hh, Hv. intros a'.
      repeat (destruct Hh as [<-|Hh]; [repeat (destruct Hv as [<-|Hv]; [vm_compute; discriminate|]); destruct Hv|]). destruct Hh. }
    destruct (v_unwrap (ho_from_str v h)); try easy. now apply (Hne a0).
Qed.

Lemma loop_app_ok dbg l1 : forall line parsed acc l2 f,
  osu_loop dbg line parsed acc (l1 ++ l2) = ROk f ->
  exists line' parsed' acc', osu_loop dbg line' parsed' acc' l2 = ROk f
    /\ osu_version acc' = osu_version acc.
Proof.
  induction l1 as [|[[[w n] w2] b] l1 IH]; intros line parsed acc l2 f H; [exists line, parsed, acc; easy|].
  cbn [app osu_loop] in H. destruct (mem_str n parsed); [easy|].
  destruct (osu_section _ _ _ _ _) as [r|] eqn:Er; [|easy].
  destruct r as [m| |]; cbn [rbind] in H; try easy.
  apply section_facts in Er as [Hv _].
  destruct (usize_pred _ _); cbn [rbind] in H; try easy.
  apply IH in H as (line' & parsed' & acc' & H & He). exists line', parsed', acc'. split; [easy|].
  rewrite He. now apply Hv.
Qed.
Lemma empty_swallows dbg s ws v pre secs name n y tail f :
  file_layout s ws v pre secs ((91 :: name ++ [93]) :: repeat [] n ++ sec_all y ++ tail) ->
  In name section_names -> sec_ok y = true -> In (sec_name y) section_names ->
  (name = lit "Colours" -> (5 <= v)%Z) -> (tail = [] \/ exists l ls, tail = (91 :: l) :: ls) ->
  osu_from_str dbg s <> ROk f.
Proof.
  intros H Hn Hy Hyn Hc Ht Hr. rewrite (read_layout dbg s ws v pre secs _ H) in Hr by (right; eauto).
  assert (Hv : (3 <= v <= 14)%Z) by (destruct H as (num & rest & _ & [_ Hv] & _); exact Hv).
  cbn [after] in Hr. set (w := match secs with [] => [] | _ => [10] end) in *.
  assert (Hw : forallb layout_char w = true) by (unfold w; now destruct secs).
  destruct (sec_ok_inv y Hy) as (_ & (c & l & ls & Hl & _) & Hls).
  set (X := match tail with [] => [] | _ => [c_nl] ++ join [c_nl] tail end).
  assert (HX : X = [] \/ exists Y, X = [c_nl; 91] ++ Y).
  { unfold X. destruct Ht as [->|(a & b & ->)]; [now left|right].
    destruct b; [eexists; reflexivity|]. rewrite join_cons by easy. eexists; reflexivity. }
  assert (Htext : join [c_nl] ((91 :: name ++ [93]) :: repeat [] n ++ sec_all y ++ tail)
                  = (91 :: name ++ [93]) ++ repeat 10 (S n) ++ join [c_nl] (sec_all y) ++ X).
  { rewrite join_cons by (destruct n; easy). rewrite repeat_nl_lines by easy.
    replace (join [c_nl] (sec_all y ++ tail)) with (join [c_nl] (sec_all y) ++ X); [reflexivity|].
    unfold X. destruct tail; [now rewrite !app_nil_r|]. now rewrite join_app. }
  rewrite Htext in Hr.
  assert (Hq : @square_section unit (w ++ (91 :: name ++ [93]) ++ repeat 10 (S n) ++ join [c_nl] (sec_all y) ++ X)
               = POk X (w, name, repeat 10 (S n), join [c_nl] (sec_all y))).
  { unfold square_section, multispace0, delimited.
    eapply pbind_step; [apply take_while_app; [exact Hw|reflexivity]|]. cbn [app].
    eapply pbind_step.
    { eapply preceded_step; [apply (tag_one 91)|]. rewrite <- app_assoc. eapply terminated_step.
      - unfold take_till. apply take_while_app; [now apply name_ok|]. reflexivity.
      - apply (tag_one 93). }
    cbv beta. eapply pbind_step.
    { apply (take_while_app is_multispace (repeat 10 (S n)) (join [c_nl] (sec_all y) ++ X)).
      - apply forallb_forall. intros z Hz. apply repeat_spec in Hz. now subst z.
      - destruct (sec_all_head y) as [t ->]. reflexivity. }
    apply pmap_step.
    assert (H1 : forallb (fun l => line_text l && negb (starts_with_char 91 l)) (tl (sec_all y)) = true).
    { cbn [sec_all tl]. rewrite forallb_app, Hls, andb_true_r. apply forallb_forall. intros z Hz.
      apply repeat_spec in Hz. now subst z. }
    assert (H2 : forallb line_text (sec_all y) = true).
    { apply lines_ok_text in H1. change (sec_all y) with ((91 :: sec_name y ++ [93]) :: tl (sec_all y)).
      cbn [forallb]. rewrite H1, andb_true_r. unfold line_text. cbn [forallb]. rewrite forallb_app.
      apply name_ok in Hyn. replace (forallb _ (sec_name y)) with true; [easy|].
      symmetry. rewrite forallb_forall in Hyn |- *. intros z Hz. specialize (Hyn z Hz).
      rewrite negb_orb in Hyn. now apply andb_true_iff in Hyn. }
    destruct HX as [-> | [Y ->]].
    - rewrite app_nil_r. erewrite alt_r; [reflexivity|]. unfold take_until. now rewrite find_header_none.
    - apply alt_l. unfold take_until. now rewrite find_header_some. }
  rewrite (many0_cons _ _ _ _ square_section_safe Hq) in Hr
    by (rewrite !app_length; cbn [app length]; rewrite !app_length; cbn [length]; lia).
  destruct (many0_square_total X) as (r & more & Hm). rewrite Hm in Hr.
  apply loop_app_ok in Hr as (line' & parsed' & acc' & Hr & Hva). cbn [osu_new osu_version] in Hva.
  cbn [osu_loop] in Hr. destruct (mem_str name parsed'); [easy|].
  assert (exists t, join [c_nl] (sec_all y) = (91 :: sec_name y ++ [93]) ++ 10 :: t) as [t Hbody].
  { unfold sec_all. rewrite join_cons by (rewrite Hl; destruct (sec_gap y); easy). eexists. reflexivity. }
  rewrite Hbody in Hr.
  pose proof (header_refused dbg acc' name
    (line' + lines_count w + lines_count (repeat 10 (S n))) (sec_name y) t Hn Hyn) as Href.
  rewrite Hva in Href. specialize (Href Hv Hc).
  destruct (osu_section _ _ _ _ _) as [rr|]; [|easy]. destruct rr as [m| |]; try easy.
  now apply (Href m).
Qed.
