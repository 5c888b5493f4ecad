(** The facts about whole files behind C16, C17, C19-C21, C23, C31 and C34. *)
From Coq Require Import String List NArith ZArith Bool Lia Permutation.
From Verif Require Import Str Num Nom Dec Parsers General Editor Metadata Difficulty Colours
  TimingPoints HitObjects Storyboard NormalEvents Events Osb OsuFile Spec SpecText SpecFile
  StrFacts NumFacts NomFacts LayoutFacts TriggerFacts FileFacts FileLoop.
Import ListNotations.
Local Open Scope N_scope.

(** ** C21 *)
Definition version_error (e : osu_err) : bool :=
  match e with OsuInvalidFileVersion | OsuFileVersionDefinedWrong => true | _ => false end.
Lemma section_facts dbg acc name body i r : osu_section dbg acc name body i = Some r ->
  (forall f, r = ROk f -> osu_version f = osu_version acc)
  /\ (forall j e, r = RErr (mk_line_err j e) -> version_error e = false).
Proof.
  destruct acc as [v g ed o m d ev tp c h]. unfold osu_section.
  repeat match goal with
  | |- context [str_eqb name ?t] =>
      destruct (str_eqb name t);
      [intros H; injection H as <-; split;
       [intros f Hf; apply rmap_pl_ok in Hf; destruct Hf as (a & _ & ->); reflexivity
       |intros j e He; apply rmap_pl_err in He; destruct He as (k & e0 & _ & _ & ->); reflexivity]|]
  end. easy.
Qed.
Lemma usize_pred_no_err {F} dbg n (e : F) : usize_pred dbg n <> RErr e.
Proof. unfold usize_pred. destruct (n =? 0)%Z; [now destruct dbg|easy]. Qed.
Lemma loop_facts dbg l : forall line parsed acc,
  (forall f, osu_loop dbg line parsed acc l = ROk f -> osu_version f = osu_version acc)
  /\ (forall j e, osu_loop dbg line parsed acc l = RErr (mk_line_err j e) -> version_error e = false).
Proof.
  induction l as [|[[[w n] w2] b] l IH]; intros line parsed acc; cbn [osu_loop].
  - split; [congruence|easy].
  - destruct (mem_str n parsed); [split; [easy|]; now intros j e [= <- <-]|].
    destruct (osu_section _ _ _ _ _) as [r|] eqn:Er; [|split; [easy|]; now intros j e [= <- <-]].
    apply section_facts in Er as [E1 E2]. destruct r as [m|[j0 e0]|]; cbn [rbind]; [| |easy].
    + destruct (usize_pred dbg (lines_count b)) as [z|ue|] eqn:Eu; cbn [rbind].
      * destruct (IH (line + lines_count w + lines_count w2 + z)%Z (parsed ++ [n]) m) as [I1 I2].
        split; [|exact I2]. intros f Hf. rewrite (I1 f Hf). now apply E1.
      * now apply usize_pred_no_err in Eu.
      * split; easy.
    + split; [easy|]. intros j e [= <- <-]. now apply (E2 j0).
Qed.

Lemma version_read dbg s ws num rest v : version_head s ws num rest -> version_text num v ->
  osu_from_str dbg s
  = let (pre, rest) := split_pre (lines rest) in
    match unexpected_line 0 pre with
    | Some i => RErr (mk_line_err i OsuUnexpectedLine)
    | None =>
        match many0 (@square_section unit) (join [c_nl] rest) with
        | POk _ sections =>
            osu_loop dbg (lines_count ws + Z.of_nat (length pre))%Z [] (osu_new v) sections
        | PErr _ | PFail _ => RPanic PUnwrap
        | PPanic p => RPanic p
        end
    end.
Proof.
  intros Hh [Hv Hr]. unfold osu_from_str. rewrite (vp_head _ _ _ _ Hh).
  assert (Hu : parse_u8 num = ROk v) by (apply u8_accepts; split; [easy|lia]).
  rewrite Hu. unfold min_version, latest_version. now replace ((3 <=? v) && (v <=? 14))%Z with true by lia.
Qed.
Lemma version_bad dbg s ws num rest : version_head s ws num rest -> (forall v, ~ version_text num v) ->
  osu_from_str dbg s = RErr (mk_line_err 0 OsuInvalidFileVersion).
Proof.
  intros Hh Hb. unfold osu_from_str. rewrite (vp_head _ _ _ _ Hh).
  destruct (parse_u8 num) as [v| |] eqn:E; [|easy|now apply parse_u8_no_panic in E].
  apply u8_accepts in E as [E _]. unfold min_version, latest_version.
  destruct ((3 <=? v) && (v <=? 14))%Z eqn:E2; [|easy]. exfalso. apply (Hb v). split; [easy|lia].
Qed.
Lemma version_dec num : (exists v, version_text num v) \/ (forall v, ~ version_text num v).
Proof.
  destruct (parse_u8 num) as [v| |] eqn:E.
  - pose proof E as E0. apply u8_accepts in E as [E _]. destruct ((3 <=? v) && (v <=? 14))%Z eqn:E2.
    + left. exists v. split; [easy|lia].
    + right. intros w [H1 H2]. assert (H3 : parse_u8 num = ROk w) by (apply u8_accepts; split; [easy|lia]).
      assert (w = v) by congruence. lia.
  - right. intros w [H1 H2]. assert (H3 : parse_u8 num = ROk w) by (apply u8_accepts; split; [easy|lia]).
    congruence.
  - now apply parse_u8_no_panic in E.
Qed.

Lemma many0_square_total s : exists r l, many0 (@square_section unit) s = POk r l.
Proof.
  remember (length s) as n eqn:Hn. revert s Hn. induction n as [n IH] using lt_wf_ind. intros s ->.
  destruct (@square_section unit s) as [r a|e|e|p] eqn:E.
  - assert (Hl : (length r < length s)%nat).
    { unfold square_section in E. apply pbind_inv in E as (r1 & w & E1 & E).
      apply take_while_inv in E1 as (-> & _ & _).
      apply pbind_inv in E as (r2 & nm & E2 & E). unfold delimited, preceded in E2.
      apply pbind_inv in E2 as (r3 & t & E3 & E2). apply tag_inv in E3 as [-> _].
      assert (H2 : (length r2 <= length r3)%nat).
      { pose proof (terminated_safe (C:=unit) (take_till (fun c => (c =? 93) || (c =? 10))) (tag (lit "]"))
          (total_safe _ (take_while_total _)) (tag_safe _) r3) as Hsf.
        rewrite E2 in Hsf. exact Hsf. }
      apply pbind_inv in E as (r4 & w2 & E4 & E). apply take_while_inv in E4 as (-> & _ & _).
      assert (H3 : (length r <= length r4)%nat).
      { pose proof (pmap_safe (C:=unit) (fun body => (w, nm, w2, body)) (alt (take_until [c_nl; 91]) prest)
          (alt_safe _ _ (take_until_safe _) (total_safe _ prest_total)) r4) as Hsf.
        rewrite E in Hsf. exact Hsf. }
      cbn [lit app] in *. rewrite !app_length in *. cbn [length] in *. rewrite ?app_length in *. lia. }
    rewrite (many0_cons _ _ _ _ square_section_safe E) by lia.
    destruct (IH (length r) Hl r eq_refl) as (r' & l & ->). eauto.
  - exists s, []. exact (many0_stop _ _ _ E).
  - exfalso. assert (H : nofail (@square_section unit)); [|now apply (H s e)].
    unfold square_section, delimited, preceded, terminated.
    apply nofail_pbind; [apply nofail_total, take_while_total|]. intros.
    apply nofail_pbind; [apply nofail_pbind; [apply nofail_tag|]; intros; apply nofail_pbind;
      [apply nofail_total, take_while_total|]; intros; apply nofail_pmap, nofail_tag|]. intros.
    apply nofail_pbind; [apply nofail_total, take_while_total|]. intros.
    apply nofail_pmap, nofail_alt; [|apply nofail_total, prest_total].
    intros t e'. unfold take_until. destruct (find_sub _ _) as [[]|]; easy.
  - exfalso. pose proof (@square_section_safe unit s) as H. rewrite E in H. exact H.
Qed.

Lemma version_accepted dbg s f : osu_from_str dbg s = ROk f ->
  exists ws num rest, version_head s ws num rest /\ version_text num (osu_version f).
Proof.
  intros H. destruct (vp_inv s) as [(ws & num & rest & Hh)|[Hv Hno]].
  - exists ws, num, rest. split; [easy|]. destruct (version_dec num) as [[v Hv]|Hb].
    + rewrite (version_read dbg s ws num rest v Hh Hv) in H. destruct (split_pre (lines rest)) as [pre rs].
      destruct (unexpected_line 0 pre); [easy|]. destruct (many0 _ _); try easy.
      apply loop_facts in H. cbn [osu_new osu_version] in H. now rewrite H.
    + rewrite (version_bad dbg s ws num rest Hh Hb) in H. easy.
  - unfold osu_from_str in H. rewrite Hv in H. easy.
Qed.
Lemma other_error dbg s ws num rest v j e : version_head s ws num rest -> version_text num v ->
  osu_from_str dbg s = RErr (mk_line_err j e) -> version_error e = false.
Proof.
  intros Hh Hv H. rewrite (version_read dbg s ws num rest v Hh Hv) in H.
  destruct (split_pre (lines rest)) as [pre rs].
  destruct (unexpected_line 0 pre); [now injection H as <- <-|].
  destruct (many0 _ _); try easy. now apply loop_facts in H.
Qed.
Lemma version_missing dbg s :
  (forall ws num rest, ~ version_head s ws num rest)
  <-> exists j, osu_from_str dbg s = RErr (mk_line_err j OsuFileVersionDefinedWrong).
Proof.
  split.
  - intros Hno. exists 0%Z. destruct (vp_inv s) as [(ws & num & rest & Hh)|[Hv _]].
    + now destruct (Hno ws num rest).
    + unfold osu_from_str. now rewrite Hv.
  - intros [j H] ws num rest Hh. destruct (version_dec num) as [[v Hv]|Hb].
    + now apply (other_error dbg s ws num rest v) in H.
    + rewrite (version_bad dbg s ws num rest Hh Hb) in H. easy.
Qed.
Lemma version_invalid dbg s :
  (exists ws num rest, version_head s ws num rest /\ forall v, ~ version_text num v)
  <-> exists j, osu_from_str dbg s = RErr (mk_line_err j OsuInvalidFileVersion).
Proof.
  split.
  - intros (ws & num & rest & Hh & Hb). exists 0%Z. now apply (version_bad dbg s ws num rest).
  - intros [j H]. destruct (vp_inv s) as [(ws & num & rest & Hh)|[Hv _]].
    + exists ws, num, rest. split; [easy|]. destruct (version_dec num) as [[v Hv]|Hb]; [|easy].
      now apply (other_error dbg s ws num rest v) in H.
    + unfold osu_from_str in H. rewrite Hv in H. easy.
Qed.
Lemma version_error_line dbg s j e : osu_from_str dbg s = RErr (mk_line_err j e) ->
  version_error e = true -> j = 0%Z.
Proof.
  intros H He. destruct (vp_inv s) as [(ws & num & rest & Hh)|[Hv _]].
  - destruct (version_dec num) as [[v Hv]|Hb].
    + apply (other_error dbg s ws num rest v _ _ Hh Hv) in H. congruence.
    + rewrite (version_bad dbg s ws num rest Hh Hb) in H. now injection H as <-.
  - unfold osu_from_str in H. rewrite Hv in H. now injection H as <-.
Qed.

(** ** reading a file that is laid out in sections *)
Lemma read_ended dbg s ws v pre secs tail :
  file_layout s ws v pre secs tail -> ended tail = true ->
  osu_from_str dbg s
  = osu_loop dbg (lines_count ws + Z.of_nat (length pre)) [] (osu_new v) (quads [] secs).
Proof.
  intros H He. destruct tail as [|l tail]; [now apply read_layout_closed|].
  now apply (read_layout_open dbg s ws v pre secs l tail).
Qed.
Lemma layout_secs s ws v pre secs tail : file_layout s ws v pre secs tail -> forallb sec_ok secs = true.
Proof. intros (num & rest & _ & _ & _ & _ & H). exact H. Qed.
Lemma read_ok_iff dbg s ws v pre secs tail f :
  file_layout s ws v pre secs tail -> ended tail = true ->
  (osu_from_str dbg s = ROk f <-> all_read dbg v secs (osu_new v) f).
Proof.
  intros H He. rewrite (read_ended dbg s ws v pre secs tail H He).
  rewrite loop_ok by exact (layout_secs _ _ _ _ _ _ H). unfold all_read. cbn [osu_new osu_version].
  split; [intros (A & B & C & D)|intros (A & B & C)]; auto.
Qed.
Lemma all_read_perm dbg v secs secs' g f : Permutation secs secs' ->
  all_read dbg v secs g f -> all_read dbg v secs' g f.
Proof.
  intros Hp (A & B & C). split; [|split].
  - eapply Permutation_NoDup; [|exact A]. now apply Permutation_map.
  - now rewrite <- Hp.
  - assert (Hin : forall x, In x secs' -> In x secs) by (intros x; apply Permutation_in; now symmetry).
    assert (Hin' : forall x, In x secs -> In x secs') by (intros x; now apply Permutation_in).
    assert (Hh : forall T E name (from : str -> res T E) old new,
      holds secs name from old new -> holds secs' name from old new).
    { intros T E name from old new [H1 H2]. split; [auto|]. intros H. apply H2. auto. }
    unfold describes in *. decompose [and] C. clear C.
    split; [assumption|]. split; [assumption|].
    repeat (split; [apply Hh; assumption|]). apply Hh; assumption.
Qed.
Lemma section_order dbg s s' ws ws' v pre pre' secs secs' tail tail' f :
  file_layout s ws v pre secs tail -> ended tail = true ->
  file_layout s' ws' v pre' secs' tail' -> ended tail' = true ->
  Permutation secs secs' -> osu_from_str dbg s = ROk f -> osu_from_str dbg s' = ROk f.
Proof.
  intros H He H' He' Hp Hr. apply (read_ok_iff dbg s' ws' v pre' secs' tail' f H' He').
  apply (all_read_perm dbg v secs secs' _ _ Hp). now apply (read_ok_iff dbg s ws v pre secs tail f).
Qed.
Lemma duplicate_section dbg s ws v pre secs tail f :
  file_layout s ws v pre secs tail -> ended tail = true ->
  ~ NoDup (map sec_name secs) -> osu_from_str dbg s <> ROk f.
Proof. intros H He Hn Hr. apply (read_ok_iff dbg s ws v pre secs tail f H He) in Hr as [Hr _]. easy. Qed.
Lemma unknown_section dbg s ws v pre secs tail f x :
  file_layout s ws v pre secs tail -> ended tail = true ->
  In x secs -> ~ In (sec_name x) section_names -> osu_from_str dbg s <> ROk f.
Proof.
  intros H He Hx Hn Hr. apply (read_ok_iff dbg s ws v pre secs tail f H He) in Hr as (_ & Hr & _).
  rewrite Forall_forall in Hr. now apply Hn, Hr.
Qed.
Lemma open_header_ignored dbg s s' ws v pre secs l tail :
  file_layout s ws v pre secs (l :: tail) -> open_header l = true ->
  file_layout s' ws v pre secs [] -> osu_from_str dbg s = osu_from_str dbg s'.
Proof.
  intros H Ho H'. rewrite (read_ended dbg s ws v pre secs (l :: tail) H Ho).
  now rewrite (read_ended dbg s' ws v pre secs [] H').
Qed.

(** ** error lines *)
Lemma sizes_true pre before :
  (Z.of_nat (length pre) + sizes before = Z.of_nat (true_line pre before) - blank_ends before)%Z.
Proof.
  unfold true_line, blank_ends. induction before as [|x before IH]; cbn [sizes flat_map filter length]; [lia|].
  rewrite app_length. unfold size. destruct (blank_end x); cbn [length]; lia.
Qed.
Lemma lines_nl_prefix n s : lines (repeat 10 n ++ s) = repeat [] n ++ lines s.
Proof. induction n as [|n IH]; [easy|]. cbn [repeat app lines]. unfold c_nl. now rewrite N.eqb_refl, IH. Qed.
Lemma lines_glue a r : forallb (fun c => negb (c =? 13) && negb (c =? 10)) a = true ->
  match lines r with
  | l :: ls => lines (a ++ r) = (a ++ l) :: ls
  | [] => a <> [] -> lines (a ++ r) = [a]
  end.
Proof.
  intros Ha. destruct (lines r) as [|l ls] eqn:Er.
  - intros Hne. assert (r = []) as -> .
    { destruct r as [|c r]; [easy|]. cbn [lines] in Er. destruct (c =? c_nl); [easy|].
      destruct ((c =? c_cr) && _) eqn:E2; [|now destruct (lines r)].
      destruct r as [|d r]; [now rewrite andb_false_r in E2|]. apply andb_true_iff in E2 as [_ E2].
      cbn [lines] in Er. rewrite E2 in Er. easy. }
    rewrite app_nil_r. apply lines_single; [|easy]. now apply clean_no_nl; unfold clean_line;
      rewrite <- Ha; apply forallb_same; intros c; apply andb_comm.
  - induction a as [|c a IH]; [easy|]. cbn [forallb] in Ha. apply andb_true_iff in Ha as [Hc Ha].
    apply andb_true_iff in Hc as [H13 H10]. apply negb_true_iff in H13, H10.
    cbn [app lines]. unfold c_nl, c_cr. rewrite H13, H10. cbn [andb]. now rewrite (IH Ha).
Qed.
(** the lines of the whole file *)
Lemma file_lines s n v pre secs tail x ls :
  file_layout s (repeat 10 n) v pre secs tail -> secs = x :: ls ->
  exists first pre', length pre = S (length pre') /\
    lines s = repeat [] n ++ first :: pre' ++ flat_map sec_all secs ++ tail.
Proof.
  intros (num & rest & Hh & _ & Hl & _) ->. inversion Hh as [ws bom num' rest' Hw Hb Hn Hr E1 E2 E3 E4]. subst.
  rewrite lines_nl_prefix. set (a := bom ++ version_prefix ++ num).
  replace (bom ++ version_prefix ++ num ++ rest) with (a ++ rest) by (unfold a; now rewrite <- !app_assoc).
  pose proof (lines_glue a rest) as Hg.
  assert (Ha : forallb (fun c => negb (c =? 13) && negb (c =? 10)) a = true).
  { unfold a. rewrite !forallb_app, Hn. destruct Hb as [-> | ->]; reflexivity. }
  specialize (Hg Ha). destruct pre as [|p0 pre].
  - exfalso. cbn [app flat_map sec_all] in Hl. destruct Hr as [->|(c & t & -> & [-> | ->])]; [easy|easy|].
    cbn [lines] in Hl. replace (13 =? c_nl) with false in Hl by reflexivity.
    replace (13 =? c_cr) with true in Hl by reflexivity. cbn [andb] in Hl.
    destruct t as [|d t]; [easy|]. destruct (d =? c_nl) eqn:Ed.
    + cbn [lines] in Hl. rewrite Ed in Hl. easy.
    + now destruct (lines (d :: t)).
  - rewrite Hl in Hg. cbn [app] in Hg. exists (a ++ p0), pre. split; [easy|]. f_equal.
    exact Hg.
Qed.
Lemma refused_known dbg v x k e : refused dbg v x k e -> known x.
Proof.
  intros H. unfold known, section_names. cbn [map In].
  destruct H as [? ? H|? ? H|? ? H|? ? H|? ? H|? ? H|? ? H|? ? H]; rewrite H; tauto.
Qed.
Lemma loop_complaint dbg line parsed acc w x l d e :
  complaint dbg (osu_version acc) [] x d e \/
    (In (sec_name x) parsed /\ d = 0%Z /\ e = OsuDuplicateSections) ->
  (In (sec_name x) parsed -> d = 0%Z /\ e = OsuDuplicateSections) ->
  osu_loop dbg line parsed acc ((w, sec_name x, repeat 10 (S (sec_gap x)), sec_body x) :: l)
  = RErr (mk_line_err (line + lines_count w + d) e).
Proof.
  intros H Hp. cbn [osu_loop]. destruct (mem_str (sec_name x) parsed) eqn:Em.
  - apply mem_str_In in Em. destruct (Hp Em) as [-> ->]. now rewrite Z.add_0_r.
  - apply mem_str_not_In in Em. destruct H as [H|[H _]]; [|easy]. destruct H as [[]|_ H|k e _ H].
    + rewrite (proj1 (section_unknown dbg acc x _) H). now rewrite Z.add_0_r.
    + rewrite (section_refused dbg acc x k e _ H). cbn [rbind]. do 2 f_equal. rewrite lines_count_nl. lia.
Qed.
Lemma error_line dbg s n v pre before x rest tail f0 d e :
  file_layout s (repeat 10 n) v pre (before ++ x :: rest) tail -> ended tail = true ->
  all_read dbg v before (osu_new v) f0 -> complaint dbg v before x d e ->
  osu_from_str dbg s
  = RErr (mk_line_err (Z.of_nat (n + true_line pre before) + d - blank_ends before) e).
Proof.
  intros H He (Hn & Hk & Hd) Hc. rewrite (read_ended dbg s _ v pre _ tail H He).
  pose proof (layout_secs _ _ _ _ _ _ H) as Hs. rewrite forallb_app in Hs. apply andb_true_iff in Hs as [Hs _].
  rewrite <- (app_nil_r (quads [] _)).
  destruct (loop_before dbg before (lines_count (repeat 10 n) + Z.of_nat (length pre)) [] (osu_new v) []
    (x :: rest) [] f0 Hs Hk) as (line' & w' & -> & Hl); try assumption; [easy|].
  cbn [quads app]. rewrite (loop_complaint dbg line' _ f0 w' x _ d e).
  - do 2 f_equal. rewrite Hl, lines_count_nl. change (lines_count []) with 0%Z.
    pose proof (sizes_true pre before). lia.
  - rewrite (describes_version _ _ _ _ _ Hd). cbn [app]. destruct Hc as [Hc|Hc1 Hc2|k e Hc1 Hc2].
    + right. auto.
    + left. now constructor.
    + left. now constructor.
  - cbn [app]. destruct Hc as [Hc|Hc1 Hc2|k e Hc1 Hc2]; easy.
Qed.
Lemma loop_err_inv dbg secs : forall line parsed acc w j e,
  forallb sec_ok secs = true ->
  osu_loop dbg line parsed acc (quads w secs) = RErr (mk_line_err j e) ->
  exists before x rest acc' d, secs = before ++ x :: rest
    /\ Forall known before /\ (forall y, In y before -> ~ In (sec_name y) parsed)
    /\ NoDup (map sec_name before) /\ describes dbg (osu_version acc) before acc acc'
    /\ ((In (sec_name x) (parsed ++ map sec_name before) /\ d = 0%Z /\ e = OsuDuplicateSections)
        \/ (~ In (sec_name x) (parsed ++ map sec_name before)
            /\ complaint dbg (osu_version acc) [] x d e)).
Proof.
  induction secs as [|x secs IH]; intros line parsed acc w j e Hs H; [easy|].
  cbn [forallb] in Hs. apply andb_true_iff in Hs as [Hx Hs]. cbn [quads osu_loop] in H.
  destruct (mem_str (sec_name x) parsed) eqn:Em.
  { apply mem_str_In in Em. exists [], x, secs, acc, 0%Z. injection H as <- <-.
    split; [easy|]. split; [constructor|]. split; [easy|]. split; [constructor|].
    split; [now apply describes_nil|]. left. cbn [map]. rewrite app_nil_r. auto. }
  apply mem_str_not_In in Em. destruct (osu_section _ _ _ _ _) as [r|] eqn:Er.
  2:{ injection H as <- <-. exists [], x, secs, acc, 0%Z.
      split; [easy|]. split; [constructor|]. split; [easy|]. split; [constructor|].
      split; [now apply describes_nil|]. right. cbn [map]. rewrite app_nil_r. split; [exact Em|].
      constructor; [easy|]. eapply section_unknown. exact Er. }
  destruct r as [m|[j0 e0]|p]; [| |easy].
  2:{ cbn [rbind] in H. injection H as <- <-. apply section_err_inv in Er.
      exists [], x, secs, acc. eexists.
      split; [easy|]. split; [constructor|]. split; [easy|]. split; [constructor|].
      split; [now apply describes_nil|]. right. cbn [map]. rewrite app_nil_r. split; [exact Em|].
      apply bad_text; [easy|exact Er]. }
  cbn [rbind] in H. destruct (sec_body_count x Hx) as [_ Hz]. unfold usize_pred in H. rewrite Hz in H.
  cbn [rbind] in H.
  assert (Hk : known x).
  { destruct (in_dec (list_eq_dec N.eq_dec) (sec_name x) section_names) as [Hk|Hk]; [exact Hk|].
    apply (section_unknown dbg acc x (line + lines_count w + lines_count (repeat 10 (S (sec_gap x))))) in Hk.
    congruence. }
  apply section_ok in Er; [|exact Hk].
  apply (IH _ _ _ _ _ _ Hs) in H as (before & y & rest & acc' & d & -> & K1 & K2 & K3 & K4 & K5).
  assert (Hdis : forall y, In y before -> sec_name y <> sec_name x).
  { intros z Hz2 He. apply (K2 z Hz2). rewrite in_app_iff, He. right. now left. }
  pose proof (describes_version _ _ _ _ _ Er) as Hv. rewrite Hv in *.
  exists (x :: before), y, rest, acc', d. split; [easy|]. split; [now constructor|]. split.
  { intros z [<-|Hz2]; [exact Em|]. intros Hin. apply (K2 z Hz2). rewrite in_app_iff. now left. }
  split; [now apply NoDup_cons_names|]. split; [apply describes_cons; [exact Hdis|eauto]|].
  cbn [map]. rewrite <- app_assoc in K5. exact K5.
Qed.
Lemma error_cause dbg s n v pre secs tail j e :
  file_layout s (repeat 10 n) v pre secs tail -> ended tail = true ->
  osu_from_str dbg s = RErr (mk_line_err j e) ->
  exists before x rest f0 d, secs = before ++ x :: rest
    /\ all_read dbg v before (osu_new v) f0 /\ complaint dbg v before x d e
    /\ j = (Z.of_nat (n + true_line pre before) + d - blank_ends before)%Z.
Proof.
  intros H He Hr. pose proof Hr as Hr0. rewrite (read_ended dbg s _ v pre _ tail H He) in Hr.
  apply loop_err_inv in Hr as (before & x & rest & f0 & d & -> & K1 & K2 & K3 & K4 & K5);
    [|exact (layout_secs _ _ _ _ _ _ H)].
  cbn [osu_new osu_version app] in *.
  assert (Ha : all_read dbg v before (osu_new v) f0) by (split; [assumption|now split]).
  assert (Hc : complaint dbg v before x d e).
  { destruct K5 as [(K5 & -> & ->)|[K5 K6]]; [now constructor|].
    destruct K6 as [[]|_ K6|k e _ K6]; now constructor. }
  exists before, x, rest, f0, d. split; [easy|]. split; [exact Ha|]. split; [exact Hc|].
  pose proof (error_line dbg s n v pre before x rest tail f0 d e H He Ha Hc) as Hl. congruence.
Qed.
(** and there stands the line complained about *)
Lemma nth_repeat_app {A} (a : A) n l i : nth_error (repeat a n ++ l) (n + i) = nth_error l i.
Proof. rewrite nth_error_app2; rewrite repeat_length; [f_equal; lia|lia]. Qed.
Lemma line_there s n v pre before x rest tail k :
  file_layout s (repeat 10 n) v pre (before ++ x :: rest) tail ->
  (k < length (sec_all x))%nat ->
  nth_error (lines s) (n + true_line pre before + k) = nth_error (sec_all x) k.
Proof.
  intros H Hk. assert (exists y ls, before ++ x :: rest = y :: ls) as (y & ls & E) by (destruct before; cbn; eauto).
  destruct (file_lines s n v pre _ tail y ls H E) as (first & pre' & Hp & ->).
  replace (n + true_line pre before + k)%nat with (n + (true_line pre before + k))%nat by lia.
  rewrite nth_repeat_app. unfold true_line. rewrite Hp. cbn [Nat.add nth_error].
  rewrite nth_error_app2 by lia. rewrite flat_map_app. cbn [flat_map]. rewrite <- !app_assoc.
  rewrite nth_error_app2 by lia. rewrite nth_error_app1 by lia. f_equal. lia.
Qed.

(** Lines before the first section. *)
Lemma unexpected dbg s num rest v good bad more :
  version_head s [] num rest -> version_text num v -> lines rest = good ++ bad :: more ->
  forallb pre_ok good = true ->
  is_blank bad = false -> starts_with (lit "//") (trim bad) = false ->
  starts_with_char 91 (trim bad) = false -> ends_with_char 93 (trim bad) = false ->
  osu_from_str dbg s = RErr (mk_line_err (Z.of_nat (length good)) OsuUnexpectedLine).
Proof.
  intros Hh Hv Hl Hg Hb1 Hb2 Hb3 Hb4. rewrite (version_read dbg s [] num rest v Hh Hv). rewrite Hl.
  assert (Hbs : pre_section bad = true) by (unfold pre_section; now rewrite trim_trim, Hb3, Hb4).
  assert (exists a b, split_pre (good ++ bad :: more) = (good ++ bad :: a, b)) as (a & b & ->).
  { clear Hl. induction good as [|g good IH].
    - cbn [app split_pre]. rewrite Hbs. destruct (split_pre more). eauto.
    - cbn [forallb] in Hg. apply andb_true_iff in Hg as [Hg1 Hg]. destruct (IH Hg) as (a & b & E).
      cbn [app split_pre]. rewrite E.
      assert (pre_section g = true) as ->; [|eauto].
      destruct (split_pre_app [g] (lit "[") [] ltac:(cbn [forallb]; now rewrite Hg1) eq_refl) as (_ & H2 & _).
      cbn [split_pre] in H2. now destruct (pre_section g). }
  assert (forall i, unexpected_line i (good ++ bad :: a) = Some (i + Z.of_nat (length good))%Z) as ->; [|easy].
  { clear Hl. induction good as [|g good IH]; intros i.
    - cbn [app unexpected_line length]. unfold is_blank in Hb1. rewrite Hb1, Hb2. f_equal. lia.
    - cbn [forallb] in Hg. apply andb_true_iff in Hg as [Hg1 Hg].
      destruct (split_pre_app [g] (lit "[") [] ltac:(cbn [forallb]; now rewrite Hg1) eq_refl) as (_ & _ & H3).
      specialize (H3 i). cbn [app unexpected_line length] in *.
      destruct (is_empty (trim g)); [rewrite (IH Hg); f_equal; lia|].
      destruct (starts_with (lit "//") (trim g)); [rewrite (IH Hg); f_equal; lia|easy]. }
Qed.

(** ** C23 *)
Lemma append_osb_fails dbg f s g r : append_osb dbg f s = (g, r) ->
  r <> ROk tt -> g = f.
Proof. unfold append_osb. destruct (osb_from_str dbg s (osu_version f)); intros [= <- <-] H; easy. Qed.
Lemma append_osb_ok dbg f s g : append_osb dbg f s = (g, ROk tt) ->
  osb_from_str dbg s (osu_version f) = ROk (osu_osb g)
  /\ osu_version g = osu_version f /\ osu_general g = osu_general f /\ osu_editor g = osu_editor f
  /\ osu_metadata g = osu_metadata f /\ osu_difficulty g = osu_difficulty f
  /\ osu_events g = osu_events f /\ osu_timing_points g = osu_timing_points f
  /\ osu_colours g = osu_colours f /\ osu_hitobjects g = osu_hitobjects f.
Proof.
  unfold append_osb. destruct (osb_from_str dbg s (osu_version f)) eqn:E; intros [= <-].
  repeat split; easy.
Qed.
Lemma append_osb_old dbg f s : (osu_version f < 14)%Z ->
  exists g, append_osb dbg f s = (g, ROk tt) /\ osu_osb g = None /\ osu_osb_to_string dbg f = ROk None.
Proof.
  intros H. unfold append_osb, osb_from_str, osu_osb_to_string, osb_to_string.
  replace (osu_version f <? 14)%Z with true by lia. eexists. split; [reflexivity|]. split; [easy|].
  now destruct (osu_osb f).
Qed.

(** ** the layout is what one writes *)
Lemma canonical_layout num v pre secs tail :
  version_text num v -> forallb pre_ok pre = true -> forallb sec_ok secs = true ->
  forallb plain_line (pre ++ flat_map sec_all secs ++ tail) = true ->
  last (pre ++ flat_map sec_all secs ++ tail) [0] <> [] ->
  file_layout (version_prefix ++ num ++ 10 :: text_of_lines (pre ++ flat_map sec_all secs ++ tail))
    [] v ([] :: pre) secs tail.
Proof.
  intros Hv Hp Hs Hpl Hlast. set (L := pre ++ flat_map sec_all secs ++ tail) in *.
  exists num, (10 :: text_of_lines L). split; [|split; [exact Hv|split; [|split; [|exact Hs]]]].
  - apply (vh [] [] num (10 :: text_of_lines L)); auto.
    + destruct Hv as [Hv _].
      assert (Hd : forall ds, Forall digit ds -> forallb (fun c => negb (c =? 13) && negb (c =? 10)) ds = true).
      { intros ds H. apply forallb_forall. intros c Hc. rewrite Forall_forall in H. specialize (H c Hc).
        unfold digit in H. apply andb_true_iff. split; apply negb_true_iff, N.eqb_neq; lia. }
      destruct Hv as [ds _ H|ds _ H|ds E _ H]; [now apply Hd|cbn [forallb]; now rewrite Hd|easy].
    + right. eauto.
  - cbn [lines]. replace (10 =? c_nl) with true by reflexivity.
    rewrite text_of_lines_join. change ([] :: lines (join [c_nl] L) = [] :: L). f_equal.
    destruct L as [|l0 L0] eqn:EL; [easy|]. rewrite <- EL in *.
    apply lines_join; [exact Hpl|]. intros l Hl. subst l. intros E. apply Hlast.
    rewrite EL in *. clear -E. revert E. generalize l0. induction L0 as [|a L0 IH]; intros l1 E; [exact E|].
    cbn [last] in *. apply (IH a). exact E.
  - cbn [forallb]. rewrite Hp. reflexivity.
Qed.
