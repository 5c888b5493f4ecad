(** Printing and reading back of hit samples and hit objects. *)
From Coq Require Import String List NArith ZArith Bool Lia.
From Verif Require Import Str Num Nom Dec Parsers Colours TimingPoints HitObjects Spec StrFacts NumFacts
  NomFacts DecFacts LineFacts ColoursFacts FieldFacts TpFacts HoFacts.
Import ListNotations.
Local Open Scope N_scope.

(** ** small types *)

Lemma sample_set_print x :
  sample_set_ok x = true -> sample_set_from_str (sample_set_to_string x) = ROk (Some x).
Proof.
  intros H. unfold sample_set_from_str, sample_set_to_string.
  rewrite parse_print_usize.
  2:{ destruct x; try easy. cbn in *. unfold in_usize. lia. }
  cbn [rmap]. do 2 f_equal. destruct x as [| | | |z]; try easy. cbn in *. unfold sample_set_of_Z.
  destruct (Z.eqb_spec z 0), (Z.eqb_spec z 1), (Z.eqb_spec z 2), (Z.eqb_spec z 3); subst; easy.
Qed.
Lemma ho_index_print x :
  ho_index_ok x = true -> ho_index_from_str (ho_index_to_string x) = ROk (Some x).
Proof.
  intros H. unfold ho_index_from_str, ho_index_to_string.
  rewrite parse_print_usize.
  2:{ destruct x; try easy. cbn in *. unfold in_usize. lia. }
  cbn [rmap]. do 2 f_equal. destruct x as [|z]; try easy. cbn in *. unfold ho_index_of_Z.
  destruct (Z.eqb_spec z 0); subst; easy.
Qed.
Lemma ho_volume_print x :
  ho_volume_ok x = true -> ho_volume_from_str (print_Z (ho_volume_to_Z x)) = ROk (Some x).
Proof.
  intros H. unfold ho_volume_from_str.
  rewrite parse_print_u8.
  2:{ destruct x; try easy. cbn in *. unfold in_u8, u8_max. lia. }
  destruct x as [z|]; [|easy]. cbn in *. destruct (Z.eqb_spec z 0); [lia|]. unfold ho_volume_new.
  destruct (Z.eqb_spec z 0); [lia|]. destruct (Z.ltb_spec 100 z); [lia|easy].
Qed.
Lemma hit_sound_print h : hit_sound_from_str (hit_sound_to_string h) = ROk (Some h).
Proof. destruct h as [[] [] [] []]; vm_compute; reflexivity. Qed.
Lemma hit_sound_num h : exists z, hit_sound_to_string h = print_Z z.
Proof. unfold hit_sound_to_string. eexists. reflexivity. Qed.
Lemma curve_type_print c : curve_type_from_str (curve_type_to_string c) = ROk (Some c).
Proof. now destruct c. Qed.

(** ** hit samples *)
Lemma print_Z_no_colon z : no_colon (print_Z z) = true.
Proof.
  eapply forallb_impl; [|apply print_Z_chars]. intros c H. cbn.
  destruct (N.eqb_spec c 58); [subst; discriminate|easy].
Qed.
Lemma hs_field_app a b : no_colon a = true -> hs_field (a ++ lit ":" ++ b) = POk (lit ":" ++ b) a.
Proof. intros H. now apply take_while_app. Qed.
Lemma hs_field_all a : no_colon a = true -> hs_field a = POk [] a.
Proof. intros H. now apply take_while_all. Qed.
Lemma nothing_print_Z {C} z r : exists e, @nothing C (print_Z z ++ r) = PErr e.
Proof.
  pose proof (print_Z_chars z) as Hc. pose proof (print_Z_nonempty z) as Hn.
  destruct (print_Z z) as [|c s]; [easy|]. cbn in Hc. apply andb_true_iff in Hc as [Hc _].
  assert (Hs : stops is_space0 (c :: s ++ r) = true).
  { cbn. unfold is_space0. destruct (N.eqb_spec c 32), (N.eqb_spec c 9); subst; easy. }
  eexists. unfold nothing. cbn [app]. eapply preceded_step; [apply (take_while_none _ _ Hs)|]. reflexivity.
Qed.
Lemma nothing_colon {C} r : exists e, @nothing C (lit ":" ++ r) = PErr e.
Proof. eexists. reflexivity. Qed.
Lemma nothing_comma {C} r : exists e, @nothing C (lit "," ++ r) = PErr e.
Proof. eexists. reflexivity. Qed.
Lemma nothing_nil {C} : @nothing C [] = POk [] [].
Proof. reflexivity. Qed.
Lemma nothing_spaces {C} s : forallb is_space0 s = false -> exists e, @nothing C s = PErr e.
Proof.
  intros H. unfold nothing, preceded, pbind, space0, take_while.
  destruct (span is_space0 s) as [a b] eqn:E. apply span_spec in E as (-> & Ha & Hb).
  destruct b as [|c b]; [|eexists; reflexivity]. rewrite app_nil_r in H. congruence.
Qed.

(** an optional field that is there and is a number *)
Lemma hs_optional_num {A} (p : parser hs_err A) z b x r :
  p (print_Z z ++ b) = POk r x ->
  hs_optional p (lit ":" ++ print_Z z ++ b) = POk r (Some x).
Proof.
  intros H. unfold hs_optional.
  destruct (@nothing_print_Z hs_err z b) as [e1 E1].
  rewrite (alt_r _ _ _ e1).
  2:{ apply pmap_err. eapply preceded_step; [apply tag_app|exact E1]. }
  destruct (@nothing_colon hs_err (print_Z z ++ b)) as [e2 E2].
  rewrite (alt_r _ _ _ e2) by now apply pmap_err.
  eapply preceded_step; [apply context_ok, tag_app|]. now apply pmap_step.
Qed.
Lemma hs_optional_end {A} (p : parser hs_err A) : hs_optional p [] = POk [] None.
Proof. reflexivity. Qed.

Lemma hs_sample_set_mid x b : sample_set_ok x = true ->
  hs_sample_set (sample_set_to_string x ++ lit ":" ++ b) = POk (lit ":" ++ b) x.
Proof.
  intros H. unfold hs_sample_set. apply context_ok. eapply map_res_ok; [apply hs_field_app, print_Z_no_colon|].
  now rewrite sample_set_print.
Qed.
Definition hs_index_p : parser hs_err ho_index :=
  context HsInvalidIndex (map_res hs_field (fun s => v_unwrap (ho_index_from_str s))).
Definition hs_volume_p : parser hs_err ho_volume :=
  context HsInvalidVolume (map_res hs_field (fun s => v_unwrap (ho_volume_from_str s))).
Lemma hs_index_mid x b : ho_index_ok x = true ->
  hs_index_p (ho_index_to_string x ++ lit ":" ++ b) = POk (lit ":" ++ b) x.
Proof.
  intros H. apply context_ok. eapply map_res_ok; [apply hs_field_app, print_Z_no_colon|].
  now rewrite ho_index_print.
Qed.
Lemma hs_index_last x : ho_index_ok x = true -> hs_index_p (ho_index_to_string x) = POk [] x.
Proof.
  intros H. apply context_ok. eapply map_res_ok; [apply hs_field_all, print_Z_no_colon|].
  now rewrite ho_index_print.
Qed.
Lemma hs_volume_mid x b : ho_volume_ok x = true ->
  hs_volume_p (print_Z (ho_volume_to_Z x) ++ lit ":" ++ b) = POk (lit ":" ++ b) x.
Proof.
  intros H. apply context_ok. eapply map_res_ok; [apply hs_field_app, print_Z_no_colon|].
  now rewrite ho_volume_print.
Qed.
Lemma hs_name_print s : sample_name_ok s = true ->
  exists o, hs_optional hs_field (lit ":" ++ s) = POk [] o /\ or_default [] o = s.
Proof.
  unfold sample_name_ok. rewrite andb_true_iff. intros [H1 H2].
  destruct s as [|c s]; [exists None; easy|]. cbn [is_empty orb] in H2. apply negb_true_iff in H2.
  exists (Some (c :: s)). split; [|easy]. unfold hs_optional.
  destruct (@nothing_spaces hs_err _ H2) as [e1 E1].
  rewrite (alt_r _ _ _ e1).
  2:{ apply pmap_err. eapply preceded_step; [apply tag_app|exact E1]. }
  destruct (@nothing_colon hs_err (c :: s)) as [e2 E2].
  rewrite (alt_r _ _ _ e2) by now apply pmap_err.
  eapply preceded_step; [apply context_ok, tag_app|]. apply pmap_step. now apply hs_field_all.
Qed.

Definition hs_three (h : hit_sample) : str :=
  sample_set_to_string (hs_normal h) ++ lit ":" ++ sample_set_to_string (hs_addition h) ++ lit ":"
  ++ ho_index_to_string (hs_index h).
Lemma app_assoc5 {A} (a b c d e f : list A) : (a ++ b ++ c ++ d ++ e) ++ f = a ++ b ++ c ++ d ++ e ++ f.
Proof. now rewrite <- !app_assoc. Qed.

Lemma hit_sample_long h v :
  (12 <= v)%Z ->
  hit_sample_to_string h v =
  Some (sample_set_to_string (hs_normal h) ++ lit ":" ++ sample_set_to_string (hs_addition h) ++ lit ":"
        ++ ho_index_to_string (hs_index h) ++ lit ":" ++ print_Z (ho_volume_to_Z (hs_volume h)) ++ lit ":"
        ++ hs_filename h).
Proof.
  intros Hv. unfold hit_sample_to_string.
  replace ((3 <=? v)%Z && (v <=? 9)%Z) with false by lia.
  replace ((10 <=? v)%Z && (v <=? 11)%Z) with false by lia.
  now rewrite <- !app_assoc.
Qed.
Lemma hit_sample_parse_long h :
  hit_sample_ok h = true ->
  hit_sample_parser
    (sample_set_to_string (hs_normal h) ++ lit ":" ++ sample_set_to_string (hs_addition h) ++ lit ":"
     ++ ho_index_to_string (hs_index h) ++ lit ":" ++ print_Z (ho_volume_to_Z (hs_volume h)) ++ lit ":"
     ++ hs_filename h) = POk [] h.
Proof.
  unfold hit_sample_ok. rewrite !andb_true_iff. intros [[[[Hn Ha] Hi] Hv] Hf].
  unfold hit_sample_parser.
  match goal with |- alt _ _ (?a ++ ?b) = _ => destruct (@nothing_print_Z hs_err (sample_set_to_Z (hs_normal h)) b) as [e1 E1] end.
  rewrite (alt_r _ _ _ e1) by now apply pmap_err.
  eapply pbind_step.
  { rewrite (alt_r _ _ _ e1) by now apply pmap_err. apply pmap_step. now apply hs_sample_set_mid. }
  eapply pbind_step.
  { apply hs_optional_num. now apply hs_sample_set_mid. }
  eapply pbind_step.
  { apply hs_optional_num. now apply hs_index_mid. }
  eapply pbind_step.
  { apply hs_optional_num. now apply hs_volume_mid. }
  destruct (hs_name_print _ Hf) as (o & Ho & Hd). unfold pmap. rewrite Ho. cbn [or_default]. rewrite Hd.
  now destruct h.
Qed.
Lemma hit_sample_parse_short h :
  sample_set_ok (hs_normal h) = true -> sample_set_ok (hs_addition h) = true -> ho_index_ok (hs_index h) = true ->
  hit_sample_parser (hs_three h) =
  POk [] (mk_hit_sample (hs_normal h) (hs_addition h) (hs_index h) None []).
Proof.
  intros Hn Ha Hi. unfold hs_three, hit_sample_parser.
  match goal with |- alt _ _ (?a ++ ?b) = _ => destruct (@nothing_print_Z hs_err (sample_set_to_Z (hs_normal h)) b) as [e1 E1] end.
  rewrite (alt_r _ _ _ e1) by now apply pmap_err.
  eapply pbind_step.
  { rewrite (alt_r _ _ _ e1) by now apply pmap_err. apply pmap_step. now apply hs_sample_set_mid. }
  eapply pbind_step.
  { apply hs_optional_num. now apply hs_sample_set_mid. }
  eapply pbind_step.
  { rewrite <- (app_nil_r (ho_index_to_string _)). apply hs_optional_num. rewrite app_nil_r. now apply hs_index_last. }
  easy.
Qed.
Lemma hit_sample_round_trip h v :
  (12 <= v)%Z -> hit_sample_ok h = true ->
  exists s, hit_sample_to_string h v = Some s /\ hit_sample_from_str s = ROk (Some h).
Proof.
  intros Hv H. eexists. split; [now apply hit_sample_long|]. unfold hit_sample_from_str.
  now rewrite hit_sample_parse_long.
Qed.
Lemma hit_sample_round_trip_mid h v :
  (10 <= v <= 11)%Z -> hit_sample_ok h = true ->
  exists s, hit_sample_to_string h v = Some s
    /\ hit_sample_from_str s
       = ROk (Some (mk_hit_sample (hs_normal h) (hs_addition h) (hs_index h) None [])).
Proof.
  intros Hv H. unfold hit_sample_ok in H. rewrite !andb_true_iff in H. destruct H as [[[[Hn Ha] Hi] _] _].
  exists (hs_three h). split.
  - unfold hit_sample_to_string.
    replace ((3 <=? v)%Z && (v <=? 9)%Z) with false by lia.
    now replace ((10 <=? v)%Z && (v <=? 11)%Z) with true by lia.
  - unfold hit_sample_from_str. now rewrite hit_sample_parse_short.
Qed.
Lemma hit_sample_old h v : (3 <= v <= 9)%Z -> hit_sample_to_string h v = None.
Proof. intros Hv. unfold hit_sample_to_string. now replace ((3 <=? v)%Z && (v <=? 9)%Z) with true by lia. Qed.

(** what is read is well formed *)
Lemma sample_set_of_ok z : in_usize z = true -> sample_set_ok (sample_set_of_Z z) = true.
Proof.
  intros H. unfold sample_set_of_Z, in_usize in *.
  destruct (Z.eqb_spec z 0), (Z.eqb_spec z 1), (Z.eqb_spec z 2), (Z.eqb_spec z 3); try easy.
  cbn. lia.
Qed.
Lemma sample_set_from_ok s x : sample_set_from_str s = ROk (Some x) -> sample_set_ok x = true.
Proof. intros H. apply rmap_inv in H as (z & H & [= ->]). now apply parse_usize_range, sample_set_of_ok in H. Qed.
Lemma ho_index_from_ok s x : ho_index_from_str s = ROk (Some x) -> ho_index_ok x = true.
Proof.
  intros H. apply rmap_inv in H as (z & H & [= ->]). apply parse_usize_range in H. unfold in_usize in H.
  unfold ho_index_of_Z. destruct (Z.eqb_spec z 0); [easy|]. cbn. lia.
Qed.
Lemma ho_volume_from_ok s x : ho_volume_from_str s = ROk (Some x) -> ho_volume_ok x = true.
Proof.
  unfold ho_volume_from_str. destruct (parse_u8 s) as [z|e|p] eqn:E; try easy.
  apply parse_u8_range in E. unfold in_u8, u8_max in E. unfold ho_volume_new.
  destruct (Z.eqb_spec z 0) as [->|Hz]; cbn; [now intros [= <-]|].
  destruct (Z.eqb_spec z 0); [easy|]. destruct (Z.ltb_spec 100 z); cbn; [easy|]. intros [= <-]. cbn. lia.
Qed.
Lemma hs_optional_inv {A} (p : parser hs_err A) s r o :
  hs_optional p s = POk r o ->
  o = None \/ exists t x, o = Some x /\ s = lit ":" ++ t /\ p t = POk r x /\ forallb is_space0 t = false.
Proof.
  unfold hs_optional. intros H. unfold alt at 1 in H.
  destruct (pmap _ (preceded hs_sep nothing) s) as [r1 a1|e1|e1|] eqn:E1; try easy.
  - left. apply pmap_inv in E1 as (? & _ & ->). now injection H as _ <-.
  - apply alt_inv in H as [H|H]; [left; now apply pmap_inv in H as (? & _ & ->)|right].
    apply pbind_inv in H as (t & c & Hc & H). apply context_inv in Hc. apply tag_inv in Hc as [-> _].
    apply pmap_inv in H as (x & H & ->). exists t, x. repeat split; try easy.
    destruct (forallb is_space0 t) eqn:Ef; [|easy]. exfalso.
    unfold pmap in E1. rewrite (preceded_ok hs_sep nothing (lit ":" ++ t) t _ (tag_app _ _)) in E1.
    unfold nothing, preceded, pbind, space0 in E1. rewrite take_while_all in E1 by easy. easy.
Qed.
Lemma hit_sample_ok_split h :
  hit_sample_ok h = hit_sample_read h && name_kept (hs_filename h).
Proof. unfold hit_sample_ok, hit_sample_read, sample_name_ok. now rewrite andb_assoc. Qed.
Lemma hit_sample_parser_ok s r h : hit_sample_parser s = POk r h -> hit_sample_read h = true.
Proof.
  unfold hit_sample_parser. intros H. apply alt_inv in H as [H|H].
  { apply pmap_inv in H as (? & _ & ->). easy. }
  apply pbind_inv in H as (r1 & n & Hn & H). apply pbind_inv in H as (r2 & a & Ha & H).
  apply pbind_inv in H as (r3 & i & Hi & H). apply pbind_inv in H as (r4 & vol & Hv & H).
  apply pmap_inv in H as (f & Hf & ->). unfold hit_sample_read. cbn [hs_normal hs_addition hs_index hs_volume hs_filename].
  assert (Hss : forall s r x, hs_sample_set s = POk r x -> sample_set_ok x = true).
  { intros s0 r0 x Hx. apply context_inv, map_res_inv in Hx as (t & _ & Hx).
    apply v_unwrap_inv in Hx. now apply sample_set_from_ok in Hx. }
  rewrite !andb_true_iff. repeat split.
  - apply alt_inv in Hn as [Hn|Hn]; apply pmap_inv in Hn as (x & Hn & ->); [easy|]. now apply Hss in Hn.
  - apply hs_optional_inv in Ha as [->|(t & x & -> & _ & Ha & _)]; [easy|]. now apply Hss in Ha.
  - apply hs_optional_inv in Hi as [->|(t & x & -> & _ & Hi & _)]; [easy|].
    apply context_inv, map_res_inv in Hi as (u & _ & Hi). apply v_unwrap_inv in Hi.
    now apply ho_index_from_ok in Hi.
  - apply hs_optional_inv in Hv as [->|(t & x & -> & _ & Hv & _)]; [easy|].
    apply context_inv, map_res_inv in Hv as (u & _ & Hv). apply v_unwrap_inv in Hv.
    now apply ho_volume_from_ok in Hv.
  - apply hs_optional_inv in Hf as [->|(t & x & -> & _ & Hf & Hs)]; [easy|]. cbn [or_default].
    now apply take_while_inv in Hf as (-> & Hf & Hr).
Qed.
Lemma hit_sample_from_ok s h : hit_sample_from_str s = ROk (Some h) -> hit_sample_read h = true.
Proof.
  unfold hit_sample_from_str, verbose_error_to_error.
  destruct (hit_sample_parser s) as [r x|e|e|p] eqn:E; cbn; try easy; try (now destruct (e_ctx e)).
  intros [= <-]. now apply hit_sample_parser_ok in E.
Qed.
