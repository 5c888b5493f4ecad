(** Proofs about the text of whole files (C33). *)
From Coq Require Import String List NArith ZArith Bool Lia.
From Verif Require Import Str Num Nom Dec Parsers KeyValue KvFields General Editor Metadata Difficulty Colours
  TimingPoints HitObjects Storyboard NormalEvents Events Osb OsuFile Spec SpecWf SpecText SpecKv SpecSections
  SpecFile SpecTypes SpecCmd SpecEvents SpecWhole StrFacts NumFacts LineFacts ColoursFacts FieldFacts TpFacts HoFacts HoRound HoObj DecFacts DecFacts
  LayoutFacts CmdTree KvFacts KvSem KvSections KvTheorems KvStatements FileFacts FileLoop FileTheorems EvFacts EvRound EvLoop.
Import ListNotations.
Local Open Scope N_scope.

(** ** the lines of a section *)
Definition body_ok (ls : list str) : bool :=
  match ls with (c :: _) :: _ => negb (layout_char c) | _ => false end
  && forallb (fun l => plain_line l && negb (starts_with_char 91 l) && negb (is_empty l)) ls.
Lemma text_snoc ls : ls <> [] -> text_of_lines (ls ++ [[]]) = text_of_lines ls ++ [10].
Proof.
  induction ls as [|l ls IH]; [easy|]. intros _. destruct ls as [|m ls]; [easy|].
  change (text_of_lines ((l :: m :: ls) ++ [[]])) with (l ++ 10 :: text_of_lines ((m :: ls) ++ [[]])). rewrite IH by easy.
  change (text_of_lines (l :: m :: ls)) with (l ++ 10 :: text_of_lines (m :: ls)). now rewrite <- app_assoc.
Qed.
Lemma lines_text_nl ls : forallb plain_line ls = true -> ls <> [] -> lines (text_of_lines ls ++ [10]) = ls.
Proof.
  induction ls as [|l ls IH]; [easy|]. cbn [forallb]. intros H _. apply andb_true_iff in H as [Hl H].
  unfold plain_line in Hl. apply andb_true_iff in Hl as [H1 H2]. apply negb_true_iff in H2. destruct ls as [|m ls].
  - cbn [text_of_lines]. now rewrite lines_app_nl.
  - change (text_of_lines (l :: m :: ls)) with (l ++ 10 :: text_of_lines (m :: ls)). rewrite <- app_assoc. cbn [app]. rewrite lines_app_nl by easy. now rewrite IH.
Qed.
Lemma good_same ls : forallb good_line ls = true -> ls <> [] -> lines (text_of_lines ls ++ [10]) = lines (text_of_lines ls).
Proof.
  intros H Hn. rewrite lines_text_nl; [|eapply forallb_impl; [|exact H]; intros l Hl; unfold good_line in Hl; now apply andb_true_iff in Hl|easy].
  rewrite text_of_lines_join. now rewrite good_lines_join.
Qed.
Lemma good_plain ls : forallb good_line ls = true -> forallb plain_line ls = true.
Proof. intros H. eapply forallb_impl; [|exact H]. intros l Hl. unfold good_line in Hl. now apply andb_true_iff in Hl. Qed.

(** ** key/value sections *)
Section Kv.
  Context {S E : Type} (errs : kv_errs E) (fields : list (field S E)) (new : S) (spacing : str -> version -> str).
  Hypothesis laws : field_laws fields new spacing.
  Lemma gap_snoc w : gap_ok w = true -> gap_ok (w ++ [10]) = true.
  Proof.
    unfold gap_ok. rewrite forallb_app. intros H. apply andb_true_iff in H as [H1 H2]. rewrite H1. cbn [forallb andb].
    destruct w as [|c w]; [easy|]. exact H2.
  Qed.
  Lemma entries_snoc es k r g : entries_ok (es ++ [((k, r), g)]) = true -> entries_ok (es ++ [((k, r), g ++ [10])]) = true.
  Proof.
    induction es as [|e es IH]; cbn [app].
    - cbn. unfold entry_ok, entry_key, entry_rest, entry_gap. cbn [fst snd]. rewrite !andb_true_r, !andb_true_iff. intros [[H1 H2] H3]. auto using gap_snoc.
    - cbn [entries_ok]. rewrite !andb_true_iff. intros [[H1 H2] H3]. split; [split; [easy|now apply IH]|]. now destruct es.
  Qed.
  Lemma kv_newline s v sec : kv_from_str errs fields new s v = ROk (Some sec) -> kv_from_str errs fields new (s ++ [10]) v = ROk (Some sec).
  Proof.
    intros H. apply (kv_from_str_ok errs fields new spacing laws) in H as (es & t & -> & H1 & H2 & H3 & H4 & H5 & H6). apply (kv_from_str_ok errs fields new spacing laws).
    assert (B : is_blank (t ++ [10]) = true).
    { unfold is_blank in *. destruct (trim t) eqn:Et; [|easy]. unfold trim in Et. rewrite trim_end_nil in Et.
      replace (trim (t ++ [10])) with (@nil char); [easy|]. symmetry. unfold trim. rewrite trim_end_nil.
      assert (W : forallb is_ws t = true).
      { destruct (trim_start_incl t) as (a & Ha & Wa). rewrite Ha, forallb_app, Wa. exact Et. }
      destruct (trim_start_incl (t ++ [10])) as (a & Ha & Wa).
      assert (W2 : forallb is_ws (t ++ [10]) = true) by now rewrite forallb_app, W. rewrite Ha, forallb_app in W2. now apply andb_true_iff in W2. }
    destruct t as [|c t].
    - destruct es as [|e0 es0] eqn:Ees.
      + exists [], [10]. repeat split; auto.
      + rewrite <- Ees in *. destruct (exists_last (l := es) ltac:(now rewrite Ees)) as (es1 & [[k r] g] & Hes). clear Ees e0 es0. subst es.
        exists (es1 ++ [((k, r), g ++ [10])]), []. rewrite !app_nil_r. split.
        { unfold kv_text. rewrite !map_app, !concat_app. cbn [map concat]. rewrite !app_nil_r, <- app_assoc. f_equal.
          unfold entry_text, entry_key, entry_rest, entry_gap. cbn [fst snd]. rewrite <- app_assoc. cbn [app]. now rewrite <- app_assoc. }
        assert (Hin : forall e, In e (es1 ++ [(k, r, g ++ [10])]) -> exists e', In e' (es1 ++ [(k, r, g)]) /\ fst e' = fst e).
        { intros e He. apply in_app_or in He as [He|[<-|[]]]; [exists e; split; [apply in_or_app; now left|easy]|]. exists (k, r, g). split; [apply in_elt|easy]. }
        split; [now apply entries_snoc|]. split; [apply entries_rest_nil|]. split; [easy|].
        split; [rewrite map_app in *; exact H4|]. split.
        * intros e He. destruct (Hin e He) as (e' & He' & Hf). specialize (H5 e' He').
          unfold good_entry, entry_value, entry_rest, entry_key in *. now rewrite <- Hf.
        * intros f Hf. rewrite H6 by easy. clear. unfold value_at. induction es1 as [|e es IH]; cbn [app].
          -- unfold find_key. cbn [find]. unfold entry_key. cbn [fst]. destruct (str_eqb _ _); easy.
          -- unfold find_key in *. cbn [find]. destruct (str_eqb _ _); [easy|]. exact IH.
    - exists es, ((c :: t) ++ [10]). split; [now rewrite <- app_assoc|]. split; [easy|]. split; [|easy].
      unfold rest_after in *. apply andb_true_iff in H2 as [R1 R2]. apply andb_true_iff. split.
      + replace (first_line ((c :: t) ++ [10])) with (first_line (c :: t)); [easy|]. unfold first_line. clear.
        generalize (c :: t). induction l as [|d l IH]; [easy|]. cbn [app span]. destruct (negb (d =? 10)); [|easy].
        destruct (span _ l), (span _ (l ++ [10])). cbn [fst] in *. now rewrite IH.
      + destruct es; [easy|]. cbn [app is_empty] in *. cbn [orb] in *. exact R2.
  Qed.
  Definition key_start (k : str) : bool := match k with c :: _ => negb (layout_char c) && negb (c =? 91) | [] => false end.
  Lemma kv_body sec sec' v t :
    (forall f x, In f fields -> f_get f sec = Some x -> field_rt f v x (f_get f sec')) ->
    forallb key_start (map f_name fields) = true ->
    kv_to_string fields spacing sec v = Some t -> t <> [] -> exists ls, t = text_of_lines ls /\ body_ok ls = true.
  Proof.
    intros Hrt Hk Ht Hne. rewrite kv_to_string_text in Ht. injection Ht as <-.
    set (l := flatten_opt (map (field_kr spacing v sec) fields)) in *.
    assert (Hl : forall kr, In kr l -> key_start (fst kr) = true /\ plain_line (kr_line kr) = true).
    { intros kr Hkr. apply field_kr_in with (fields := fields) in Hkr as (f & x & t & Hf & Hx & Ht & ->); [|auto]. cbn [fst].
      split; [rewrite forallb_forall in Hk; apply Hk; now apply in_map|]. destruct (law_key _ _ _ laws f Hf) as [K1 K2].
      pose proof (Hrt f x Hf Hx) as Hr. unfold field_rt in Hr. rewrite Ht in Hr. destruct Hr as (R1 & _).
      assert (R : rest_ok (spacing (f_name f) v ++ t) = true).
      { unfold rest_ok in *. rewrite forallb_app. apply andb_true_iff. split; [|easy]. apply blanks_rest_ok, (law_spacing _ _ _ laws). }
      unfold kr_line. cbn [fst snd]. generalize dependent (spacing (f_name f) v ++ t). intros r R. unfold plain_line. apply andb_true_iff. split.
      - unfold no_nl. rewrite forallb_app. cbn [forallb]. apply andb_true_iff. split.
        + unfold key_ok in K1. eapply forallb_impl; [|exact K1]. intros c Hc. cbn in Hc. apply negb_true_iff in Hc. apply orb_false_iff in Hc as [_ Hc]. now rewrite Hc.
        + unfold rest_ok in R. eapply forallb_impl; [|exact R]. intros c Hc. unfold break_char in Hc. apply negb_true_iff in Hc. apply orb_false_iff in Hc as [_ Hc]. now rewrite Hc.
      - apply negb_true_iff. rewrite ends_with_char_app by easy. unfold rest_ok in R. rewrite forallb_forall in R.
        destruct r as [|c0 r0] eqn:Er; [easy|]. rewrite <- Er in *. destruct (exists_last (l := r) ltac:(now rewrite Er)) as (a & d & Hr). rewrite Hr.
        change (58 :: a ++ [d]) with ((58 :: a) ++ [d]). rewrite ends_with_char_snoc. specialize (R d). rewrite Hr in R. specialize (R ltac:(apply in_elt)).
        unfold break_char in R. now destruct (d =? 13). }
    exists (map kr_line l). split; [easy|]. unfold body_ok. apply andb_true_iff. split.
    - destruct l as [|kr l0]; [easy|]. cbn [map]. destruct (Hl kr (or_introl eq_refl)) as [K _]. unfold key_start in K. unfold kr_line. destruct (fst kr) as [|c k]; [easy|].
      cbn [app]. now apply andb_true_iff in K.
    - apply forallb_forall. intros x Hx. apply in_map_iff in Hx as (kr & <- & Hkr). destruct (Hl kr Hkr) as [K P]. rewrite P. cbn [andb].
      unfold key_start in K. unfold kr_line. destruct (fst kr) as [|c k]; [easy|]. cbn [app starts_with_char is_empty]. apply andb_true_iff in K as [_ K]. now rewrite K.
  Qed.
End Kv.

(** ** each section *)
Definition part {T E} (from : str -> res (option T) E) (ls : list str) (x : T) : Prop :=
  body_ok ls = true /\ from (text_of_lines ls) = ROk (Some x) /\ from (text_of_lines ls ++ [10]) = ROk (Some x).
Lemma text_nonempty ls : Forall (fun l => l <> []) ls -> ls <> [] -> text_of_lines ls <> [].
Proof. intros H Hn. destruct H as [|l ls Hl H]; [easy|]. destruct l; [easy|]. now destruct ls. Qed.
Lemma kv_line_nonempty k gap t : Forall (fun l => l <> []) (kv_line k gap t).
Proof. destruct t; cbn; repeat constructor. now destruct (lit k). Qed.
Lemma is_empty_neq {A} (l : list A) : negb (is_empty l) = true -> l <> [].
Proof. now destruct l. Qed.
Ltac nonempty_lines := repeat (apply Forall_app; split); apply kv_line_nonempty.
Lemma general_part v g : general_ok g = true -> negb (is_empty (general_lines v g)) = true ->
  exists ls, general_to_string g v = Some (text_of_lines ls) /\ part (fun t => general_from_str t v) ls (general_at v g).
Proof.
  intros H Hn. pose proof (general_text_round_trip v g H) as [Ht Hr].
  destruct (kv_body _ _ _ general_laws g (general_at v g) v (text_of_lines (general_lines v g)) (general_rt v g H)) as (ls & E1 & E2).
  - rewrite general_keys_eq. reflexivity.
  - exact Ht.
  - apply text_nonempty; [|now apply is_empty_neq]. unfold general_lines. nonempty_lines.
  - exists ls. rewrite <- E1. split; [easy|]. split; [easy|]. rewrite <- E1. split; [easy|].
    now apply (kv_newline _ _ _ _ general_laws).
Qed.
Lemma editor_part v g : editor_ok g = true -> negb (is_empty (editor_lines v g)) = true ->
  exists ls, editor_to_string g v = Some (text_of_lines ls) /\ part (fun t => editor_from_str t v) ls (editor_at v g).
Proof.
  intros H Hn. pose proof (editor_text_round_trip v g H) as [Ht Hr].
  destruct (kv_body _ _ _ editor_laws g (editor_at v g) v (text_of_lines (editor_lines v g)) (editor_rt v g H)) as (ls & E1 & E2).
  - rewrite editor_keys_eq. reflexivity.
  - exact Ht.
  - apply text_nonempty; [|now apply is_empty_neq]. unfold editor_lines. nonempty_lines.
  - exists ls. rewrite <- E1. split; [easy|]. split; [easy|]. rewrite <- E1. split; [easy|].
    now apply (kv_newline _ _ _ _ editor_laws).
Qed.
Lemma metadata_part v g : metadata_ok g = true -> negb (is_empty (metadata_lines g)) = true ->
  exists ls, metadata_to_string g v = Some (text_of_lines ls) /\ part (fun t => metadata_from_str t v) ls g.
Proof.
  intros H Hn. pose proof (metadata_text_round_trip v g H) as [Ht Hr].
  destruct (kv_body _ _ _ metadata_laws g g v (text_of_lines (metadata_lines g)) (metadata_rt v g H)) as (ls & E1 & E2).
  - rewrite metadata_keys_eq. reflexivity.
  - exact Ht.
  - apply text_nonempty; [|now apply is_empty_neq]. unfold metadata_lines. nonempty_lines.
  - exists ls. rewrite <- E1. split; [easy|]. split; [easy|]. rewrite <- E1. split; [easy|].
    now apply (kv_newline _ _ _ _ metadata_laws).
Qed.
Lemma difficulty_part v g : difficulty_ok g = true -> negb (is_empty (difficulty_lines v g)) = true ->
  exists ls, difficulty_to_string g v = Some (text_of_lines ls) /\ part (fun t => difficulty_from_str t v) ls g.
Proof.
  intros H Hn. pose proof (difficulty_text_round_trip v g H) as [Ht Hr].
  destruct (kv_body _ _ _ difficulty_laws g g v (text_of_lines (difficulty_lines v g)) (difficulty_rt v g H)) as (ls & E1 & E2).
  - rewrite difficulty_keys_eq. reflexivity.
  - exact Ht.
  - apply text_nonempty; [|now apply is_empty_neq]. unfold difficulty_lines. nonempty_lines.
  - exists ls. rewrite <- E1. split; [easy|]. split; [easy|]. rewrite <- E1. split; [easy|].
    now apply (kv_newline _ _ _ _ difficulty_laws).
Qed.

Lemma good_part {T E} (from : str -> res (option T) E) ls x :
  (forall s s', lines s = lines s' -> from s = from s') -> forallb good_line ls = true ->
  match ls with (c :: _) :: _ => negb (layout_char c) | _ => false end = true ->
  forallb (fun l => negb (starts_with_char 91 l)) ls = true ->
  from (text_of_lines ls) = ROk (Some x) -> part from ls x.
Proof.
  intros Hf Hg Hh Hb Hr. split; [|split; [easy|]].
  - unfold body_ok. rewrite Hh. cbn [andb]. pose proof (good_plain _ Hg) as Hg'. rewrite forallb_forall in *. intros l Hl. rewrite Hg', Hb by easy. specialize (Hg l Hl). now destruct l.
  - rewrite (Hf _ (text_of_lines ls)); [easy|]. apply good_same; [easy|]. now destruct ls.
Qed.
Lemma colours_part v l : (4 < v)%Z -> forallb colour_ok l = true -> forallb combo_nonneg l = true -> l <> [] ->
  exists ls, colours_to_string l v = Some (text_of_lines ls) /\ part (fun t => colours_from_str t v) ls l.
Proof.
  intros Hv H1 H2 Hn. destruct (colours_text_round_trip v l Hv H1 H2) as [Ht Hr]. exists (map colour_text l). split; [easy|].
  apply good_part; auto.
  - intros s s' E. unfold colours_from_str. now rewrite E.
  - apply forallb_forall. intros x Hx. apply in_map_iff in Hx as (c & <- & _). rewrite <- colour_layout. apply colour_good.
  - destruct l as [|[| |] l]; easy.
  - apply forallb_forall. intros x Hx. apply in_map_iff in Hx as ([| |] & <- & _); easy.
Qed.
Lemma rdec_head r : exists c t, print_rdec r = c :: t /\ dec_char c = true.
Proof.
  pose proof (print_rdec_chars r) as H. pose proof (print_rdec_nonempty r) as Hn. destruct (print_rdec r) as [|c t]; [easy|].
  exists c, t. cbn [forallb] in H. now apply andb_true_iff in H.
Qed.
Lemma dec_char_visible c : dec_char c = true -> layout_char c = false /\ (c =? 91) = false.
Proof.
  unfold dec_char, layout_char, is_digit. rewrite !orb_true_iff, !andb_true_iff, !N.eqb_eq, !N.leb_le, !orb_false_iff, !N.eqb_neq. lia.
Qed.
Lemma dec_start d rest : visible_start d = true ->
  match print_decimal d ++ 44 :: rest with c :: _ => negb (layout_char c) | [] => false end = true.
Proof.
  destruct d as [r|[|c s]]; cbn [print_decimal visible_start app]; [|easy|easy]. intros _. destruct (rdec_head r) as (c & t & -> & Hc). cbn [app].
  now destruct (dec_char_visible c Hc) as [-> _].
Qed.
Lemma dec_bracket d rest : no_bracket d = true -> negb (starts_with_char 91 (print_decimal d ++ 44 :: rest)) = true.
Proof.
  destruct d as [r|[|c s]]; cbn [print_decimal no_bracket app]; [|easy|easy]. intros _. destruct (rdec_head r) as (c & t & -> & Hc). cbn [app starts_with_char].
  now destruct (dec_char_visible c Hc) as [_ ->].
Qed.
Lemma timing_points_part v l : (4 < v)%Z -> forallb (tp_ok v) l = true -> forallb (fun t => index_small (tp_sample_index t)) l = true ->
  starts_ok (map tp_time l) = true ->
  exists ls, timing_points_to_string l v = ROk (Some (text_of_lines ls)) /\ part (fun t => timing_points_from_str t v) ls l.
Proof.
  intros Hv H1 H2 Hs. destruct (timing_points_text_round_trip v l Hv H1 H2) as [Ht Hr]. exists (map tp_text l). split; [easy|].
  assert (Hh : forall t, exists r, tp_text t = print_decimal (tp_time t) ++ 44 :: r) by (intros t; unfold tp_text; rewrite commas_join; cbn [app]; rewrite join_cons2; eexists; reflexivity).
  apply good_part; auto.
  - intros s s' E. unfold timing_points_from_str. now rewrite E.
  - apply forallb_forall. intros x Hx. apply in_map_iff in Hx as (t & <- & Hi). rewrite forallb_forall in H1, H2.
    pose proof (tp_layout v t Hv (H1 t Hi) (H2 t Hi)) as L. rewrite tp_print_new in L by auto. injection L as <-. apply (tp_good v t). auto.
  - destruct l as [|t l]; [easy|]. cbn [map starts_ok] in *. apply andb_true_iff in Hs as [Hs _]. destruct (Hh t) as [r Er]. pose proof (dec_start _ r Hs) as D. rewrite <- Er in D. now destruct (tp_text t).
  - apply forallb_forall. intros x Hx. apply in_map_iff in Hx as (t & <- & Hi). destruct (Hh t) as [r ->]. apply dec_bracket.
    unfold starts_ok in Hs. destruct (map tp_time l) eqn:E; [easy|]. rewrite <- E in Hs. apply andb_true_iff in Hs as [_ Hs]. rewrite forallb_forall in Hs. apply Hs. now apply in_map.
Qed.
Lemma hit_objects_part v l : (4 < v)%Z -> forallb (ho_ok v) l = true -> starts_ok (map (fun o => pos_x (ho_position o)) l) = true ->
  exists ls, hit_objects_to_string l v = ROk (Some (text_of_lines ls)) /\ part (fun t => hit_objects_from_str t v) ls l.
Proof.
  intros Hv H1 Hs. destruct (hit_objects_text_round_trip v l Hv H1) as [Ht Hr]. exists (map (ho_text v) l). split; [easy|].
  assert (Hh : forall t, exists r, ho_text v t = print_decimal (pos_x (ho_position t)) ++ 44 :: r) by (intros t; unfold ho_text; rewrite commas_join; cbn [app]; rewrite join_cons2; eexists; reflexivity).
  apply good_part; auto.
  - intros s s' E. unfold hit_objects_from_str. now rewrite E.
  - apply forallb_forall. intros x Hx. apply in_map_iff in Hx as (t & <- & Hi). rewrite forallb_forall in H1.
    pose proof (ho_layout v t Hv (H1 t Hi)) as L. specialize (H1 t Hi). unfold ho_ok in H1. rewrite !andb_true_iff in H1. destruct H1 as [[Q1 Q2] Q3].
    pose proof Q1 as Q. unfold ho_read in Q. rewrite !andb_true_iff in Q. destruct Q as [[[[_ Hs1] Hs2] Hp] _].
    rewrite ho_print in L by easy. injection L as <-. now apply ho_line_good.
  - destruct l as [|t l]; [easy|]. cbn [map starts_ok] in *. apply andb_true_iff in Hs as [Hs _]. destruct (Hh t) as [r Er]. pose proof (dec_start _ r Hs) as D. rewrite <- Er in D. now destruct (ho_text v t).
  - apply forallb_forall. intros x Hx. apply in_map_iff in Hx as (t & <- & Hi). destruct (Hh t) as [r ->]. apply dec_bracket.
    unfold starts_ok in Hs. destruct (map _ l) eqn:E; [easy|]. rewrite <- E in Hs. apply andb_true_iff in Hs as [_ Hs]. rewrite forallb_forall in Hs. apply Hs. now apply (in_map (fun o => pos_x (ho_position o))).
Qed.
Lemma own_start v e : exists c t, own_text v e = c :: t /\ layout_char c = false /\ (91 =? c) = false.
Proof.
  assert (D : (exists c, e = EComment c) \/ (forall c, e <> EComment c)) by (destruct e; (now right) || (left; eauto)).
  destruct D as [[c ->]|D]; [now exists 47, (47 :: c)|]. destruct (own_head v e D) as (h & t & -> & Hh). exists h, t. split; [easy|].
  cbn [In] in Hh; repeat destruct Hh as [Hh|Hh]; subst; easy.
Qed.
Lemma preorder_depth c : forall d x, In x (preorder d c) -> (d <= fst x)%nat.
Proof.
  induction c as [c IH] using command_tree_ind. intros d x. rewrite preorder_eq. intros [<- |H]; [easy|].
  unfold preorders in H. apply in_concat in H as (l & Hl & Hx). apply in_map_iff in Hl as (c' & <- & Hc).
  rewrite Forall_forall in IH. specialize (IH c' Hc _ _ Hx). lia.
Qed.
Lemma preorders_pos cs x : In x (preorders 1 cs) -> (1 <= fst x)%nat.
Proof.
  intros H. unfold preorders in H. apply in_concat in H as (l & Hl & Hx). apply in_map_iff in Hl as (c' & <- & Hc).
  now apply preorder_depth in Hx.
Qed.
Lemma events_part dbg v l : forallb (event_ok v) l = true -> l <> [] ->
  exists ls, events_to_string dbg l v = ROk (Some (text_of_lines ls)) /\ part (fun t => events_from_str dbg t v) ls l.
Proof.
  intros H Hn. exists (all_texts v l). split.
  { rewrite text_of_lines_join. apply events_print. eapply forallb_impl; [|exact H]. intros e He. unfold event_ok in He. now apply andb_true_iff in He. }
  pose proof (all_texts_good v l H) as Hg. apply good_part; auto.
  - intros s s' E. unfold events_from_str, events_from_str_vars. now rewrite E.
  - destruct l as [|e l]; [easy|]. unfold all_texts, texts. cbn [map concat app]. destruct (own_start v e) as (c & t & -> & -> & _). easy.
  - apply forallb_forall. intros x Hx. unfold all_texts in Hx. apply in_concat in Hx as (ys & Hy & Hx). apply in_map_iff in Hy as (e & <- & _).
    destruct Hx as [<- |Hx].
    + destruct (own_start v e) as (c & t & -> & _ & Hc). cbn [starts_with_char]. rewrite N.eqb_sym, Hc. easy.
    + apply in_map_iff in Hx as ([n c] & <- & Hx). apply preorders_pos in Hx. cbn [fst] in Hx. unfold walk_line, cmd_line. cbn [fst snd]. destruct n; [lia|]. easy.
  - unfold events_from_str, events_from_str_vars. rewrite text_of_lines_join, good_lines_join by easy. now rewrite events_loop.
Qed.

(** ** the whole file *)
Definition part_text (p : str * list str) : str := lit "[" ++ fst p ++ lit "]" ++ [10] ++ text_of_lines (snd p).
Fixpoint secs_of (l : list (str * list str)) : list sec :=
  match l with
  | [] => []
  | [(n, ls)] => [mk_sec n 0 ls]
  | (n, ls) :: l' => mk_sec n 0 (ls ++ [[]]) :: secs_of l'
  end.
Lemma text_app a b : a <> [] -> b <> [] -> text_of_lines (a ++ b) = text_of_lines a ++ 10 :: text_of_lines b.
Proof.
  induction a as [|x a IH]; [easy|]. intros _ Hb. destruct a as [|y a]; [now destruct b|].
  change (text_of_lines ((x :: y :: a) ++ b)) with (x ++ 10 :: text_of_lines ((y :: a) ++ b)). rewrite IH by easy.
  change (text_of_lines (x :: y :: a)) with (x ++ 10 :: text_of_lines (y :: a)). now rewrite <- app_assoc.
Qed.
Lemma text_cons x a : a <> [] -> text_of_lines (x :: a) = x ++ 10 :: text_of_lines a.
Proof. now destruct a. Qed.
Lemma body_nonempty ls : body_ok ls = true -> ls <> [].
Proof. now destruct ls. Qed.
Lemma secs_text l : Forall (fun p => body_ok (snd p) = true) l -> l <> [] ->
  join [10; 10] (map part_text l) = text_of_lines (flat_map sec_all (secs_of l)).
Proof.
  induction 1 as [|[n ls] l Hp H IH]; [easy|]. intros _. cbn [snd] in Hp. pose proof (body_nonempty _ Hp) as Hn.
  destruct l as [|p l].
  - cbn [map join secs_of flat_map]. unfold sec_all. cbn [sec_name sec_gap sec_lines repeat app]. rewrite app_nil_r, text_cons by easy.
    unfold part_text. cbn [fst snd]. change (lit "[") with [91]. change (lit "]") with [93]. cbn [app]. rewrite <- ?app_assoc. cbn [app]. rewrite <- ?app_assoc. reflexivity.
  - cbn [map]. rewrite join_cons2. change (part_text p :: map part_text l) with (map part_text (p :: l)). rewrite IH by easy.
    change (secs_of ((n, ls) :: p :: l)) with (mk_sec n 0 (ls ++ [[]]) :: secs_of (p :: l)). cbn [flat_map]. unfold sec_all at 2. cbn [sec_name sec_gap sec_lines repeat app].
    assert (K : flat_map sec_all (secs_of (p :: l)) <> []) by (destruct p, l; easy).
    rewrite text_cons by (destruct ls; easy). rewrite text_app by (easy || now destruct ls). rewrite text_snoc by easy.
    unfold part_text. cbn [fst snd]. change (lit "[") with [91]. change (lit "]") with [93]. cbn [app]. rewrite <- ?app_assoc. cbn [app]. rewrite <- ?app_assoc. reflexivity.
Qed.
Lemma secs_names l : map sec_name (secs_of l) = map fst l.
Proof. induction l as [|[n ls] l IH]; [easy|]. destruct l as [|p l]; [easy|]. change (secs_of ((n, ls) :: p :: l)) with (mk_sec n 0 (ls ++ [[]]) :: secs_of (p :: l)). cbn [map]. now rewrite IH. Qed.
Lemma secs_in l x : In x (secs_of l) -> exists ls, In (sec_name x, ls) l /\ sec_gap x = 0%nat /\ (sec_lines x = ls \/ sec_lines x = ls ++ [[]]).
Proof.
  induction l as [|[n ls] l IH]; [easy|]. destruct l as [|p l].
  - intros [<- |[]]. exists ls. cbn. auto.
  - change (secs_of ((n, ls) :: p :: l)) with (mk_sec n 0 (ls ++ [[]]) :: secs_of (p :: l)). intros [<- |H].
    + exists ls. cbn. auto.
    + destruct (IH H) as (ls' & H1 & H2). exists ls'. split; [now right|easy].
Qed.
Definition name_ok (n : str) : bool := forallb (fun c => negb (c =? 93) && negb (c =? 10)) n.
Lemma secs_ok l : Forall (fun p => body_ok (snd p) = true) l -> forallb name_ok (map fst l) = true -> forallb sec_ok (secs_of l) = true.
Proof.
  intros H Hn. apply forallb_forall. intros x Hx. destruct (secs_in l x Hx) as (ls & Hi & _ & Hl).
  rewrite Forall_forall in H. specialize (H _ Hi). cbn [snd] in H. rewrite forallb_forall in Hn. specialize (Hn (sec_name x) (in_map fst _ _ Hi)).
  unfold sec_ok. unfold name_ok in Hn. rewrite Hn. cbn [andb]. unfold body_ok in H. apply andb_true_iff in H as [H1 H2].
  assert (K : forall l0, plain_line l0 && negb (starts_with_char 91 l0) && negb (is_empty l0) = true -> line_text l0 && negb (starts_with_char 91 l0) = true).
  { intros l0. unfold plain_line. rewrite !andb_true_iff. intros [[[A _] B] _]. split; [exact A|exact B]. }
  destruct Hl as [-> | ->].
  - rewrite H1. cbn [andb]. eapply forallb_impl; [|exact H2]. exact K.
  - rewrite forallb_app. cbn [forallb]. replace (match ls ++ [[]] with (c :: _) :: _ => negb (layout_char c) | _ => false end) with true by (destruct ls as [|[|c t] ls]; easy).
    cbn [andb]. apply andb_true_iff. split; [|easy]. eapply forallb_impl; [|exact H2]. exact K.
Qed.
Lemma secs_plain l : Forall (fun p => body_ok (snd p) = true) l -> forallb name_ok (map fst l) = true ->
  forallb plain_line (flat_map sec_all (secs_of l)) = true.
Proof.
  intros H Hn. apply forallb_forall. intros y Hy. apply in_flat_map in Hy as (x & Hx & Hy). destruct (secs_in l x Hx) as (ls & Hi & Hg & Hl).
  rewrite Forall_forall in H. specialize (H _ Hi). cbn [snd] in H. rewrite forallb_forall in Hn. specialize (Hn (sec_name x) (in_map fst _ _ Hi)).
  unfold body_ok in H. apply andb_true_iff in H as [_ H]. rewrite forallb_forall in H. unfold sec_all in Hy. rewrite Hg in Hy. cbn [repeat app] in Hy.
  destruct Hy as [<- |Hy].
  - unfold plain_line. change (91 :: sec_name x ++ [93]) with ((91 :: sec_name x) ++ [93]). rewrite ends_with_char_snoc. rewrite andb_true_r. unfold no_nl. rewrite forallb_app. cbn [forallb]. rewrite andb_true_r.
    cbn [andb negb]. eapply forallb_impl; [|exact Hn]. intros c Hc. cbn in Hc. now apply andb_true_iff in Hc.
  - assert (K : In y ls \/ y = []) by (destruct Hl as [Hl|Hl]; rewrite Hl in Hy; [auto|apply in_app_or in Hy as [Hy|[Hy|[]]]; auto]).
    destruct K as [K| ->]; [|easy]. specialize (H y K). now rewrite !andb_true_iff in H.
Qed.
Lemma last_flat a b : b <> [] -> last (a ++ b) [0] = last b ([0] : str).
Proof. intros Hb. destruct (exists_last Hb) as (b' & y & ->). rewrite app_assoc. now rewrite !last_last. Qed.
Lemma secs_last l : Forall (fun p => body_ok (snd p) = true) l -> l <> [] -> last (flat_map sec_all (secs_of l)) [0] <> [].
Proof.
  induction 1 as [|[n ls] l Hp1 H IH]; [easy|]. intros _. cbn [snd] in *. pose proof (body_nonempty _ Hp1) as Hn. destruct l as [|p l].
  - cbn [secs_of flat_map]. rewrite app_nil_r. unfold sec_all. cbn [sec_name sec_gap sec_lines repeat app].
    change ((91 :: n ++ [93]) :: ls) with ([91 :: n ++ [93]] ++ ls). rewrite last_flat by easy. unfold body_ok in Hp1. apply andb_true_iff in Hp1 as [_ Hp]. rewrite forallb_forall in Hp.
    destruct (exists_last Hn) as (b & y & ->). rewrite last_last. specialize (Hp y ltac:(apply in_elt)). rewrite !andb_true_iff in Hp. destruct Hp as [_ Hp]. now apply is_empty_neq.
  - change (secs_of ((n, ls) :: p :: l)) with (mk_sec n 0 (ls ++ [[]]) :: secs_of (p :: l)). cbn [flat_map]. rewrite last_flat; [now apply IH|]. destruct p, l; easy.
Qed.
Definition shown {T E} (name : string) (from : str -> res (option T) E) (p : list (str * list str)) (o : option T) (content : option str) : Prop :=
  (p = [] /\ o = None /\ content = None)
  \/ exists ls x, p = [(lit name, ls)] /\ o = Some x /\ content = Some (text_of_lines ls) /\ part from ls x.
Lemma shown_out {T E} name (from : str -> res (option T) E) p o content : shown name from p o content ->
  out_section name content = map part_text p.
Proof. intros [(-> & _ & ->)|(ls & x & -> & _ & -> & _)]; reflexivity. Qed.
Lemma shown_body {T E} name (from : str -> res (option T) E) p o content : shown name from p o content ->
  Forall (fun q => body_ok (snd q) = true) p.
Proof. intros [(-> & _)|(ls & x & -> & _ & _ & H & _)]; repeat constructor. exact H. Qed.
Lemma shown_names {T E} name (from : str -> res (option T) E) p o content : shown name from p o content -> map fst p = present name o.
Proof. intros [(-> & -> & _)|(ls & x & -> & -> & _)]; reflexivity. Qed.
Lemma shown_holds {T E} name (from : str -> res (option T) E) p o content l : shown name from p o content ->
  (forall ls, In (lit name, ls) l -> In (lit name, ls) p) -> (forall q, In q p -> In q l) -> holds (secs_of l) name from None o.
Proof.
  intros H H1 H2. split.
  - intros x Hx Hn. destruct (secs_in l x Hx) as (ls & Hi & _ & Hl). rewrite Hn in Hi. apply H1 in Hi.
    destruct H as [(-> & _)|(ls' & y & -> & -> & _ & Hb & Hr & Hr')]; [easy|]. destruct Hi as [Hi|[]]. injection Hi as ->. unfold sec_body.
    destruct Hl as [-> | ->]; [easy|]. rewrite text_snoc; [easy|]. now apply body_nonempty.
  - intros Hno. destruct H as [(_ & -> & _)|(ls' & y & -> & -> & _)]; [easy|]. exfalso. specialize (H2 _ (or_introl eq_refl)).
    assert (K : In (lit name) (map sec_name (secs_of l))) by (rewrite secs_names; apply (in_map fst) in H2; exact H2).
    apply in_map_iff in K as (x & Hx & K). exact (Hno x K Hx).
Qed.
Lemma option_part {A T E} name (from : str -> res (option T) E) (ok : A -> bool) (print : A -> option str) (keep : A -> T) o :
  (forall a, ok a = true -> exists ls, print a = Some (text_of_lines ls) /\ part from ls (keep a)) ->
  opt_all ok o = true -> exists p, shown name from p (option_map keep o) (obind o print).
Proof.
  intros H Ho. destruct o as [a|]; [|exists []; now left]. destruct (H a Ho) as (ls & H1 & H2). exists [(lit name, ls)]. right.
  exists ls, (keep a). cbn. auto.
Qed.
Lemma option_run {A T E} name (from : str -> res (option T) E) (ok : A -> bool) (print : A -> run (option str)) (keep : A -> T) o :
  (forall a, ok a = true -> exists ls, print a = ROk (Some (text_of_lines ls)) /\ part from ls (keep a)) ->
  opt_all ok o = true -> exists p content, run_opt o print = ROk content /\ shown name from p (option_map keep o) content.
Proof.
  intros H Ho. destruct o as [a|]; [|exists [], None; split; [easy|now left]]. destruct (H a Ho) as (ls & H1 & H2). exists [(lit name, ls)], (Some (text_of_lines ls)).
  split; [easy|]. right. exists ls, (keep a). cbn. auto.
Qed.
Lemma nodup_parts (ns : list str) ps : Forall2 (fun n p => p = [] \/ p = [n]) ns ps -> NoDup ns -> NoDup (concat ps) /\ incl (concat ps) ns.
Proof.
  induction 1 as [|n p ns ps Hp H IH]; intros Hn; [split; [constructor|easy]|]. inversion Hn as [|? ? N1 N2]; subst. destruct (IH N2) as [I1 I2].
  cbn [concat]. destruct Hp as [-> | ->]; cbn [app].
  - split; [easy|]. intros x Hx. right. auto.
  - split; [constructor; auto|]. intros x [<- |Hx]; [now left|right; auto].
Qed.
Lemma present_either {A} name (o : option A) : present name o = [] \/ present name o = [lit name].
Proof. destruct o; auto. Qed.
Lemma option_map_id {A} (o : option A) : option_map (fun x => x) o = o.
Proof. now destruct o. Qed.
Lemma print_version v : (3 <= v <= 14)%Z -> version_text (print_Z v) v.
Proof. intros H. split; [|easy]. apply print_Z_text. lia. Qed.
Lemma names_known f : NoDup (names_of f) /\ incl (names_of f) section_names.
Proof.
  assert (K : names_of f = concat [present "General" (osu_general f); present "Editor" (osu_editor f); present "Metadata" (osu_metadata f);
    present "Difficulty" (osu_difficulty f); present "Events" (osu_events f); present "TimingPoints" (osu_timing_points f);
    present "Colours" (osu_colours f); present "HitObjects" (osu_hitobjects f)]) by (unfold names_of; cbn [concat]; now rewrite app_nil_r).
  rewrite K. apply nodup_parts.
  - unfold section_names. cbn [map]. repeat (constructor; [apply present_either|]). constructor.
  - unfold section_names. repeat (constructor; [cbn; intuition discriminate|]). constructor.
Qed.
Lemma known_names_ok ns : incl ns section_names -> forallb name_ok ns = true.
Proof.
  intros H. apply forallb_forall. intros n Hn. apply H in Hn. assert (K : forallb name_ok section_names = true) by reflexivity. rewrite forallb_forall in K. auto.
Qed.
Lemma absent {A} nm (o : option A) n : lit nm <> n -> ~ In n (present nm o).
Proof. destruct o; cbn; intuition. Qed.
Ltac elsewhere := match goal with
  | M : map fst ?p = present _ _, Hi : In (?n, ?ls) ?p |- _ =>
      exfalso; apply (in_map fst) in Hi; rewrite M in Hi; revert Hi; apply absent; discriminate end.
Lemma whole_file dbg f : file_ok f = true -> exists t secs, osu_to_string dbg f = ROk t
  /\ file_layout t [] (osu_version f) [[]; []] secs [] /\ map sec_name secs = names_of f
  /\ osu_from_str dbg t = ROk (file_at f).
Proof.
  destruct f as [v g e o m d ev tp c h]. unfold file_ok, osu_to_string, file_at. cbn [osu_version osu_general osu_editor osu_metadata osu_difficulty osu_events osu_timing_points osu_colours osu_hitobjects].
  rewrite !andb_true_iff. intros [[[[[[[[[Hv1 Hv2] Hg] He] Hm] Hd] Hev] Htp] Hc] Hh]. apply Z.leb_le in Hv1, Hv2. assert (Hv : (4 < v)%Z) by lia.
  apply (option_part "General" (fun t => general_from_str t v) _ (fun x => general_to_string x v) (general_at v)) in Hg as (p1 & S1);
    [|intros a Ha; apply andb_true_iff in Ha as []; now apply general_part].
  apply (option_part "Editor" (fun t => editor_from_str t v) _ (fun x => editor_to_string x v) (editor_at v)) in He as (p2 & S2);
    [|intros a Ha; apply andb_true_iff in Ha as []; now apply editor_part].
  apply (option_part "Metadata" (fun t => metadata_from_str t v) _ (fun x => metadata_to_string x v) (fun x => x)) in Hm as (p3 & S3);
    [|intros a Ha; apply andb_true_iff in Ha as []; now apply metadata_part].
  apply (option_part "Difficulty" (fun t => difficulty_from_str t v) _ (fun x => difficulty_to_string x v) (fun x => x)) in Hd as (p4 & S4);
    [|intros a Ha; apply andb_true_iff in Ha as []; now apply difficulty_part].
  apply (option_run "Events" (fun t => events_from_str dbg t v) _ (fun x => events_to_string dbg x v) (fun x => x)) in Hev as (p5 & c5 & -> & S5);
    [|intros a Ha; apply andb_true_iff in Ha as []; apply events_part; [easy|now apply is_empty_neq]].
  apply (option_run "TimingPoints" (fun t => timing_points_from_str t v) _ (fun x => timing_points_to_string x v) (fun x => x)) in Htp as (p6 & c6 & -> & S6);
    [|intros a Ha; apply andb_true_iff in Ha as [Ha ?]; apply andb_true_iff in Ha as []; now apply timing_points_part].
  apply (option_part "Colours" (fun t => colours_from_str t v) _ (fun x => colours_to_string x v) (fun x => x)) in Hc as (p7 & S7);
    [|intros a Ha; apply andb_true_iff in Ha as [Ha ?]; apply andb_true_iff in Ha as []; apply colours_part; try easy; now apply is_empty_neq].
  apply (option_run "HitObjects" (fun t => hit_objects_from_str t v) _ (fun x => hit_objects_to_string x v) (fun x => x)) in Hh as (p8 & c8 & -> & S8);
    [|intros a Ha; apply andb_true_iff in Ha as []; now apply hit_objects_part].
  cbn [rbind]. rewrite option_map_id in S3. rewrite option_map_id in S4. rewrite option_map_id in S5. rewrite option_map_id in S6. rewrite option_map_id in S7. rewrite option_map_id in S8.
  rewrite (shown_out _ _ _ _ _ S1), (shown_out _ _ _ _ _ S2), (shown_out _ _ _ _ _ S3), (shown_out _ _ _ _ _ S4), (shown_out _ _ _ _ _ S5),
    (shown_out _ _ _ _ _ S6), (shown_out _ _ _ _ _ S7), (shown_out _ _ _ _ _ S8), <- !map_app.
  set (l := p1 ++ p2 ++ p3 ++ p4 ++ p5 ++ p6 ++ p7 ++ p8). set (f' := mk_osu v (option_map (general_at v) g) (option_map (editor_at v) e) None m d ev tp c h).
  assert (Hb : Forall (fun q => body_ok (snd q) = true) l) by (unfold l; repeat (apply Forall_app; split); eauto using shown_body).
  assert (Hnm : map fst l = names_of f').
  { unfold l, names_of, f'. cbn [osu_general osu_editor osu_metadata osu_difficulty osu_events osu_timing_points osu_colours osu_hitobjects]. rewrite !map_app.
    now rewrite (shown_names _ _ _ _ _ S1), (shown_names _ _ _ _ _ S2), (shown_names _ _ _ _ _ S3), (shown_names _ _ _ _ _ S4), (shown_names _ _ _ _ _ S5),
      (shown_names _ _ _ _ _ S6), (shown_names _ _ _ _ _ S7), (shown_names _ _ _ _ _ S8). }
  destruct (names_known f') as [N1 N2]. rewrite <- Hnm in N1, N2. pose proof (known_names_ok _ N2) as N3.
  assert (L : file_layout (lit "osu file format v" ++ print_Z v ++ [c_nl; c_nl] ++ join [c_nl; c_nl] (map part_text l)) [] v [[]; []] (secs_of l) []).
  { destruct l as [|q l0] eqn:El.
    - exists (print_Z v), [10; 10]. split; [|split; [apply print_version; lia|split; [easy|split; easy]]]. cbn [map join secs_of app].
      apply (vh [] [] (print_Z v) [10; 10]); auto; [|right; exists 10, [10]; auto].
      assert (K : In v [5;6;7;8;9;10;11;12;13;14]%Z) by (cbn; lia). cbn [In] in K. repeat destruct K as [K|K]; subst; easy.
    - rewrite <- El in *. assert (Hn : l <> []) by now rewrite El. clear El q l0.
      change [c_nl; c_nl] with [10; 10]. rewrite secs_text by easy.
      pose proof (canonical_layout (print_Z v) v [[]] (secs_of l) []) as K. rewrite app_nil_r in K.
      assert (Hfl : flat_map sec_all (secs_of l) <> []) by (destruct l as [|[? ?] [|[? ?] ?]]; easy).
      change ([[]] ++ flat_map sec_all (secs_of l)) with ([] :: flat_map sec_all (secs_of l)) in K. rewrite text_cons in K by easy. apply K.
      + apply print_version. lia.
      + easy.
      + now apply secs_ok.
      + cbn [forallb]. now apply secs_plain.
      + change ([] :: flat_map sec_all (secs_of l)) with ([[]] ++ flat_map sec_all (secs_of l)). rewrite last_flat by easy. now apply secs_last. }
  eexists. exists (secs_of l). split; [reflexivity|]. split; [exact L|]. split.
  { rewrite secs_names, Hnm. unfold names_of, f'. cbn [osu_general osu_editor osu_metadata osu_difficulty osu_events osu_timing_points osu_colours osu_hitobjects]. now destruct g, e. }
  apply (read_ok_iff dbg _ _ _ _ _ _ _ L eq_refl). split; [now rewrite secs_names|]. split.
  { apply Forall_forall. intros x Hx. apply N2. rewrite <- secs_names. now apply in_map. }
  pose proof (shown_names _ _ _ _ _ S1) as M1. pose proof (shown_names _ _ _ _ _ S2) as M2. pose proof (shown_names _ _ _ _ _ S3) as M3. pose proof (shown_names _ _ _ _ _ S4) as M4.
  pose proof (shown_names _ _ _ _ _ S5) as M5. pose proof (shown_names _ _ _ _ _ S6) as M6. pose proof (shown_names _ _ _ _ _ S7) as M7. pose proof (shown_names _ _ _ _ _ S8) as M8.
  unfold describes, f', osu_new. cbn [osu_version osu_osb osu_general osu_editor osu_metadata osu_difficulty osu_events osu_timing_points osu_colours osu_hitobjects].
  split; [easy|]. split; [easy|].
  split; [|split; [|split; [|split; [|split; [|split; [|split]]]]]];
  (eapply shown_holds; [eassumption| |intros q Hq; unfold l; rewrite !in_app_iff; tauto]);
  intros ls Hi; unfold l in Hi; rewrite !in_app_iff in Hi; decompose [or] Hi; try assumption; elsewhere.
Qed.
