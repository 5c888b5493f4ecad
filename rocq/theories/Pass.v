(** Facts for C74. *)
From Coq Require Import String List NArith ZArith Bool Lia Permutation.
From Verif Require Import Str Num Nom Dec Parsers KeyValue KvFields General Editor Metadata Difficulty Colours TimingPoints HitObjects Storyboard NormalEvents Events Osb OsuFile Trimmer
  Spec SpecWf SpecText SpecKv SpecSections SpecFile SpecOsb SpecWhole SpecBack SpecBlanks SpecTrim SpecEnds SpecBlank SpecCheck SpecLine SpecColLine SpecEvLine SpecEvSection SpecWalk SpecPass
  StrFacts NumFacts NomFacts LineFacts FieldFacts KvSem KvImage KvLines KvSections KvStatements WholeFacts KvFacts FileLoop FileTheorems TrimFacts Ends Blank BackFacts BackSettle OsbFacts CheckFacts
  LineRead HoRead ColRead EvRead EvSection WalkFacts Blanks.
Import ListNotations.
Local Open Scope N_scope.

(** ** lines of bodies *)
Lemma body_line ls l : forallb no_nl ls = true -> In l (lines (text_of_lines ls)) -> In l ls \/ In (l ++ [13]) ls.
Proof.
  induction ls as [|m ls IH]; [easy|]. cbn [forallb]. intros H. apply andb_true_iff in H as [Hm H]. destruct ls as [|n ls].
  - cbn [text_of_lines]. destruct m as [|c m]; [easy|]. rewrite lines_single by easy. intros [<-|[]]. left. now left.
  - cbn [text_of_lines]. specialize (IH H). intros K. destruct (ends_with_char 13 m) eqn:E.
    + destruct m as [|c m _] using rev_ind; [easy|]. unfold ends_with_char in E. rewrite rev_app_distr in E. cbn [rev app] in E. apply N.eqb_eq in E. subst c.
      unfold no_nl in Hm. rewrite forallb_app in Hm. apply andb_true_iff in Hm as [Hm _]. rewrite <- app_assoc in K. cbn [app] in K. rewrite lines_app_crlf in K by exact Hm.
      destruct K as [<-|K]; [right; now left|]. destruct (IH K) as [I|I]; [left|right]; now right.
    + rewrite lines_app_nl in K by easy. destruct K as [<-|K]; [left; now left|]. destruct (IH K) as [I|I]; [left|right]; now right.
Qed.
Lemma sec_no_nl x : sec_ok x = true -> forallb no_nl (sec_lines x) = true.
Proof. unfold sec_ok. intros H. apply andb_true_iff in H as [_ H]. rewrite forallb_forall in *. intros l Hl. specialize (H l Hl). now apply andb_true_iff in H as [H _]. Qed.
Lemma sec_no_bracket x l : sec_ok x = true -> In l (lines (sec_body x)) -> starts_with_char 91 l = false.
Proof.
  intros H Hl. apply (body_line _ _ (sec_no_nl x H)) in Hl. unfold sec_ok in H. apply andb_true_iff in H as [_ H]. rewrite forallb_forall in H.
  destruct Hl as [Hl|Hl]; specialize (H _ Hl); apply andb_true_iff in H as [_ H]; apply negb_true_iff in H; [easy|]. now destruct l.
Qed.
Lemma full_in s l : In l (full_lines s) -> In l (lines s) /\ is_blank l = false.
Proof. unfold full_lines. rewrite filter_In. intros [H K]. split; [easy|]. now apply negb_true_iff. Qed.
Lemma start_in c l : In c (trim_start l) -> In c l.
Proof. induction l as [|d l IH]; [easy|]. cbn [trim_start]. destruct (is_ws d); [|easy]. intros H. right. now apply IH. Qed.
Lemma end_in c l : In c (trim_end l) -> In c l.
Proof.
  induction l as [|d l IH]; [easy|]. cbn [trim_end]. destruct (trim_end l) as [|e t].
  - destruct (is_ws d); [easy|]. intros [<-|[]]. now left.
  - intros [<-|H]; [now left|]. right. now apply IH.
Qed.
Lemma trim_in c l : In c (trim l) -> In c l.
Proof. intros H. unfold trim in H. apply start_in. now apply end_in. Qed.
Lemma norm_plain l : no_bom l = true -> norm_line l = trim l.
Proof. intros H. unfold norm_line. apply filter_id. unfold no_bom in H. rewrite forallb_forall in *. intros c Hc. apply H. now apply trim_in. Qed.
Lemma tl_full s : no_bom s = true -> tl_lines (lines s) = map trim (full_lines s).
Proof.
  intros H. apply lines_no_bom in H. unfold tl_lines, full_lines. induction (lines s) as [|l ls IH]; [easy|]. cbn [forallb] in H. apply andb_true_iff in H as [Hl H].
  cbn [map filter]. rewrite (norm_plain l Hl). unfold is_blank at 1. destruct (is_empty (trim l)); cbn [negb]; [now apply IH|]. cbn [map]. now rewrite IH.
Qed.
Lemma text_bom ls : forallb no_bom ls = true -> no_bom (text_of_lines ls) = true.
Proof.
  induction ls as [|l ls IH]; [easy|]. cbn [forallb]. intros H. apply andb_true_iff in H as [Hl H]. destruct ls as [|m ls]; [exact Hl|].
  cbn [text_of_lines]. unfold no_bom in *. rewrite forallb_app, Hl. cbn [forallb]. specialize (IH H). cbn [text_of_lines] in IH. now rewrite IH.
Qed.
Lemma laid_bom s v secs x : laid_out s v secs -> no_bom s = true -> In x secs -> no_bom (sec_body x) = true.
Proof.
  intros (bom & pre & _ & E & _) H Hx. apply text_bom. apply lines_no_bom in H. rewrite E in H. rewrite forallb_forall in *. intros l Hl. apply H. right. apply in_or_app. right.
  apply in_flat_map. exists x. split; [easy|]. unfold sec_all. right. apply in_or_app. now right.
Qed.
Lemma said_tl x : tl_lines (said x) = tl_lines (lines (sec_body x)).
Proof. apply tl_packed. Qed.
Lemma bare_trim ls : forallb bare_line ls = true -> map trim ls = ls /\ plain_body ls = ls /\ (forallb has_colon ls = true -> map squeeze ls = ls).
Proof.
  unfold plain_body. induction ls as [|l ls IH]; [easy|]. cbn [forallb map]. intros H. apply andb_true_iff in H as [Hl H]. destruct (IH H) as (I1 & I2 & I3).
  unfold bare_line in Hl. apply andb_true_iff in Hl as [H1 H2]. apply str_eqb_eq in H1. rewrite H1, I1, I2. split; [easy|].
  assert (Q : has_colon l = true -> squeeze l = l). { intros C. rewrite C in H2. cbn in H2. unfold squeeze. now apply filter_id. }
  split; [destruct (has_colon l) eqn:C; [now rewrite Q|easy]|]. intros K. apply andb_true_iff in K as [K1 K2]. now rewrite (Q K1), (I3 K2).
Qed.
Lemma bare_tl x : no_bom (sec_body x) = true -> forallb bare_line (full_lines (sec_body x)) = true -> tl_lines (said x) = full_lines (sec_body x).
Proof. intros B H. rewrite said_tl, (tl_full _ B). now apply bare_trim. Qed.
Lemma bare_header x : sec_ok x = true -> no_bom (sec_body x) = true -> forallb bare_line (full_lines (sec_body x)) = true ->
  forallb (fun l => negb (header_line l)) (tl_lines (said x)) = true.
Proof.
  intros O B H. rewrite (bare_tl x B H). rewrite forallb_forall. intros l Hl. apply full_in in Hl as [Hl _]. apply (sec_no_bracket x l O) in Hl.
  unfold header_line. destruct l as [|c l]; [easy|]. cbn [starts_with_char hd] in *. first [rewrite Hl|rewrite N.eqb_sym, Hl]. easy.
Qed.
Lemma bare_cases x : bare x = true ->
  In (sec_name x) key_sections /\ forallb bare_value (said x) = true
  \/ sec_name x = lit "Colours" /\ forallb (fun l => negb (header_line (trim l))) (full_lines (sec_body x)) = true
  \/ forallb bare_line (full_lines (sec_body x)) = true.
Proof.
  unfold bare. destruct (existsb (str_eqb (sec_name x)) key_sections) eqn:E.
  - intros H. left. split; [|easy]. apply existsb_exists in E as (n & Hn & E). apply str_eqb_eq in E. now rewrite E.
  - destruct (str_eqb (sec_name x) (lit "Colours")) eqn:C; [|now right; right]. intros H. right. left. split; [now apply str_eqb_eq|easy].
Qed.
Lemma value_kv ls : forallb bare_value ls = true -> forallb kv_line_ok ls = true /\ forallb (contains_char 58) ls = true /\ forallb (fun l => gapless (line_value l)) ls = true.
Proof.
  intros H. rewrite !forallb_forall in *. repeat split; intros l Hl; specialize (H l Hl); unfold bare_value in H; apply andb_true_iff in H as [H1 H2]; try easy.
  unfold kv_line_ok in H1. now rewrite !andb_true_iff in H1.
Qed.
(** ** the texts in the trimmer *)
Definition sec_cut (x : sec) : str * list str := (91 :: sec_name x ++ [93], tl_lines (said x)).
Lemma laid_cut s v secs : laid_out s v secs -> (3 <= v <= 14)%Z -> Forall (fun x => In (sec_name x) section_names) secs ->
  Forall (fun x => forallb (fun l => negb (header_line l)) (tl_lines (said x)) = true) secs ->
  exists pre, cut_lines (text_lines s) ((version_prefix ++ print_Z v) :: pre) (map sec_cut secs).
Proof.
  intros (bom & pre & Hb & E & Hp & Hs) Hv N H. exists (tl_lines pre). unfold text_lines. fold (tl_lines (lines s)). rewrite E.
  change ((bom ++ version_prefix ++ print_Z v) :: pre ++ flat_map sec_all secs) with ([bom ++ version_prefix ++ print_Z v] ++ (pre ++ flat_map sec_all secs)).
  rewrite !tl_app. assert (E1 : tl_lines [bom ++ version_prefix ++ print_Z v] = [version_prefix ++ print_Z v]).
  { unfold tl_lines. cbn [map]. rewrite (version_norm bom v Hb Hv). reflexivity. }
  rewrite E1. split; [|split].
  - cbn [app]. f_equal. f_equal. clear - Hs N. induction secs as [|x secs IH]; [easy|]. cbn [flat_map map concat forallb] in *. apply andb_true_iff in Hs as [Hx Hs]. inversion_clear N.
    rewrite tl_app, (sec_lines_of x) by easy. unfold section_lines, sec_cut at 1. cbn [fst snd]. f_equal. f_equal. now apply IH.
  - cbn [forallb]. rewrite (pre_lines pre Hp). reflexivity.
  - rewrite forallb_forall. intros y Hy. apply in_map_iff in Hy as (x & <- & Hx). unfold sec_cut. cbn [fst snd]. rewrite Forall_forall in *. rewrite (H x Hx), (proj2 (name_header _ (N x Hx))). reflexivity.
Qed.
Definition paired (x y : sec) : Prop := sec_name x = sec_name y /\ same_body (tl_lines (said x)) (tl_lines (said y)).
Lemma cut_paired secs : forall secs', Forall2 same_section (map sec_cut secs) (map sec_cut secs') -> Forall2 paired secs secs'.
Proof.
  induction secs as [|x secs IH]; intros [|y secs'] H; inversion H as [|? ? ? ? [H1 H2] H3]; subst; constructor; [|now apply IH].
  cbn [fst snd sec_cut] in *. split; [|easy]. injection H1 as H1. now apply app_inj_tail in H1.
Qed.
Lemma version_inj v w : (3 <= v <= 14)%Z -> (3 <= w <= 14)%Z -> print_Z v = print_Z w -> v = w.
Proof.
  intros Hv Hw H. assert (C : forall z, (3 <= z <= 14)%Z -> (z = 3 \/ z = 4 \/ z = 5 \/ z = 6 \/ z = 7 \/ z = 8 \/ z = 9 \/ z = 10 \/ z = 11 \/ z = 12 \/ z = 13 \/ z = 14)%Z) by (intros; lia).
  pose proof (C v Hv) as Cv. pose proof (C w Hw) as Cw. clear C Hv Hw. repeat destruct Cv as [->|Cv]; repeat destruct Cw as [->|Cw]; try subst v; try subst w; try reflexivity; discriminate H.
Qed.

(** ** lists *)
Lemma forall2_det {A B} (R : A -> B -> Prop) ls : (forall l x y, R l x -> R l y -> x = y) -> forall a b, Forall2 R ls a -> Forall2 R ls b -> a = b.
Proof.
  intros D. induction ls as [|l ls IH]; intros a b Ha Hb; inversion Ha; inversion Hb; subst; [easy|]. f_equal; [now apply (D l)|now apply IH].
Qed.
Lemma forall2_shuffle {A B} (R : A -> B -> Prop) ls ms a : Permutation ls ms -> Forall2 R ls a -> exists b, Forall2 R ms b /\ Permutation a b.
Proof.
  intros P. revert a. induction P as [|l ls ms P IH|l m ls|ls ms ns P IH1 Q IH2]; intros a H.
  - inversion H; subst. exists []. split; constructor.
  - inversion H as [|? x ? a' Hx Ha]; subst. destruct (IH _ Ha) as (b & Hb & Pb). exists (x :: b). split; now constructor.
  - inversion H as [|? x ? a' Hx Ha]; subst. inversion Ha as [|? y ? a'' Hy Ha']; subst. exists (y :: x :: a''). split; [now repeat constructor|apply perm_swap].
  - destruct (IH1 _ H) as (b & Hb & Pb). destruct (IH2 _ Hb) as (c & Hc & Pc). exists c. split; [easy|]. now transitivity b.
Qed.
Lemma list_pair {A} (R : str -> A -> Prop) x y a b : (forall l p q, R l p -> R l q -> p = q) ->
  no_bom (sec_body x) = true -> no_bom (sec_body y) = true ->
  forallb bare_line (full_lines (sec_body x)) = true -> forallb bare_line (full_lines (sec_body y)) = true ->
  same_body (tl_lines (said x)) (tl_lines (said y)) ->
  Forall2 R (full_lines (sec_body x)) a -> Forall2 R (full_lines (sec_body y)) b ->
  Permutation a b /\ ((exists l, In l (full_lines (sec_body x)) /\ has_colon l = false) -> a = b).
Proof.
  intros D Bx By Hx Hy H Ra Rb. rewrite (bare_tl x Bx Hx), (bare_tl y By Hy) in H.
  destruct (bare_trim _ Hx) as (_ & X2 & X3), (bare_trim _ Hy) as (_ & Y2 & Y3). destruct H as [(Cx & Cy & P)|(Cx & P)].
  - rewrite (X3 Cx), (Y3 Cy) in P. destruct (forall2_shuffle R _ _ a P Ra) as (b' & Rb' & Pb). rewrite <- (forall2_det R _ D _ _ Rb' Rb). split; [easy|].
    intros (l & Hl & Cl). rewrite forallb_forall in Cx. rewrite (Cx l Hl) in Cl. discriminate Cl.
  - rewrite X2, Y2 in P. rewrite <- P in Rb. rewrite (forall2_det R _ D _ _ Ra Rb). split; [reflexivity|easy].
Qed.
Lemma item_det dbg v vs l p q : line_item dbg v vs l p -> line_item dbg v vs l q -> p = q.
Proof.
  intros H K. destruct H as [c|l h fs e Hn Hd Hf Hl|l r l' c Hd Hq Hv Hc].
  - inversion K as [c' E|l h fs e Hn|l r l' c' Hd]; subst; [easy|now elim (Hn c)|now elim Hd].
  - destruct K as [c|l h' fs' e' _ _ Hf' Hl'|l r l' c Hd']; [now elim (Hn c)| |easy]. pose proof (fields_unique _ _ _ Hf Hf') as E. injection E as <- <-. congruence.
  - destruct K as [c'|l h fs e _ Hd'|l r' l'' c' _ Hq' Hv' Hc']; [now elim Hd|easy|]. apply searched_iff in Hq, Hq'. rewrite Hq in Hq'. injection Hq' as <-.
    apply with_values_iff in Hv, Hv'. subst. congruence.
Qed.
Lemma points_some s v : timing_points_from_str s v <> ROk None.
Proof.
  intros H. pose proof (proj2 (timing_points_section s v _) (proj2 (list_is _ _ _ _) eq_refl)) as K. rewrite H in K.
  destruct (parse_lines _ _ _) in K; discriminate K.
Qed.
Lemma events_some dbg s v : events_from_str dbg s v <> ROk None.
Proof. unfold events_from_str, events_from_str_vars. destruct (ev_loop _ _ _ _ _ _); discriminate. Qed.
Lemma objects_some s v : hit_objects_from_str s v <> ROk None.
Proof. unfold hit_objects_from_str. destruct (parse_lines _ _ _); discriminate. Qed.

(** ** colours *)
Lemma digit_solid c : digit c -> is_ws c = false.
Proof. unfold digit. intros H. assert (C : c = 48 \/ c = 49 \/ c = 50 \/ c = 51 \/ c = 52 \/ c = 53 \/ c = 54 \/ c = 55 \/ c = 56 \/ c = 57) by lia. repeat destruct C as [->|C]; try subst c; reflexivity. Qed.
Definition no_other (s : str) : bool := forallb (fun c => negb (is_ws c) || blank_char c) s.
Lemma other_squeeze s : no_other s = true -> squeeze s = without_blanks s.
Proof.
  unfold no_other, squeeze, without_blanks. intros H. apply filter_ext_in. intros c Hc. rewrite forallb_forall in H. specialize (H c Hc).
  destruct (is_ws c) eqn:W, (blank_char c) eqn:B; try easy. now rewrite (blank_ws c B) in W.
Qed.
Lemma other_digits ds : Forall digit ds -> no_other ds = true.
Proof. unfold no_other. rewrite forallb_forall, Forall_forall. intros H c Hc. now rewrite (digit_solid c (H c Hc)). Qed.
Lemma other_spaces s : spaces s = true -> no_other s = true.
Proof. unfold no_other, spaces, blank_char. rewrite !forallb_forall. intros H c Hc. rewrite (H c Hc). apply orb_true_r. Qed.
Lemma other_int b z : int_text false b z -> no_other b = true.
Proof. intros H. destruct H as [ds _ H|ds _ H|ds E _ H]; [now apply other_digits| |discriminate E]. unfold no_other. cbn [forallb]. now apply other_digits in H. Qed.
Lemma other_app a b : no_other (a ++ b) = no_other a && no_other b.
Proof. apply forallb_app. Qed.
Lemma other_rgb t x : rgb_text t x -> no_other t = true.
Proof.
  intros H. destruct H as [s0 r s1 s2 g s3 s4 b vr vg vb Hs Hr Hg Hb Hv]. cbn [forallb] in Hs. rewrite !andb_true_iff in Hs.
  destruct Hs as (H0 & H1 & H2 & H3 & H4 & _). rewrite !other_app. rewrite (other_spaces _ H0), (other_spaces _ H1), (other_spaces _ H2), (other_spaces _ H3), (other_spaces _ H4), (other_int _ _ Hb).
  assert (Er : no_other r = true) by (destruct Hr; now apply other_digits).
  assert (Eg : no_other g = true) by (destruct Hg; now apply other_digits). rewrite Er, Eg. reflexivity.
Qed.
Lemma other_colour s c : colour_text s c -> no_other s = true /\ has_colon s = true.
Proof.
  intros H. unfold has_colon. destruct H as [ds s1 s2 t x Hn Hd Hv H1 H2 Ht|s1 s2 t x H1 H2 Ht|b s1 s2 t x Hb H1 H2 Ht];
    (split; [|rewrite !existsb_app; change (existsb (fun c => c =? 58) (lit ":")) with true; now rewrite !orb_true_r]);
    rewrite !other_app, (other_spaces _ H1), (other_spaces _ H2), (other_rgb _ _ Ht).
  - rewrite (other_digits _ Hd). reflexivity.
  - reflexivity.
  - destruct Hb as [->| ->]; reflexivity.
Qed.
Definition squeezed (t : str) (c : colour) : Prop := exists l, t = trim l /\ col_line l = ROk c.
Lemma squeezed_det t p q : squeezed t p -> squeezed t q -> p = q.
Proof.
  intros (l & E & H) (m & E' & K). apply col_accepts in H. rewrite <- E, E' in H. apply col_accepts in H. congruence.
Qed.
Lemma squeezed_line l c : col_line l = ROk c -> squeezed (squeeze (trim l)) c.
Proof.
  intros H. apply col_accepts in H. exists (without_blanks l).
  assert (E : trim (without_blanks l) = without_blanks (trim l)) by (unfold trim; now rewrite without_start, without_end).
  split; [rewrite E; apply other_squeeze; apply (other_colour _ _ H)|]. apply col_accepts. rewrite E. now apply without_colour.
Qed.
Lemma colour_pair x y a b : no_bom (sec_body x) = true -> no_bom (sec_body y) = true -> same_body (tl_lines (said x)) (tl_lines (said y)) ->
  Forall2 (fun l c => col_line l = ROk c) (full_lines (sec_body x)) a -> Forall2 (fun l c => col_line l = ROk c) (full_lines (sec_body y)) b -> Permutation a b.
Proof.
  intros Bx By H Ra Rb. rewrite !said_tl, (tl_full _ Bx), (tl_full _ By) in H.
  assert (S : forall ls w, Forall2 (fun l c => col_line l = ROk c) ls w -> Forall2 squeezed (map squeeze (map trim ls)) w).
  { induction 1 as [|l c ls w K _ IH]; [constructor|]. cbn [map]. constructor; [now apply squeezed_line|easy]. }
  assert (C : forallb has_colon (map trim (full_lines (sec_body x))) = true).
  { clear - Ra. induction Ra as [|l c ls w K _ IH]; [easy|]. cbn [map forallb]. apply col_accepts in K. now rewrite (proj2 (other_colour _ _ K)), IH. }
  destruct H as [(_ & _ & P)|(C' & _)]; [|congruence]. apply S in Ra, Rb. destruct (forall2_shuffle _ _ _ _ P Ra) as (b' & Rb' & Pb).
  now rewrite <- (forall2_det _ _ squeezed_det _ _ Rb' Rb).
Qed.

(** ** keys and values *)
Definition parted (t : str) : str * str := let p := span (fun c => negb (c =? 58)) t in (fst p, tl (snd p)).
Lemma parted_eq k r : forallb (fun c => negb (c =? 58)) k = true -> parted (k ++ 58 :: r) = (k, r).
Proof. unfold parted. intros H. induction k as [|c k IH]; [reflexivity|]. cbn [forallb app span] in *. apply andb_true_iff in H as [Hc H]. rewrite Hc. specialize (IH H). destruct (span _ (k ++ 58 :: r)). cbn [fst snd] in *. injection IH as -> ->. reflexivity. Qed.
Lemma key_plain l : forallb (fun c => negb (c =? 58)) (line_key l) = true.
Proof. unfold line_key. destruct (span (fun c => negb (c =? 58)) l) as [k r] eqn:E. now apply span_spec in E. Qed.
Lemma said_text_eq l : contains_char 58 l = true -> known_key l = true -> gapless (line_value l) = true -> no_bom l = true ->
  said_text (line_key l, line_value l) = line_key l ++ 58 :: line_value l.
Proof.
  intros C K G B. unfold said_text. cbn [fst snd]. destruct (line_parts l C) as (w & E & _). unfold known_key in K. apply andb_true_iff in K as [_ K].
  assert (S : squeeze (line_key l ++ 58 :: line_value l) = line_key l ++ 58 :: line_value l).
  { unfold squeeze. apply filter_id. rewrite forallb_app. cbn [forallb]. fold (gapless (line_value l)). rewrite G. change (is_ws 58) with false. cbn [negb andb]. rewrite andb_true_r. rewrite forallb_forall in *. intros c Hc. specialize (K c Hc). unfold key_char in K. now rewrite !andb_true_iff in K. }
  rewrite S. apply filter_id. unfold no_bom in B. rewrite E in B. rewrite !forallb_app in *. cbn [forallb] in *. rewrite forallb_app in B. now rewrite !andb_true_iff in *.
Qed.
Lemma key_pair x y : no_bom (sec_body x) = true -> no_bom (sec_body y) = true -> forallb bare_value (said x) = true -> forallb bare_value (said y) = true ->
  forallb known_key (said x) = true -> forallb known_key (said y) = true -> same_body (tl_lines (said x)) (tl_lines (said y)) ->
  Permutation (map (fun l => (line_key l, line_value l)) (said x)) (map (fun l => (line_key l, line_value l)) (said y)).
Proof.
  intros Bx By Vx Vy Kx Ky H. destruct (value_kv _ Vx) as (_ & Cx & Gx), (value_kv _ Vy) as (_ & Cy & Gy).
  destruct (known_lines _ Cx Kx) as (_ & X2 & X3), (known_lines _ Cy Ky) as (_ & Y2 & Y3). destruct H as [(_ & _ & P)|(N & _)]; [|congruence].
  rewrite X3, Y3 in P. apply (Permutation_map parted) in P. rewrite !map_map in P.
  assert (S : forall z, no_bom (sec_body z) = true -> forallb (contains_char 58) (said z) = true -> forallb known_key (said z) = true -> forallb (fun l => gapless (line_value l)) (said z) = true ->
    map (fun l => parted (said_text (line_key l, line_value l))) (said z) = map (fun l => (line_key l, line_value l)) (said z)).
  { intros z B C K G. apply map_ext_in. intros l Hl. rewrite forallb_forall in C, K, G. rewrite said_text_eq; auto; [now apply parted_eq, key_plain|].
    apply lines_no_bom in B. rewrite forallb_forall in B. apply B. unfold said, packed in Hl. now apply filter_In in Hl. }
  now rewrite (S x Bx Cx Kx Gx), (S y By Cy Ky Gy) in P.
Qed.

(** ** all together *)
Lemma paired_left secs secs' x : Forall2 paired secs secs' -> In x secs -> exists y, In y secs' /\ paired x y.
Proof. induction 1 as [|a b l l' R F IH]; [easy|]. intros [->|H]; [exists b; split; [now left|easy]|]. destruct (IH H) as (y & I & R'). exists y. split; [now right|easy]. Qed.
Lemma paired_right secs secs' y : Forall2 paired secs secs' -> In y secs' -> exists x, In x secs /\ paired x y.
Proof. induction 1 as [|a b l l' R F IH]; [easy|]. intros [->|H]; [exists a; split; [now left|easy]|]. destruct (IH H) as (x & I & R'). exists x. split; [now right|easy]. Qed.
Lemma holds_pair {T E} secs secs' name (from : str -> res T E) old a b (R : T -> T -> Prop) : Forall2 paired secs secs' ->
  ((forall x, In x secs -> sec_name x <> lit name) -> R old old) ->
  (forall x y, In x secs -> In y secs' -> paired x y -> sec_name x = lit name -> from (sec_body x) = ROk a -> from (sec_body y) = ROk b -> R a b) ->
  holds secs name from old a -> holds secs' name from old b -> R a b.
Proof.
  intros F R0 H [A1 A2] [B1 B2]. destruct (find (fun x => str_eqb (sec_name x) (lit name)) secs) as [x|] eqn:Q.
  - apply find_some in Q as [Hx Q]. apply str_eqb_eq in Q. destruct (paired_left _ _ x F Hx) as (y & Hy & P). apply (H x y); try easy; [now apply A1|]. apply B1; [easy|]. now rewrite <- (proj1 P).
  - assert (N : forall x, In x secs -> sec_name x <> lit name). { intros x Hx K. apply (find_none _ _ Q) in Hx. now rewrite K, str_eqb_refl in Hx. }
    rewrite (A2 N), B2; [now apply R0|]. intros y Hy K. destruct (paired_right _ _ y F Hy) as (x & Hx & P). apply (N x Hx). now rewrite (proj1 P).
Qed.
Lemma read_names dbg v secs g f : all_read dbg v secs g f -> Forall (fun x => In (sec_name x) section_names) secs.
Proof. now intros (_ & N & _). Qed.
Lemma bare_no_header dbg v secs g f x : forallb sec_ok secs = true -> all_read dbg v secs g f -> In x secs -> no_bom (sec_body x) = true -> bare x = true ->
  forallb (fun l => negb (header_line l)) (tl_lines (said x)) = true.
Proof.
  intros O A Hx B H. destruct (bare_cases x H) as [(K & V)|[(_ & V)|V]].
  - destruct (value_kv _ V) as (Kv & C & _). apply (known_lines _ C). now apply (read_known dbg v secs g f x O A Hx).
  - rewrite said_tl, (tl_full _ B). rewrite forallb_forall in *. intros l Hl. apply in_map_iff in Hl as (m & <- & Hm). now apply V.
  - apply bare_header; try easy. rewrite forallb_forall in O. now apply O.
Qed.
Lemma bare_list x name : bare x = true -> sec_name x = lit name -> existsb (str_eqb (lit name)) (lit "Colours" :: key_sections) = false -> forallb bare_line (full_lines (sec_body x)) = true.
Proof.
  intros H E N. unfold bare in H. rewrite E in H. cbn [existsb] in N. apply orb_false_iff in N as [N1 N2]. now rewrite N2, N1 in H.
Qed.
Lemma bare_keys x name : bare x = true -> sec_name x = lit name -> existsb (str_eqb (lit name)) key_sections = true -> forallb bare_value (said x) = true.
Proof. intros H E N. unfold bare in H. rewrite E in H. now rewrite N in H. Qed.
Definition kept (secs : list sec) (f g : osu_file) : Prop :=
  (has_plain_line secs "Events" -> osu_events f = osu_events g)
  /\ (has_plain_line secs "TimingPoints" -> osu_timing_points f = osu_timing_points g)
  /\ (has_plain_line secs "HitObjects" -> osu_hitobjects f = osu_hitobjects g).
Lemma nodup_same secs x y : NoDup (map sec_name secs) -> In x secs -> In y secs -> sec_name x = sec_name y -> x = y.
Proof.
  induction secs as [|z secs IH]; [easy|]. cbn [map]. intros D Hx Hy E. inversion_clear D as [|? ? N D']. destruct Hx as [->|Hx], Hy as [->|Hy]; [easy| | |now apply IH].
  - elim N. rewrite E. now apply in_map.
  - elim N. rewrite <- E. now apply in_map.
Qed.
Lemma plain_line_of secs x name : NoDup (map sec_name secs) -> In x secs -> sec_name x = lit name -> has_plain_line secs name -> exists l, In l (full_lines (sec_body x)) /\ has_colon l = false.
Proof.
  intros D Hx E (y & l & Hy & Ey & Hl & C). assert (Q : x = y) by (apply (nodup_same secs); congruence). subst y. now exists l.
Qed.
Lemma plain_line_none secs name : (forall x, In x secs -> sec_name x <> lit name) -> ~ has_plain_line secs name.
Proof. intros H (x & l & Hx & E & _). now apply (H x Hx). Qed.
Lemma passes dbg s t v w secs secs' f g : (3 <= v <= 14)%Z -> (3 <= w <= 14)%Z -> laid_out s v secs -> laid_out t w secs' ->
  no_bom s = true -> no_bom t = true -> forallb bare secs = true -> forallb bare secs' = true ->
  osu_from_str dbg s = ROk f -> osu_from_str dbg t = ROk g -> osu_str_eq s t = true -> same_but_order f g /\ kept secs f g.
Proof.
  intros Hv Hw Ls Lt Bs Bt Rs Rt Fs Gt Q.
  pose proof (fun x H => laid_bom s v secs x Ls Bs H) as Bx. pose proof (fun x H => laid_bom t w secs' x Lt Bt H) as By.
  apply (laid_read dbg s v secs f Ls Hv) in Fs. apply (laid_read dbg t w secs' g Lt Hw) in Gt.
  assert (O : forallb sec_ok secs = true) by now destruct Ls as (? & ? & _ & _ & _ & ?). assert (O' : forallb sec_ok secs' = true) by now destruct Lt as (? & ? & _ & _ & _ & ?).
  rewrite forallb_forall in Rs, Rt.
  destruct (laid_cut s v secs Ls Hv (read_names _ _ _ _ _ Fs)) as (pre & Cs).
  { apply Forall_forall. intros x Hx. apply (bare_no_header dbg v secs (osu_new v) f x); auto. }
  destruct (laid_cut t w secs' Lt Hw (read_names _ _ _ _ _ Gt)) as (pre' & Ct).
  { apply Forall_forall. intros x Hx. apply (bare_no_header dbg w secs' (osu_new w) g x); auto. }
  apply (eq_exact s t _ _ _ _ Bs Bt Cs Ct) in Q as [Ev F]. apply cut_paired in F. unfold version_part in Ev.
  assert (V : forall z, starts_with (lit "osu file format v") (version_prefix ++ print_Z z) = true) by reflexivity. rewrite !V in Ev. injection Ev as Ev.
  apply (version_inj v w Hv Hw) in Ev. subst w. pose proof Fs as As. pose proof Gt as At. destruct Fs as (Nd & _ & D1 & D2 & D3 & D4 & D5 & D6 & D7 & D8 & D9 & D10), Gt as (_ & _ & G1 & G2 & G3 & G4 & G5 & G6 & G7 & G8 & G9 & G10).
  pose proof O as Of. pose proof O' as Of'. rewrite forallb_forall in O, O'.
  assert (KV : forall x y name, In x secs -> In y secs' -> paired x y -> sec_name x = lit name -> In (lit name) key_sections -> existsb (str_eqb (lit name)) key_sections = true ->
    forallb kv_line_ok (said x) = true /\ forallb kv_line_ok (said y) = true /\ Permutation (map (fun l => (line_key l, line_value l)) (said x)) (map (fun l => (line_key l, line_value l)) (said y))).
  { intros x y name Hx Hy [Ep P] En I Eb. pose proof (bare_keys x name (Rs x Hx) En Eb) as Vx. assert (En' : sec_name y = lit name) by congruence. pose proof (bare_keys y name (Rt y Hy) En' Eb) as Vy.
    destruct (value_kv _ Vx) as (Kx & _), (value_kv _ Vy) as (Ky & _). split; [easy|]. split; [easy|].
    apply key_pair; auto; [apply (read_known dbg v secs (osu_new v) f x Of As Hx)|apply (read_known dbg v secs' (osu_new v) g y Of' At Hy)]; congruence. }
  assert (E3 : osu_general f = osu_general g).
  { revert D3 G3. apply (holds_pair _ _ _ _ _ _ _ eq F); [easy|]. intros x y Hx Hy P En A B. destruct (KV x y _ Hx Hy P En) as (Kx & Ky & Pm); [cbn; tauto|reflexivity|].
    assert (A' : general_from_str (sec_body x) v = ROk (osu_general g)); [|congruence]. revert B. apply (relaid_read general_errs _ _ _ general_laws); auto. intros. now apply keys_same. }
  assert (E4 : osu_editor f = osu_editor g).
  { revert D4 G4. apply (holds_pair _ _ _ _ _ _ _ eq F); [easy|]. intros x y Hx Hy P En A B. destruct (KV x y _ Hx Hy P En) as (Kx & Ky & Pm); [cbn; tauto|reflexivity|].
    assert (A' : editor_from_str (sec_body x) v = ROk (osu_editor g)); [|congruence]. revert B. apply (relaid_read editor_errs _ _ _ editor_laws); auto. intros. now apply keys_same. }
  assert (E5 : osu_metadata f = osu_metadata g).
  { revert D5 G5. apply (holds_pair _ _ _ _ _ _ _ eq F); [easy|]. intros x y Hx Hy P En A B. destruct (KV x y _ Hx Hy P En) as (Kx & Ky & Pm); [cbn; tauto|reflexivity|].
    assert (A' : metadata_from_str (sec_body x) v = ROk (osu_metadata g)); [|congruence]. revert B. apply (relaid_read metadata_errs _ _ _ metadata_laws); auto. intros. now apply keys_same. }
  assert (E6 : osu_difficulty f = osu_difficulty g).
  { revert D6 G6. apply (holds_pair _ _ _ _ _ _ _ eq F); [easy|]. intros x y Hx Hy P En A B. destruct (KV x y _ Hx Hy P En) as (Kx & Ky & Pm); [cbn; tauto|reflexivity|].
    assert (A' : difficulty_from_str (sec_body x) v = ROk (osu_difficulty g)); [|congruence]. revert B. apply (relaid_read difficulty_errs _ _ _ difficulty_laws); auto. intros. now apply keys_same. }
  assert (E7 : shuffled (option_map items (osu_events f)) (option_map items (osu_events g)) /\ (has_plain_line secs "Events" -> osu_events f = osu_events g)).
  { revert D7 G7. apply (holds_pair _ _ _ _ _ _ _ (fun a b => shuffled (option_map items a) (option_map items b) /\ (has_plain_line secs "Events" -> a = b)) F); [easy|].
    intros x y Hx Hy [Ep P] En A B. destruct (osu_events f) as [a|]; [|now apply events_some in A]. destruct (osu_events g) as [b|]; [|now apply events_some in B].
    apply lines_items0 in A, B. cbn [option_map shuffled]. assert (En' : sec_name y = lit "Events") by congruence.
    destruct (list_pair _ x y _ _ (item_det dbg v []) (Bx x Hx) (By y Hy) (bare_list x _ (Rs x Hx) En eq_refl) (bare_list y _ (Rt y Hy) En' eq_refl) P A B) as [L1 L2].
    split; [easy|]. intros W. f_equal. apply items_inj, L2. now apply (plain_line_of secs x "Events"). }
  assert (E8 : shuffled (osu_timing_points f) (osu_timing_points g) /\ (has_plain_line secs "TimingPoints" -> osu_timing_points f = osu_timing_points g)).
  { revert D8 G8. apply (holds_pair _ _ _ _ _ _ _ (fun a b => shuffled a b /\ (has_plain_line secs "TimingPoints" -> a = b)) F); [easy|].
    intros x y Hx Hy [Ep P] En A B. destruct (osu_timing_points f) as [a|]; [|now apply points_some in A]. destruct (osu_timing_points g) as [b|]; [|now apply points_some in B].
    apply timing_points_items in A, B. cbn [shuffled]. assert (En' : sec_name y = lit "TimingPoints") by congruence.
    destruct (list_pair (fun line x => tp_line v (pieces 44 line) = ROk x) x y a b) as [L1 L2]; auto; [intros; congruence|now apply (bare_list x _ (Rs x Hx) En eq_refl)|now apply (bare_list y _ (Rt y Hy) En' eq_refl)|].
    split; [easy|]. intros W. f_equal. apply L2. now apply (plain_line_of secs x "TimingPoints"). }
  assert (E9 : shuffled (osu_colours f) (osu_colours g)).
  { revert D9 G9. apply (holds_pair _ _ _ _ _ _ _ shuffled F); [easy|].
    intros x y Hx Hy [Ep P] En A B. destruct (old_version v) eqn:Ov.
    - unfold colours_from_str in A, B. rewrite Ov in A, B. injection A as <-. injection B as <-. exact I.
    - assert (N : forall u, colours_from_str u v <> ROk None) by (intros u; unfold colours_from_str; rewrite Ov; destruct (parse_lines _ _ _); discriminate).
      destruct (osu_colours f) as [a|]; [|now apply N in A]. destruct (osu_colours g) as [b|]; [|now apply N in B].
      apply (colours_items _ _ _ Ov) in A, B. apply (colour_pair x y); auto. }
  assert (E10 : shuffled (osu_hitobjects f) (osu_hitobjects g) /\ (has_plain_line secs "HitObjects" -> osu_hitobjects f = osu_hitobjects g)).
  { revert D10 G10. apply (holds_pair _ _ _ _ _ _ _ (fun a b => shuffled a b /\ (has_plain_line secs "HitObjects" -> a = b)) F); [easy|].
    intros x y Hx Hy [Ep P] En A B. destruct (osu_hitobjects f) as [a|]; [|now apply objects_some in A]. destruct (osu_hitobjects g) as [b|]; [|now apply objects_some in B].
    apply hit_objects_items in A, B. cbn [shuffled]. assert (En' : sec_name y = lit "HitObjects") by congruence.
    destruct (list_pair (fun line x => ho_line v (pieces 44 line) = ROk x) x y a b) as [L1 L2]; auto; [intros; congruence|now apply (bare_list x _ (Rs x Hx) En eq_refl)|now apply (bare_list y _ (Rt y Hy) En' eq_refl)|].
    split; [easy|]. intros W. f_equal. apply L2. now apply (plain_line_of secs x "HitObjects"). }
  unfold same_but_order, kept. rewrite D1, G1, D2, G2. tauto.
Qed.
