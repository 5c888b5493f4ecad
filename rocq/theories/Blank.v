(** Blank lines (C57): proofs. *)
From Coq Require Import String List NArith ZArith Bool Lia.
From Verif Require Import Str Num Nom Dec Parsers General Editor Metadata Difficulty Colours TimingPoints HitObjects Storyboard
  NormalEvents Events Osb OsuFile Trimmer Spec SpecWf SpecKv SpecText SpecSections SpecFile SpecTotal SpecOsb SpecLine SpecEvLine SpecEvents
  SpecEvSection SpecKvRead SpecParts SpecMeans SpecEnds SpecBlank OsbFacts FileFacts StrFacts KvFacts KvRead FileTheorems Means EvPanic Ends.
Import ListNotations.
Local Open Scope N_scope.

(** ** list sections *)
Lemma blank_is l : blank_line l = true -> is_blank l = true.
Proof.
  unfold blank_line. rewrite blank_forall, !forallb_forall. intros H c Hc. specialize (H c Hc). unfold layout_char in H.
  rewrite !orb_true_iff, !N.eqb_eq in H. destruct H as [[[-> | ->] | ->] | ->]; reflexivity.
Qed.
Lemma parse_packed {A E} (f : str -> res A E) ls : forall i j, no_line (parse_lines f i ls) = no_line (parse_lines f j (packed ls)).
Proof.
  unfold packed. induction ls as [|l ls IH]; intros i j; [easy|]. cbn [filter parse_lines]. destruct (blank_line l) eqn:B; cbn [negb].
  - rewrite (blank_is _ B). apply IH.
  - cbn [parse_lines]. destruct (is_blank l); [apply IH|]. destruct (f l); try easy. specialize (IH (i + 1)%Z (j + 1)%Z).
    destruct (parse_lines f (i + 1) ls), (parse_lines f (j + 1) (filter _ ls)); cbn in *; congruence.
Qed.
Lemma loop_packed dbg v vs ls : forall i j evs, no_line (ev_loop dbg v vs i evs ls) = no_line (ev_loop dbg v vs j evs (packed ls)).
Proof.
  unfold packed. induction ls as [|l ls IH]; intros i j evs; [easy|]. cbn [filter ev_loop]. destruct (blank_line l) eqn:B; cbn [negb].
  - rewrite (blank_is _ B). apply IH.
  - cbn [ev_loop]. destruct (is_blank l); [apply IH|]. destruct (ev_step dbg v vs evs l); easy.
Qed.
Lemma no_line_map {A B E} (f : A -> B) (r : res A (line_err E)) : no_line (rmap f r) = rmap f (no_line r).
Proof. now destruct r. Qed.
Lemma no_line_bind {A B E} (f : A -> res B (line_err E)) (r r' : res A (line_err E)) : no_line r = no_line r' -> no_line (rbind r f) = no_line (rbind r' f).
Proof. destruct r, r'; cbn; congruence. Qed.
Lemma lists_packed dbg vs s t v : packed (lines s) = packed (lines t) ->
  no_line (timing_points_from_str s v) = no_line (timing_points_from_str t v)
  /\ no_line (hit_objects_from_str s v) = no_line (hit_objects_from_str t v)
  /\ no_line (colours_from_str s v) = no_line (colours_from_str t v)
  /\ no_line (events_from_str_vars dbg vs s v) = no_line (events_from_str_vars dbg vs t v)
  /\ no_line (variables_from_str s) = no_line (variables_from_str t).
Proof.
  intros H.
  assert (P : forall A E (f : str -> res A E), no_line (parse_lines f 0 (lines s)) = no_line (parse_lines f 0 (lines t))).
  { intros A E f. rewrite (parse_packed f (lines s) 0 0), (parse_packed f (lines t) 0 0). now rewrite H. }
  unfold timing_points_from_str, hit_objects_from_str, colours_from_str, events_from_str_vars, variables_from_str.
  split; [apply no_line_bind, P|]. split; [now rewrite !no_line_map, P|]. split; [destruct (old_version v); [easy|]; now rewrite !no_line_map, P|].
  split; [|apply P]. rewrite !no_line_map, (loop_packed dbg v vs (lines s) 0 0), (loop_packed dbg v vs (lines t) 0 0). now rewrite H.
Qed.

(** ** white space of Unicode *)
Lemma white_is c : is_ws c = existsb (N.eqb c) white.
Proof.
  apply eq_true_iff_eq. unfold is_ws, white. cbn [existsb].
  rewrite !orb_true_iff, !andb_true_iff, !N.eqb_eq, !N.leb_le. split; [|intros H; repeat destruct H as [H|H]; try discriminate; lia].
  intros H. assert (K : c = 9 \/ c = 10 \/ c = 11 \/ c = 12 \/ c = 13 \/ c = 32 \/ c = 133 \/ c = 160 \/ c = 5760 \/ c = 8192 \/ c = 8193 \/ c = 8194 \/ c = 8195
    \/ c = 8196 \/ c = 8197 \/ c = 8198 \/ c = 8199 \/ c = 8200 \/ c = 8201 \/ c = 8202 \/ c = 8232 \/ c = 8233 \/ c = 8239 \/ c = 8287 \/ c = 12288) by lia.
  tauto.
Qed.
Lemma white_blank l : is_blank l = white_line l.
Proof. rewrite blank_forall. unfold white_line. induction l as [|c l IH]; [reflexivity|]. cbn [forallb]. now rewrite IH, white_is. Qed.
Lemma parse_inked {A E} (f : str -> res A E) ls : forall i j, no_line (parse_lines f i ls) = no_line (parse_lines f j (inked ls)).
Proof.
  unfold inked. induction ls as [|l ls IH]; intros i j; [easy|]. cbn [filter parse_lines]. rewrite <- white_blank. destruct (is_blank l) eqn:B; cbn [negb].
  - apply IH.
  - cbn [parse_lines]. rewrite B. destruct (f l); try easy. specialize (IH (i + 1)%Z (j + 1)%Z).
    destruct (parse_lines f (i + 1) ls), (parse_lines f (j + 1) (filter _ ls)); cbn in *; congruence.
Qed.
Lemma loop_inked dbg v vs ls : forall i j evs, no_line (ev_loop dbg v vs i evs ls) = no_line (ev_loop dbg v vs j evs (inked ls)).
Proof.
  unfold inked. induction ls as [|l ls IH]; intros i j evs; [easy|]. cbn [filter ev_loop]. rewrite <- white_blank. destruct (is_blank l) eqn:B; cbn [negb].
  - apply IH.
  - cbn [ev_loop]. rewrite B. destruct (ev_step dbg v vs evs l); easy.
Qed.
Lemma lists_inked dbg vs s t v : inked (lines s) = inked (lines t) ->
  no_line (timing_points_from_str s v) = no_line (timing_points_from_str t v)
  /\ no_line (hit_objects_from_str s v) = no_line (hit_objects_from_str t v)
  /\ no_line (colours_from_str s v) = no_line (colours_from_str t v)
  /\ no_line (events_from_str_vars dbg vs s v) = no_line (events_from_str_vars dbg vs t v)
  /\ no_line (variables_from_str s) = no_line (variables_from_str t).
Proof.
  intros H.
  assert (P : forall A E (f : str -> res A E), no_line (parse_lines f 0 (lines s)) = no_line (parse_lines f 0 (lines t))).
  { intros A E f. rewrite (parse_inked f (lines s) 0 0), (parse_inked f (lines t) 0 0). now rewrite H. }
  unfold timing_points_from_str, hit_objects_from_str, colours_from_str, events_from_str_vars, variables_from_str.
  split; [apply no_line_bind, P|]. split; [now rewrite !no_line_map, P|]. split; [destruct (old_version v); [easy|]; now rewrite !no_line_map, P|].
  split; [|apply P]. rewrite !no_line_map, (loop_inked dbg v vs (lines s) 0 0), (loop_inked dbg v vs (lines t) 0 0). now rewrite H.
Qed.
Lemma skipped_lines s : variables_from_str s = ROk [] <-> forallb white_line (lines s) = true.
Proof.
  unfold variables_from_str. generalize 0%Z. induction (lines s) as [|l ls IH]; intros i; cbn [parse_lines forallb]; [easy|].
  rewrite <- white_blank. destruct (is_blank l); [apply IH|]. split; [|discriminate]. destruct (v_unwrap _); [|discriminate..].
  destruct (parse_lines _ _ ls); discriminate.
Qed.
Lemma skipped_objects s v : hit_objects_from_str s v = ROk (Some []) <-> forallb white_line (lines s) = true.
Proof.
  unfold hit_objects_from_str. generalize 0%Z. induction (lines s) as [|l ls IH]; intros i; cbn [parse_lines forallb]; [easy|].
  rewrite <- white_blank. destruct (is_blank l); [apply IH|]. split; [|discriminate]. match goal with |- context [match ?x with ROk _ => rmap _ _ | _ => _ end] => destruct x end; [|discriminate..].
  destruct (parse_lines _ _ ls); cbn; discriminate.
Qed.
Lemma skipped_both s v : (variables_from_str s = ROk [] <-> forallb white_line (lines s) = true)
  /\ (hit_objects_from_str s v = ROk (Some []) <-> forallb white_line (lines s) = true).
Proof. split; [apply skipped_lines|apply skipped_objects]. Qed.

(** ** key/value sections *)
Definition lay (s : str) : bool := head_is (fun c => blank_char c || break_char c) s.
Lemma lay_char c : layout_char c = blank_char c || break_char c.
Proof. unfold layout_char, blank_char, break_char. destruct (c =? 32), (c =? 9), (c =? 13), (c =? 10); reflexivity. Qed.
Lemma ok_next e es t : entries_ok (e :: es) = true -> rest_after (e :: es) t = true -> lay (kv_text es ++ t) = false /\ (entry_gap e = [] -> kv_text es ++ t = []).
Proof.
  intros H R. cbn [entries_ok] in H. rewrite !andb_true_iff in H. destruct H as [[H1 H2] H3]. destruct es as [|e' es].
  - cbn [kv_text map concat app]. unfold rest_after in R. apply andb_true_iff in R as [_ R]. cbn [last] in R. destruct t; [easy|]. cbn [is_empty orb] in R. apply andb_true_iff in R as [R1 R2].
    apply negb_true_iff in R2. split; [exact R2|]. intros G. rewrite G in R1. discriminate.
  - apply andb_true_iff in H3 as [H3 H4]. apply negb_true_iff in H4. split; [|intros G; rewrite G in H3; discriminate].
    unfold kv_text. cbn [map concat]. unfold entry_text. destruct (entry_key e'); [easy|exact H4].
Qed.
Lemma rest_tail e es t : rest_after (e :: es) t = true -> rest_after es t = true.
Proof.
  unfold rest_after. rewrite !andb_true_iff. intros [H1 H2]. split; [easy|]. destruct es as [|e' es]; [easy|]. exact H2.
Qed.
Lemma first_line_nl P Q : first_line (P ++ 10 :: Q) = fst (span (fun c => negb (c =? 10)) P).
Proof.
  unfold first_line. induction P as [|c P IH]; [easy|]. cbn [app span]. destruct (negb (c =? 10)); [|easy]. destruct (span _ (P ++ _)), (span _ P). cbn in *. now rewrite IH.
Qed.
Lemma entry_cut e P m : entry_ok e = true -> entry_text e = P ++ 10 :: m -> exists g, P = entry_key e ++ 58 :: entry_rest e ++ g /\ entry_gap e = g ++ 10 :: m.
Proof.
  unfold entry_ok, entry_text. intros H E. rewrite !andb_true_iff in H. destruct H as [[Hk Hr] _].
  assert (X : (entry_key e ++ 58 :: entry_rest e) ++ entry_gap e = P ++ 10 :: m) by (rewrite <- E, <- app_assoc; reflexivity).
  apply app_split in X as [(g & X1 & X2)|(g & Hg & -> & X2)].
  - destruct g as [|g0 g].
    + rewrite app_nil_r in X1. cbn in X2. exists []. rewrite app_nil_r. split; [now rewrite <- X1|easy].
    + exfalso. cbn in X2. injection X2 as <- X2. assert (In 10 (entry_key e ++ 58 :: entry_rest e)) as K by (rewrite X1; apply in_elt).
      rewrite in_app_iff in K. destruct K as [K|[K|K]]; [|discriminate|].
      * unfold key_ok in Hk. rewrite forallb_forall in Hk. now specialize (Hk _ K).
      * unfold rest_ok in Hr. rewrite forallb_forall in Hr. now specialize (Hr _ K).
  - exists g. split; [now rewrite <- app_assoc|easy].
Qed.
Lemma gap_blank g : gap_ok g = true -> is_blank g = true.
Proof.
  unfold gap_ok. intros H. apply andb_true_iff in H as [H _]. apply blank_is. unfold blank_line. rewrite forallb_forall in *. intros c Hc. rewrite lay_char. now apply H.
Qed.
(** a blank line is taken out *)
Lemma kv_drop w Q : forallb layout_char w = true -> forall es P t, entries_ok es = true -> rest_after es t = true ->
  kv_text es ++ t = P ++ 10 :: w ++ 10 :: Q ->
  exists es' t', P ++ 10 :: Q = kv_text es' ++ t' /\ entries_ok es' = true /\ rest_after es' t' = true
    /\ map fst es' = map fst es /\ is_blank t' = is_blank t /\ is_empty t' = is_empty t /\ lay t' = lay t.
Proof.
  intros Hw. induction es as [|e es IH]; intros P t He Ht E.
  - cbn [kv_text map concat app] in E. subst t. exists [], (P ++ 10 :: Q). split; [easy|]. split; [easy|]. split.
    { unfold rest_after in *. rewrite first_line_nl in *. exact Ht. }
    split; [easy|]. split.
    { rewrite !blank_forall, !forallb_app. cbn [forallb]. rewrite forallb_app. cbn [forallb]. change (is_ws 10) with true. cbn [andb]. apply blank_is in Hw. rewrite blank_forall in Hw. now rewrite Hw. }
    destruct P; easy.
  - pose proof (ok_next _ _ _ He Ht) as [Nl Ng]. pose proof He as He'. cbn [entries_ok] in He. rewrite !andb_true_iff in He. destruct He as [[He1 He2] He3].
    assert (X : entry_text e ++ (kv_text es ++ t) = P ++ 10 :: w ++ 10 :: Q) by (rewrite <- E; unfold kv_text; cbn [map concat]; now rewrite <- app_assoc).
    apply app_split in X as [(m & X1 & X2)|(m & Hm & -> & X2)].
    + (* the break is in this entry *)
      destruct m as [|m0 m].
      { exfalso. cbn in X2. rewrite <- X2 in Nl. discriminate Nl. }
      cbn in X2. injection X2 as <- X2. destruct (entry_cut _ _ _ He1 X1) as (g & -> & Eg).
      assert (Y : exists m', m = w ++ 10 :: m' /\ Q = m' ++ kv_text es ++ t).
      { change (w ++ 10 :: Q) with (w ++ [10] ++ Q) in X2. rewrite app_assoc in X2. apply app_split in X2 as [(z & Z1 & Z2)|(z & Hz & Z1 & Z2)].
        - destruct z as [|z0 z]; [exists []; split; [rewrite app_nil_r in Z1; congruence|cbn in *; congruence]|exfalso].
          rewrite Z2 in Nl. unfold lay in Nl. cbn in Nl. assert (K : forallb layout_char (w ++ [10]) = true) by (rewrite forallb_app, Hw; reflexivity).
          rewrite Z1, forallb_app in K. cbn [forallb] in K. rewrite lay_char, Nl, andb_false_r in K. discriminate.
        - exists z. split; [now rewrite Z1, <- app_assoc|easy]. }
      destruct Y as (m' & -> & ->).
      set (e' := (entry_key e, entry_rest e, g ++ 10 :: m') : kv_entry).
      exists (e' :: es), t. split; [|split; [|split; [|split; [|easy]]]].
      * change (kv_text (e' :: es)) with ((entry_key e ++ 58 :: entry_rest e ++ g ++ 10 :: m') ++ kv_text es). repeat (rewrite <- !app_assoc; cbn [app]). reflexivity.
      * cbn [entries_ok]. rewrite He2, andb_true_r. apply andb_true_iff. split.
        { unfold entry_ok in *. cbn [entry_key entry_rest entry_gap e' fst snd]. rewrite !andb_true_iff in *. destruct He1 as [[? ?] Hg]. split; [easy|]. rewrite Eg in Hg.
          unfold gap_ok in *. rewrite !forallb_app in *. cbn [forallb] in *. rewrite forallb_app in Hg. cbn [forallb] in Hg. rewrite !andb_true_iff in *. destruct g; easy. }
        destruct es; [easy|]. rewrite Eg in He3. cbn [entry_gap e' fst snd]. destruct g; exact He3.
      * unfold rest_after in *. destruct es; [|exact Ht]. cbn [last] in *. rewrite Eg in Ht. cbn [entry_gap e' fst snd]. destruct g; exact Ht.
      * cbn [map]. f_equal. now destruct e as [[? ?] ?].
    + destruct (IH m t He2 (rest_tail _ _ _ Ht)) as (es' & t' & E' & H1 & H2 & H3 & H4 & H5 & H6); [easy|].
      exists (e :: es'), t'. split; [|split; [|split; [|split; [|easy]]]].
      * unfold kv_text in *. cbn [map concat]. rewrite <- !app_assoc. now rewrite E'.
      * cbn [entries_ok]. rewrite He1, H1. cbn [andb]. destruct es' as [|f es']; [easy|]. destruct es as [|f0 es]; [discriminate H3|]. cbn [map] in H3. injection H3 as H3 _.
        unfold entry_key in *. now rewrite H3.
      * unfold rest_after in *. fold (lay t) in Ht. fold (lay t'). rewrite H5, H6. apply andb_true_iff in Ht as [Ht1 Ht2]. apply andb_true_iff in H2 as [H2 H2']. rewrite H2. cbn [andb].
        destruct es as [|f0 es]; [destruct es' as [|f es']; [exact Ht2|discriminate H3]|]. destruct es' as [|f es']; [discriminate H3|].
        change (last (e :: f :: es') ([], [], [])) with (last (f :: es') ([], [], [])). fold (lay t') in H2'. rewrite H5, H6 in H2'. exact H2'.
      * cbn [map]. now rewrite H3.
Qed.
(** a blank line at the end is left out *)
Lemma add_break a e w : forallb layout_char w = true -> entries_ok (a ++ [e]) = true -> entries_ok (a ++ [adde (10 :: w) e]) = true.
Proof.
  intros Hw. assert (Hw' : forallb (fun c => blank_char c || break_char c) w = true) by (rewrite forallb_forall in *; intros c Hc; rewrite <- lay_char; now apply Hw).
  induction a as [|x a IH].
  - cbn [app entries_ok]. unfold entry_ok, gap_ok. change (entry_gap (adde _ e)) with (entry_gap e ++ 10 :: w). change (entry_key (adde _ e)) with (entry_key e). change (entry_rest (adde _ e)) with (entry_rest e).
    rewrite !andb_true_r, !andb_true_iff, forallb_app. cbn [forallb]. rewrite Hw'. intros [[H1 H2] [H3 H4]]. repeat split; try easy; [now rewrite H3|]. destruct (entry_gap e); [easy|]. exact H4.
  - cbn [app entries_ok]. rewrite !andb_true_iff. intros [[H1 H2] H3]. split; [split; [easy|now apply IH]|]. destruct a as [|y a]; exact H3.
Qed.
Lemma kv_end w es t : forallb layout_char w = true -> entries_ok es = true -> rest_after es t = true ->
  exists es' t', (kv_text es ++ t) ++ 10 :: w = kv_text es' ++ t' /\ entries_ok es' = true /\ rest_after es' t' = true /\ map fst es' = map fst es /\ is_blank t' = is_blank t.
Proof.
  intros Hw He Ht. destruct (is_empty es || negb (is_empty t)) eqn:C.
  - exists es, (t ++ 10 :: w). rewrite <- app_assoc. split; [easy|]. split; [easy|]. split; [|split; [easy|]].
    + unfold rest_after in *. rewrite first_line_nl. fold (first_line t). destruct es as [|e es]; [exact Ht|]. cbn in C. destruct t as [|c t]; [discriminate|]. exact Ht.
    + rewrite !blank_forall, forallb_app. apply blank_is in Hw. rewrite blank_forall in Hw. cbn [forallb]. rewrite Hw. apply andb_true_r.
  - destruct t as [|c t]; [|now rewrite orb_true_r in C]. destruct es as [|e0 es0]; [discriminate|]. rewrite !app_nil_r.
    destruct (@exists_last _ (e0 :: es0) ltac:(easy)) as (a & e & Ee). rewrite Ee in *. clear Ee e0 es0 C.
    exists (a ++ [adde (10 :: w) e]), []. rewrite app_nil_r. split; [|split; [now apply add_break|split; [|split; [|easy]]]].
    + unfold kv_text. rewrite !map_app, !concat_app, <- app_assoc. f_equal. cbn [map concat]. rewrite !app_nil_r. unfold entry_text, adde. cbn [fst snd entry_key entry_rest entry_gap]. rewrite <- app_assoc. cbn [app]. now rewrite <- !app_assoc.
    + unfold rest_after. cbn. now destruct a.
    + rewrite !map_app. f_equal. cbn. now destruct e as [[? ?] ?].
Qed.
Section Same.
  Context {A E : Type} (table : list (string * (str -> res unit E))) (unknown dup colon : E) (build : (str -> option str) -> A).
  Hypothesis ext : forall g h, (forall k, g k = h k) -> build g = build h.
  Lemma fst_bad es : forall es' i j before, map fst es = map fst es' ->
    no_line (first_bad table unknown dup i before es) = no_line (first_bad table unknown dup j before es').
  Proof.
    induction es as [|e es IH]; intros [|e' es'] i j before H; [easy|discriminate H..|]. cbn [map] in H. injection H as H Hs. cbn [first_bad].
    unfold entry_key, entry_value, entry_rest. rewrite H. destruct (if existsb _ _ then _ else _); try easy. now apply IH.
  Qed.
  Lemma fst_value k es : forall es', map fst es = map fst es' -> value_of es k = value_of es' k.
  Proof.
    unfold value_of. induction es as [|e es IH]; intros [|e' es'] H; [easy|discriminate H..|]. cbn [map] in H. injection H as H Hs. cbn [find].
    unfold entry_key in *. rewrite H. destruct (str_eqb k (fst (fst e'))); [|now apply IH]. cbn. unfold entry_value, entry_rest. now rewrite H.
  Qed.
  Lemma fst_reads es es' t t' : map fst es = map fst es' -> is_blank t = is_blank t' ->
    no_line (kv_reads table unknown dup colon build es t) = no_line (kv_reads table unknown dup colon build es' t').
  Proof.
    intros H B. unfold kv_reads. rewrite <- B. destruct (is_blank t); [|easy]. rewrite !no_line_map, (fst_bad es es' 0 0) by easy.
    now rewrite (ext (value_of es) (value_of es')) by (intros k; now apply fst_value).
  Qed.
  Variable rd : str -> res (option A) (line_err E).
  Hypothesis reads : forall es t, entries_ok es = true -> rest_after es t = true -> rd (kv_text es ++ t) = rmap Some (kv_reads table unknown dup colon build es t).
  Lemma rd_drop w P Q : blank_line w = true -> no_line (rd (P ++ 10 :: w ++ 10 :: Q)) = no_line (rd (P ++ 10 :: Q)).
  Proof.
    intros Hw. destruct (@kv_lines_decompose unit (P ++ 10 :: w ++ 10 :: Q)) as (es & t & E0 & He & Ht & _).
    destruct (kv_drop w Q Hw es P t He Ht (eq_sym E0)) as (es' & t' & E' & H1 & H2 & H3 & H4 & _).
    rewrite E0, E', !reads, !no_line_map by easy. f_equal. now apply fst_reads.
  Qed.
  Lemma rd_end w P : blank_line w = true -> no_line (rd (P ++ 10 :: w)) = no_line (rd P).
  Proof.
    intros Hw. destruct (@kv_lines_decompose unit P) as (es & t & E0 & He & Ht & _).
    destruct (kv_end w es t Hw He Ht) as (es' & t' & E' & H1 & H2 & H3 & H4). rewrite <- E0 in E'.
    rewrite E', E0, !reads, !no_line_map by easy. f_equal. now apply fst_reads.
  Qed.
  Lemma text_cons l ls : ls <> [] -> text_of_lines (l :: ls) = l ++ 10 :: text_of_lines ls.
  Proof. now destruct ls. Qed.
  Lemma text_app a b : a <> [] -> b <> [] -> text_of_lines (a ++ b) = text_of_lines a ++ 10 :: text_of_lines b.
  Proof.
    intros Ha Hb. induction a as [|l a IH]; [easy|]. cbn [app]. rewrite text_cons by (destruct a; [easy|discriminate]). destruct a as [|m a]; [easy|].
    rewrite IH by easy. rewrite (text_cons l (m :: a)) by easy. now rewrite <- app_assoc.
  Qed.
  Lemma rd_packed ls : forall a, a <> [] -> no_line (rd (text_of_lines (a ++ ls))) = no_line (rd (text_of_lines (a ++ packed ls))).
  Proof.
    unfold packed. induction ls as [|l ls IH]; intros a Ha; [easy|]. cbn [filter]. destruct (blank_line l) eqn:B; cbn [negb].
    - rewrite <- IH by easy. destruct ls as [|m ls].
      + rewrite text_app, app_nil_r by easy. cbn [text_of_lines]. now apply rd_end.
      + rewrite (text_app a (l :: m :: ls)), (text_cons l), (text_app a (m :: ls)) by easy. now apply rd_drop.
    - specialize (IH (a ++ [l])). rewrite <- !app_assoc in IH. apply IH. now destruct a.
  Qed.
  Lemma rd_lines_packed ls ls' : visible ls = true -> visible ls' = true -> packed ls = packed ls' ->
    no_line (rd (text_of_lines ls)) = no_line (rd (text_of_lines ls')).
  Proof.
    assert (V : forall l, visible l = true -> no_line (rd (text_of_lines l)) = no_line (rd (text_of_lines (packed l)))).
    { intros [|l l'] H; [discriminate|]. destruct l as [|c l]; [discriminate|]. cbn in H. unfold packed. cbn [filter blank_line forallb]. apply negb_true_iff in H. rewrite H. cbn [andb negb].
      exact (rd_packed l' [c :: l] ltac:(easy)). }
    intros H1 H2 H. rewrite (V ls H1), (V ls' H2). now rewrite H.
  Qed.
End Same.
Lemma keys_packed ls ls' v : visible ls = true -> visible ls' = true -> packed ls = packed ls' ->
  no_line (general_from_str (text_of_lines ls) v) = no_line (general_from_str (text_of_lines ls') v)
  /\ no_line (editor_from_str (text_of_lines ls) v) = no_line (editor_from_str (text_of_lines ls') v)
  /\ no_line (metadata_from_str (text_of_lines ls) v) = no_line (metadata_from_str (text_of_lines ls') v)
  /\ no_line (difficulty_from_str (text_of_lines ls) v) = no_line (difficulty_from_str (text_of_lines ls') v).
Proof.
  intros H1 H2 H. repeat split.
  - apply (rd_lines_packed (general_table v) GenKey GenDup GenColonSet (general_of v)) with (rd := fun s => general_from_str s v); try easy.
    + intros g h K. unfold general_of, of_key. now rewrite !K.
    + intros es x He Ht. now apply general_reads_eq.
  - apply (rd_lines_packed editor_table EdKey EdDup EdColonSet editor_of) with (rd := fun s => editor_from_str s v); try easy.
    + intros g h K. unfold editor_of, of_key. now rewrite !K.
    + intros es x He Ht. now apply editor_reads_eq.
  - apply (rd_lines_packed metadata_table MdKey MdDup MdColonSet metadata_of) with (rd := fun s => metadata_from_str s v); try easy.
    + intros g h K. unfold metadata_of, of_key. now rewrite !K.
    + intros es x He Ht. now apply metadata_reads_eq.
  - apply (rd_lines_packed difficulty_table DfKey DfDup DfColonSet difficulty_of) with (rd := fun s => difficulty_from_str s v); try easy.
    + intros g h K. unfold difficulty_of, of_key. now rewrite !K.
    + intros es x He Ht. now apply difficulty_reads_eq.
Qed.

(** ** texts *)
Definition crlf_of (ls : list str) : list str := map (fun l => l ++ [13]) ls ++ [[]].
Lemma crlf_made s : lines (text_of_lines (crlf_of (lines s))) = lines s.
Proof.
  apply made_lines. assert (H : forall ls, forallb no_nl ls = true -> made_of (text_of_lines (crlf_of ls)) ls).
  { induction ls as [|l ls IH]; [intros _; apply mo_nil|]. cbn [forallb]. intros H. apply andb_true_iff in H as [Hl H]. unfold crlf_of. cbn [map app].
    rewrite text_cons by (now destruct ls). rewrite <- app_assoc. cbn [app]. apply mo_crlf; [easy|now apply IH]. }
  apply H. pose proof (lines_made s) as M. induction M; cbn [forallb]; rewrite ?andb_true_iff; auto.
Qed.
Lemma crlf_visible ls : visible ls = true -> visible (crlf_of ls) = true.
Proof. destruct ls as [|[|c l] ls]; easy. Qed.
Lemma crlf_packed ls : packed (crlf_of ls) = map (fun l => l ++ [13]) (packed ls).
Proof.
  unfold packed, crlf_of. induction ls as [|l ls IH]; [easy|]. cbn [map app filter]. rewrite IH. assert (B : blank_line (l ++ [13]) = blank_line l) by (unfold blank_line; rewrite forallb_app; apply andb_true_r). rewrite B.
  now destruct (blank_line l).
Qed.
Lemma keys_same s t v : visible (lines s) = true -> visible (lines t) = true -> packed (lines s) = packed (lines t) ->
  no_line (general_from_str s v) = no_line (general_from_str t v)
  /\ no_line (editor_from_str s v) = no_line (editor_from_str t v)
  /\ no_line (metadata_from_str s v) = no_line (metadata_from_str t v)
  /\ no_line (difficulty_from_str s v) = no_line (difficulty_from_str t v).
Proof.
  intros H1 H2 H.
  destruct (ends_sections true _ _ v (crlf_made s)) as (A1 & A2 & A3 & A4 & _).
  destruct (ends_sections true _ _ v (crlf_made t)) as (B1 & B2 & B3 & B4 & _).
  rewrite <- A1, <- A2, <- A3, <- A4, <- B1, <- B2, <- B3, <- B4.
  apply keys_packed; [now apply crlf_visible..|]. rewrite !crlf_packed. now rewrite H.
Qed.

(** ** files *)
Lemma sec_visible x : sec_ok x = true -> visible (lines (sec_body x)) = true /\ lines_count (sec_body x) <> 0%Z.
Proof.
  unfold sec_ok, sec_body. rewrite !andb_true_iff. intros [[_ H] _]. destruct (sec_lines x) as [|[|c l] ls]; try discriminate.
  assert (E : exists q, text_of_lines ((c :: l) :: ls) = c :: q) by (destruct ls; cbn; eauto). destruct E as (q & ->).
  pose proof (lines_made (c :: q)) as M. unfold lines_count. destruct (lines (c :: q)) as [|d ds] eqn:E.
  { inversion M. }
  split; [|discriminate]. apply made_cons in M as (e & s' & Es & M' & Hd & Tl). destruct d as [|b d]; [|cbn in Es; injection Es as -> _; exact H].
  exfalso. cbn in Es. destruct Tl as [(_ & _ & _ & T)|[(-> & _)| ->]]; [easy|cbn in Es; injection Es as -> _; discriminate H..].
Qed.
Lemma no_line_pl {A E F} (wrap : E -> F) (r : res A (line_err E)) i : no_line (processing_line wrap r i) = match no_line r with ROk a => ROk a | RErr e => RErr (wrap e) | RPanic p => RPanic p end.
Proof. destruct r as [a|[j e]|p]; reflexivity. Qed.
Definition no_line_o {A E} (r : option (res A (line_err E))) : option (res A E) := option_map no_line r.
Lemma section_packed dbg acc name b b' i j : visible (lines b) = true -> visible (lines b') = true -> packed (lines b) = packed (lines b') ->
  no_line_o (osu_section dbg acc name b i) = no_line_o (osu_section dbg acc name b' j).
Proof.
  intros H1 H2 H. destruct acc as [v g e o m d ev tp c h].
  destruct (keys_same b b' v H1 H2 H) as (K1 & K2 & K3 & K4). destruct (lists_packed dbg [] b b' v H) as (L1 & L2 & L3 & L4 & _).
  unfold osu_section, events_from_str. repeat (destruct (str_eqb name _); [cbn [no_line_o option_map]; rewrite !no_line_map, !no_line_pl; (rewrite K1 || rewrite K2 || rewrite K3 || rewrite K4 || rewrite L1 || rewrite L2 || rewrite L3 || rewrite L4); reflexivity|]). easy.
Qed.
Lemma loop_same dbg secs secs' : Forall2 same_sec secs secs' -> forall i j parsed acc w w', forallb sec_ok secs = true -> forallb sec_ok secs' = true ->
  no_line (osu_loop dbg i parsed acc (quads w secs)) = no_line (osu_loop dbg j parsed acc (quads w' secs')).
Proof.
  induction 1 as [|x y l l' [Hn Hp] _ IH]; intros i j parsed acc w w' H1 H2; [easy|]. cbn [forallb] in H1, H2. apply andb_true_iff in H1 as [X1 H1], H2 as [X2 H2].
  destruct (sec_visible x X1) as [V1 C1], (sec_visible y X2) as [V2 C2].
  cbn [quads osu_loop]. rewrite <- Hn. destruct (mem_str (sec_name x) parsed); [easy|].
  pose proof (section_packed dbg acc (sec_name x) (sec_body x) (sec_body y) (i + lines_count w + lines_count (repeat 10%N (S (sec_gap x))))%Z (j + lines_count w' + lines_count (repeat 10%N (S (sec_gap y))))%Z V1 V2 Hp) as S.
  destruct (osu_section dbg acc (sec_name x) (sec_body x) _) as [r|], (osu_section dbg acc (sec_name x) (sec_body y) _) as [r'|]; try discriminate S; [|easy].
  cbn in S. injection S as S. destruct r as [f|[k e]|p], r' as [f'|[k' e']|p']; try discriminate S; cbn in S; injection S as S; subst; try easy.
  cbn [rbind]. unfold usize_pred. rewrite (proj2 (Z.eqb_neq _ _) C1), (proj2 (Z.eqb_neq _ _) C2). cbn [rbind]. now apply IH.
Qed.
Lemma file_packed dbg s s' ws ws' v pre pre' secs secs' tail tail' :
  file_layout s ws v pre secs tail -> ended tail = true -> file_layout s' ws' v pre' secs' tail' -> ended tail' = true ->
  Forall2 same_sec secs secs' -> no_line (osu_from_str dbg s) = no_line (osu_from_str dbg s').
Proof.
  intros H1 E1 H2 E2 H. rewrite (read_ended _ _ _ _ _ _ _ H1 E1), (read_ended _ _ _ _ _ _ _ H2 E2).
  apply loop_same; [easy|eapply layout_secs; eassumption..].
Qed.
Lemma osb_loop_same dbg secs secs' : Forall2 same_sec secs secs' -> forall i j parsed acc w w',
  no_line (osb_loop dbg 14%Z i parsed acc (quads w secs)) = no_line (osb_loop dbg 14%Z j parsed acc (quads w' secs')).
Proof.
  induction 1 as [|x y l l' [Hn Hp] _ IH]; intros i j parsed acc w w'; [easy|]. cbn [quads osb_loop]. rewrite <- Hn. destruct (mem_str (sec_name x) parsed); [easy|].
  destruct (lists_packed dbg (match osb_variables acc with Some vs => vs | None => [] end) (sec_body x) (sec_body y) 14%Z Hp) as (_ & _ & _ & L4 & L5).
  destruct (str_eqb (sec_name x) (lit "Variables")).
  { destruct (variables_from_str (sec_body x)) as [a|[k e]|p], (variables_from_str (sec_body y)) as [b|[k' e']|p']; try discriminate L5; cbn in L5; injection L5 as L5; subst; try easy. cbn [processing_line rmap rbind]. apply IH. }
  destruct (str_eqb (sec_name x) (lit "Events")); [|easy].
  destruct (events_from_str_vars dbg _ (sec_body x) _) as [a|[k e]|p], (events_from_str_vars dbg _ (sec_body y) _) as [b|[k' e']|p']; try discriminate L4; cbn in L4; injection L4 as L4; subst; try easy. cbn [processing_line rmap rbind]. apply IH.
Qed.
Lemma osb_packed dbg s s' pre pre' secs secs' tail tail' :
  osb_layout s pre secs tail -> ended tail = true -> osb_layout s' pre' secs' tail' -> ended tail' = true ->
  Forall2 same_sec secs secs' -> no_line (osb_from_str dbg s 14%Z) = no_line (osb_from_str dbg s' 14%Z).
Proof.
  intros H1 E1 H2 E2 H. rewrite (osb_read_loop _ _ _ _ _ H1 E1), (osb_read_loop _ _ _ _ _ H2 E2), !no_line_map. f_equal. now apply osb_loop_same.
Qed.
