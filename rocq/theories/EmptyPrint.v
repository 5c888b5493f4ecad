(** Printed files with sections that have no lines (C34). *)
From Coq Require Import String List NArith ZArith Bool Lia.
From Verif Require Import Str Num Nom Dec Parsers KeyValue General Editor Metadata Difficulty Colours
  TimingPoints HitObjects Storyboard NormalEvents Events Osb OsuFile Spec SpecWf SpecText SpecKv SpecSections
  SpecFile SpecTypes SpecCmd SpecEvents SpecWhole SpecTotal StrFacts NumFacts NomFacts LineFacts TpFacts LayoutFacts KvStatements
  FileFacts FileLoop FileTheorems FileEmpty EvLoop WholeFacts TotalFacts.
Import ListNotations.
Local Open Scope N_scope.

(** ** a file and its sections without lines *)
Lemma opt_all_and {A} (p q : A -> bool) o : opt_all (fun a => p a && q a) o = opt_all p o && opt_all q o.
Proof. now destruct o. Qed.
Lemma hollow_name_nil {A B} name (ls : A -> list B) o : hollow_name name ls o = [] <-> opt_all (fun a => negb (is_empty (ls a))) o = true.
Proof. destruct o as [a|]; cbn; [|easy]. now destruct (is_empty (ls a)). Qed.
Lemma starts_split ds : starts_ok ds = negb (is_empty ds) && starts_fine ds.
Proof. now destruct ds. Qed.
Lemma is_empty_map {A B} (f : A -> B) l : is_empty (map f l) = is_empty l.
Proof. now destruct l. Qed.
Lemma fine_ok f : file_fine f = true -> (hollow f = [] <-> file_ok f = true).
Proof.
  destruct f as [v g e o m d ev tp c h]. unfold file_fine, hollow, file_ok.
  cbn [osu_version osu_general osu_editor osu_metadata osu_difficulty osu_events osu_timing_points osu_colours osu_hitobjects].
  rewrite !andb_true_iff. intros [[[[[[[[[Hv1 Hv2] Hg] He] Hm] Hd] Hev] Htp] Hc] Hh].
  assert (N : forall a b : list str, a ++ b = [] <-> a = [] /\ b = []) by (intros a b; split; [apply app_eq_nil|intros [-> ->]; reflexivity]).
  rewrite !N, !hollow_name_nil. clear N.
  destruct g as [g|], e as [e|], m as [m|], d as [d|], ev as [ev|], tp as [tp|], c as [c|], h as [h|]; cbn [opt_all] in *;
  rewrite ?starts_split, ?is_empty_map, ?andb_true_iff in *; tauto.
Qed.

(** ** the text *)
Definition head_of (n : str) : str := 91 :: n ++ [93].
Fixpoint ptext (l : list (str * list str)) : str :=
  match l with
  | [] => []
  | [(n, ls)] => head_of n ++ match ls with [] => [] | _ => 10 :: text_of_lines ls end
  | (n, ls) :: l' => head_of n ++ 10 :: text_of_lines ls ++ [10; 10] ++ ptext l'
  end.
Fixpoint plines (l : list (str * list str)) : list str :=
  match l with
  | [] => []
  | [(n, ls)] => head_of n :: ls
  | (n, ls) :: l' => head_of n :: (match ls with [] => [[]] | _ => ls end) ++ [] :: plines l'
  end.
Fixpoint hollow_last (l : list (str * list str)) : bool :=
  match l with [] => false | [(_, ls)] => is_empty ls | _ :: l' => hollow_last l' end.
Lemma ptext_cons p q l : ptext (p :: q :: l) = head_of (fst p) ++ 10 :: text_of_lines (snd p) ++ [10; 10] ++ ptext (q :: l).
Proof. now destruct p. Qed.
Lemma plines_cons p q l : plines (p :: q :: l) = head_of (fst p) :: (match snd p with [] => [[]] | ls => ls end) ++ [] :: plines (q :: l).
Proof. destruct p as [n [|x ls]]; reflexivity. Qed.
Lemma part_text_eq p : part_text p = head_of (fst p) ++ 10 :: text_of_lines (snd p).
Proof. unfold part_text, head_of. change (lit "[") with [91]. change (lit "]") with [93]. cbn [app]. rewrite <- ?app_assoc. reflexivity. Qed.
Lemma printed_ptext l : join [10; 10] (map part_text l) = ptext l ++ (if hollow_last l then [10] else []).
Proof.
  induction l as [|p l IH]; [easy|]. destruct l as [|q l].
  - destruct p as [n ls]. cbn [map join ptext hollow_last]. rewrite part_text_eq. cbn [fst snd]. destruct ls as [|x ls]; cbn [is_empty text_of_lines].
    + now rewrite app_nil_r.
    + now rewrite app_nil_r.
  - cbn [map]. rewrite join_cons2. change (part_text q :: map part_text l) with (map part_text (q :: l)). rewrite IH, ptext_cons, part_text_eq.
    replace (hollow_last (p :: q :: l)) with (hollow_last (q :: l)) by now destruct p. rewrite <- ?app_assoc. cbn [app]. rewrite <- ?app_assoc. reflexivity.
Qed.
Lemma ptext_plines l : text_of_lines (plines l) = ptext l.
Proof.
  induction l as [|p l IH]; [easy|]. destruct l as [|q l].
  - destruct p as [n ls]. cbn [plines ptext]. destruct ls; [cbn [text_of_lines]; now rewrite app_nil_r|]. now rewrite text_cons.
  - rewrite plines_cons, ptext_cons. rewrite text_cons by (destruct p as [n [|]]; easy).
    assert (K : plines (q :: l) <> []) by (destruct q, l; easy).
    rewrite text_app by (easy || destruct p as [n [|]]; easy). rewrite (text_cons []) by easy. rewrite IH. cbn [app]. f_equal. f_equal.
    destruct p as [n [|x ls]]; reflexivity.
Qed.
Definition fine_body (ls : list str) : bool := is_empty ls || body_ok ls.
Lemma plines_plain l : Forall (fun p => fine_body (snd p) = true) l -> forallb name_ok (map fst l) = true -> forallb plain_line (plines l) = true.
Proof.
  assert (HH : forall n, name_ok n = true -> plain_line (head_of n) = true).
  { intros n Hn. unfold plain_line, head_of. change (91 :: n ++ [93]) with ((91 :: n) ++ [93]). rewrite ends_with_char_snoc, andb_true_r. unfold no_nl. rewrite forallb_app. cbn [forallb]. rewrite andb_true_r.
    cbn [andb negb]. eapply forallb_impl; [|exact Hn]. intros c Hc. cbn in Hc. now apply andb_true_iff in Hc. }
  assert (HB : forall ls, fine_body ls = true -> forallb plain_line ls = true).
  { intros [|l0 ls] H; [easy|]. unfold fine_body in H. cbn [is_empty orb] in H. unfold body_ok in H. apply andb_true_iff in H as [_ H]. eapply forallb_impl; [|exact H].
    intros x Hx. now rewrite !andb_true_iff in Hx. }
  induction 1 as [|[n ls] l Hp H IH]; intros Hn; [easy|]. cbn [map forallb fst snd] in *. apply andb_true_iff in Hn as [Hn1 Hn]. destruct l as [|q l].
  - cbn [plines forallb]. now rewrite HH, HB.
  - rewrite plines_cons. cbn [fst snd forallb]. rewrite HH by easy. cbn [andb]. rewrite forallb_app. cbn [forallb]. rewrite IH by easy. rewrite andb_true_r.
    specialize (HB ls Hp). now destruct ls.
Qed.
Lemma plines_last l : Forall (fun p => fine_body (snd p) = true) l -> l <> [] -> last (plines l) [0] <> [].
Proof.
  induction 1 as [|[n ls] l Hp H IH]; [easy|]. intros _. cbn [snd] in *. destruct l as [|q l].
  - cbn [plines]. destruct ls as [|x ls]; [easy|]. unfold fine_body in Hp. cbn [is_empty orb] in Hp. unfold body_ok in Hp. apply andb_true_iff in Hp as [_ Hp].
    rewrite forallb_forall in Hp. change (head_of n :: x :: ls) with ([head_of n] ++ x :: ls). rewrite last_flat by easy.
    destruct (exists_last (l := x :: ls) ltac:(easy)) as (b & y & E). rewrite E in *. rewrite last_last. specialize (Hp y ltac:(apply in_elt)).
    rewrite !andb_true_iff in Hp. destruct Hp as [_ Hp]. now apply is_empty_neq.
  - rewrite plines_cons. cbn [fst snd].
    assert (K : plines (q :: l) <> []) by (destruct q, l; easy). specialize (IH ltac:(easy)).
    match goal with |- last (?h :: ?m ++ _ :: ?k) _ <> _ => change (last ((h :: m) ++ [[]] ++ k) [0] <> []) end.
    rewrite last_flat by easy. now rewrite last_flat.
Qed.
Lemma printed_lines l : Forall (fun p => fine_body (snd p) = true) l -> forallb name_ok (map fst l) = true -> l <> [] ->
  lines (join [10; 10] (map part_text l)) = plines l /\ join [10] (plines l) = ptext l.
Proof.
  intros H Hn Hl. pose proof (plines_plain l H Hn) as Hp. split; [|now rewrite <- text_of_lines_join, ptext_plines].
  rewrite printed_ptext, <- ptext_plines. destruct (hollow_last l).
  - apply lines_text_nl; [easy|]. destruct l as [|[? ?] [|[? ?] ?]]; easy.
  - rewrite app_nil_r, text_of_lines_join. apply lines_join; [easy|]. intros x <-.
    assert (E : last (plines l) [1] = last (plines l) [0]) by (destruct (exists_last (l := plines l)) as (b & y & ->); [destruct l as [|[? ?] [|[? ?] ?]]; easy|now rewrite !last_last]).
    rewrite E. now apply plines_last.
Qed.

(** ** its sections *)
Definition part_chunk (last : bool) (p : str * list str) : chunk :=
  mk_chunk (fst p) (if last && is_empty (snd p) then [] else [10]) (text_of_lines (snd p) ++ if last then [] else [10]).
Fixpoint part_chunks (l : list (str * list str)) : list chunk :=
  match l with [] => [] | [p] => [part_chunk true p] | p :: l' => part_chunk false p :: part_chunks l' end.
Lemma name_char_ok n : name_ok n = forallb name_char n.
Proof. reflexivity. Qed.
Lemma body_chunk n ls b : name_ok n = true -> body_ok ls = true -> chunk_ok (part_chunk b (n, ls)) = true.
Proof.
  intros Hn Hb. pose proof Hb as Hb'. unfold body_ok in Hb'. apply andb_true_iff in Hb' as [H1 H2]. unfold chunk_ok, part_chunk. cbn [fst snd ch_name ch_space ch_body]. rewrite name_char_ok in Hn. rewrite Hn.
  destruct ls as [|[|c t] ls]; [easy|easy|]. cbn [is_empty]. rewrite andb_false_r. cbn [forallb layout_char andb orb N.eqb Pos.eqb].
  assert (E : text_of_lines ((c :: t) :: ls) ++ (if b then [] else [10]) = join [10] (((c :: t) :: ls) ++ if b then [] else [[]])).
  { rewrite <- text_of_lines_join. destruct b; [now rewrite !app_nil_r|]. now rewrite text_snoc. }
  apply andb_true_iff. split.
  - destruct ls; cbn [text_of_lines app]; exact H1.
  - apply negb_true_iff. unfold contains. rewrite E, find_header_none; [easy| |].
    + cbn [app tl]. rewrite forallb_app. apply andb_true_iff. split; [|now destruct b]. cbn [forallb] in H2. apply andb_true_iff in H2 as [_ H2].
      eapply forallb_impl; [|exact H2]. intros x. unfold plain_line. rewrite !andb_true_iff. intros [[[A _] B] _]. split; [exact A|exact B].
    + rewrite forallb_app. apply andb_true_iff. split; [|now destruct b]. eapply forallb_impl; [|exact H2]. intros x. unfold plain_line. rewrite !andb_true_iff. intros [[[A _] _] _]. exact A.
Qed.
Lemma fa_space w t cs : forallb layout_char w = true -> falls_apart t cs -> cs <> [] -> falls_apart (w ++ t) cs.
Proof.
  intros Hw H Hn. destruct H as [|w' x more cs Hw' Hx Hm H]; [easy|]. rewrite app_assoc. constructor; try easy. now rewrite forallb_app, Hw, Hw'.
Qed.
Lemma part_chunk_text m ls T : chunk_text (part_chunk false (m, ls)) ++ [10] ++ T = (head_of m ++ 10 :: text_of_lines ls ++ [10; 10]) ++ T.
Proof.
  unfold chunk_text, part_chunk, head_of. cbn [fst snd ch_name ch_space ch_body andb]. change (lit "[") with [91]. change (lit "]") with [93].
  rewrite <- ?app_assoc. cbn [app]. rewrite <- ?app_assoc. cbn [app]. rewrite <- ?app_assoc. reflexivity.
Qed.
(** the sections with lines in front *)
Lemma fa_front a : forall n r cs, Forall (fun p => body_ok (snd p) = true) a -> forallb name_ok (map fst a) = true ->
  falls_apart (head_of n ++ r) cs -> cs <> [] ->
  falls_apart (concat (map (fun p => head_of (fst p) ++ 10 :: text_of_lines (snd p) ++ [10; 10]) a) ++ head_of n ++ r) (map (part_chunk false) a ++ cs).
Proof.
  induction a as [|[m ls] a IH]; intros n r cs Hb Hn Hf Hc; [exact Hf|]. inversion Hb as [|? ? B1 B2]; subst. cbn [map forallb fst snd concat] in *. apply andb_true_iff in Hn as [Hn1 Hn].
  specialize (IH n r cs B2 Hn Hf Hc). pose proof (body_nonempty _ B1) as Hls.
  set (T := concat (map (fun p => head_of (fst p) ++ 10 :: text_of_lines (snd p) ++ [10; 10]) a) ++ head_of n ++ r) in *.
  assert (HT : exists u, T = 91 :: u) by (unfold T; destruct a as [|[? ?] ?]; eexists; reflexivity).
  replace (_ ++ _) with ([] ++ chunk_text (part_chunk false (m, ls)) ++ [10] ++ T).
  - cbn [map app]. apply (fa_section [] (part_chunk false (m, ls)) ([10] ++ T)); [easy|now apply body_chunk| |apply fa_space; [easy|easy|destruct a; easy]].
    right. split; [unfold part_chunk; cbn [ch_body snd]; destruct ls as [|[|? ?] [|? ?]]; easy|]. destruct HT as [u ->]. now exists u.
  - rewrite app_nil_l, part_chunk_text. unfold T. now rewrite <- !app_assoc.
Qed.
Lemma ptext_split a p b : ptext (a ++ p :: b) = concat (map (fun p => head_of (fst p) ++ 10 :: text_of_lines (snd p) ++ [10; 10]) a) ++ ptext (p :: b).
Proof.
  induction a as [|q a IH]; [easy|]. cbn [app map concat]. destruct (a ++ p :: b) as [|r l] eqn:E; [now destruct a|]. rewrite ptext_cons, IH.
  rewrite <- ?app_assoc. cbn [app]. rewrite <- ?app_assoc. reflexivity.
Qed.
Lemma ptext_head p b : exists r, ptext (p :: b) = head_of (fst p) ++ r.
Proof. destruct p as [n ls], b as [|q b]; eexists; reflexivity. Qed.
(** only the last section may have no lines *)
Lemma part_chunks_snoc a p : part_chunks (a ++ [p]) = map (part_chunk false) a ++ [part_chunk true p].
Proof. induction a as [|q a IH]; [easy|]. cbn [app map]. rewrite <- IH. now destruct a. Qed.
Lemma fa_printed l : Forall (fun p => body_ok (snd p) = true) (removelast l) -> Forall (fun p => fine_body (snd p) = true) l ->
  forallb name_ok (map fst l) = true -> l <> [] -> falls_apart (ptext l) (part_chunks l).
Proof.
  intros Ha Hf Hn Hl. destruct (exists_last Hl) as (a & [n ls] & ->). rewrite removelast_last in Ha. rewrite map_app, forallb_app in Hn. apply andb_true_iff in Hn as [Hn Hp]. cbn in Hp. rewrite andb_true_r in Hp.
  apply Forall_app in Hf as [_ Hf]. inversion Hf as [|? ? Hf1 _]; subst. cbn [snd] in Hf1. rewrite ptext_split, part_chunks_snoc.
  assert (K : falls_apart (ptext [(n, ls)]) [part_chunk true (n, ls)]).
  { replace (ptext [(n, ls)]) with ([] ++ chunk_text (part_chunk true (n, ls)) ++ []).
    - apply fa_section; [easy| |now left|constructor; intros [|? ?] ? ? _ _; easy].
      unfold fine_body in Hf1. destruct ls as [|x ls]; [|now apply body_chunk]. unfold chunk_ok, part_chunk. cbn [fst snd ch_name ch_space ch_body is_empty andb text_of_lines app forallb]. rewrite name_char_ok in Hp. now rewrite Hp.
    - unfold chunk_text, part_chunk, head_of. cbn [fst snd ch_name ch_space ch_body andb ptext]. change (lit "[") with [91]. change (lit "]") with [93]. unfold head_of.
      cbn [app]. rewrite <- ?app_assoc. destruct ls; cbn [is_empty app text_of_lines]; rewrite ?app_nil_r; reflexivity. }
  destruct (ptext_head (n, ls) []) as [r Er]. rewrite Er in *. now apply fa_front.
Qed.
(** a section without lines in front of another one takes the header of that one *)
Lemma no_nl_app h X b more : forallb (fun c => negb (c =? 10)) h = true -> b ++ more = h ++ X -> (more = [] \/ exists t, more = [10; 91] ++ t) ->
  exists b1, b = h ++ b1 /\ X = b1 ++ more.
Proof.
  revert b. induction h as [|c h IH]; intros b H E Hm; [exists b; now split|]. cbn [forallb] in H. apply andb_true_iff in H as [Hc H]. apply negb_true_iff, N.eqb_neq in Hc.
  destruct b as [|c' b].
  - cbn [app] in E. destruct Hm as [-> |[t ->]]; [easy|]. cbn [app] in E. congruence.
  - cbn [app] in E. injection E as -> E. destruct (IH b H E Hm) as (b1 & -> & ->). now exists b1.
Qed.
Lemma head_app y X : head_of y ++ X = 91 :: y ++ 93 :: X.
Proof. unfold head_of. cbn [app]. now rewrite <- app_assoc. Qed.
Lemma swallow name y X cs : forallb name_char name = true -> forallb name_char y = true ->
  falls_apart (head_of name ++ [10; 10; 10] ++ head_of y ++ X) cs ->
  exists x cs' b1 more, cs = x :: cs' /\ ch_name x = name /\ ch_body x = head_of y ++ b1 /\ X = b1 ++ more.
Proof.
  intros Hn Hy H. inversion H as [t Hno|w x more cs' Hw Hx Hm Hf E]; subst.
  - exfalso. apply (Hno [] name ([10; 10; 10] ++ head_of y ++ X)); [easy|easy|]. unfold head_of. change (lit "[") with [91]. change (lit "]") with [93]. cbn [app]. now rewrite <- app_assoc.
  - destruct x as [n sp b]. unfold chunk_ok in Hx. cbn [ch_name ch_space ch_body] in *. rewrite !andb_true_iff in Hx. destruct Hx as [[[X1 X2] X3] X4].
    unfold chunk_text in E. cbn [ch_name ch_space ch_body] in E. change (lit "[") with [91] in E. change (lit "]") with [93] in E. rewrite <- !app_assoc in E. cbn [app] in E.
    assert (Hw0 : w = []).
    { destruct w as [|c w]; [easy|]. cbn [app] in E. injection E as -> _. easy. }
    subst w. rewrite <- (head_app y X), <- (app_assoc sp b more) in E. cbn [app] in E. injection E as E.
    pose proof (span_app name_char n (93 :: sp ++ b ++ more) X1 eq_refl) as K1.
    pose proof (span_app name_char name (93 :: 10 :: 10 :: 10 :: head_of y ++ X) Hn eq_refl) as K2.
    rewrite E in K1. assert (K : (n, 93 :: sp ++ b ++ more) = (name, 93 :: 10 :: 10 :: 10 :: head_of y ++ X)) by exact (eq_trans (eq_sym K1) K2). assert (K0 : n = name) by congruence. assert (K3 : sp ++ b ++ more = 10 :: 10 :: 10 :: head_of y ++ X) by congruence. clear K. rename K3 into K. subst n.
    assert (Hb : match b ++ more with c :: _ => layout_char c = false | [] => True end).
    { destruct b as [|c b]; [|cbn [app]; now apply negb_true_iff in X3]. destruct Hm as [-> |[Hm _]]; easy. }
    pose proof (span_app layout_char sp (b ++ more) X2) as L1. pose proof (span_app layout_char [10; 10; 10] (head_of y ++ X) eq_refl eq_refl) as L2.
    cbn [app] in L2. rewrite <- K in L2.
    assert (L3 : span layout_char (sp ++ b ++ more) = (sp, b ++ more)) by (apply L1; destruct (b ++ more); [easy|cbn [span]; now rewrite Hb]).
    assert (K' : (sp, b ++ more) = ([10; 10; 10], head_of y ++ X)) by congruence. assert (K5 : sp = [10; 10; 10]) by congruence. assert (K6 : b ++ more = head_of y ++ X) by congruence. clear K'. rename K6 into K'. subst sp.
    destruct (no_nl_app (head_of y) X b more) as (b1 & Hb1 & HX); [|easy|destruct Hm as [|[_ Hm]]; auto|].
    + unfold head_of. cbn [forallb]. rewrite forallb_app. cbn [forallb andb]. rewrite andb_true_r. eapply forallb_impl; [|exact Hy]. intros c Hc. unfold name_char in Hc. now apply andb_true_iff in Hc.
    + exists (mk_chunk name [10; 10; 10] b), cs', b1, more. cbn. auto.
Qed.

(** ** the parts of a file *)
Definition hollow_of (l : list (str * list str)) : list str := map fst (filter (fun p => is_empty (snd p)) l).
Lemma hollow_of_app a b : hollow_of (a ++ b) = hollow_of a ++ hollow_of b.
Proof. unfold hollow_of. now rewrite filter_app, map_app. Qed.
Definition shown0 {T E} (name : string) (from : str -> res (option T) E) (p : list (str * list str)) (o : option T) (content : option str) : Prop :=
  (p = [] /\ o = None /\ content = None)
  \/ exists ls x, p = [(lit name, ls)] /\ o = Some x /\ content = Some (text_of_lines ls) /\ (part from ls x \/ ls = [] /\ from [] = ROk (Some x)).
Lemma shown0_out {T E} name (from : str -> res (option T) E) p o content : shown0 name from p o content ->
  out_section name content = map part_text p.
Proof. intros [(-> & _ & ->)|(ls & x & -> & _ & -> & _)]; reflexivity. Qed.
Lemma shown0_body {T E} name (from : str -> res (option T) E) p o content : shown0 name from p o content ->
  Forall (fun q => fine_body (snd q) = true) p.
Proof.
  intros [(-> & _)|(ls & x & -> & _ & _ & H)]; repeat constructor. cbn [snd]. unfold fine_body. destruct H as [[H _]|[-> _]]; [|easy]. rewrite H. now destruct ls.
Qed.
Lemma shown0_names {T E} name (from : str -> res (option T) E) p o content : shown0 name from p o content -> map fst p = present name o.
Proof. intros [(-> & -> & _)|(ls & x & -> & -> & _)]; reflexivity. Qed.
Lemma part_chunks_in l c : In c (part_chunks l) -> exists p b, In p l /\ c = part_chunk b p /\ (b = true \/ In p (removelast l)).
Proof.
  destruct l as [|q l]; [easy|]. destruct (exists_last (l := q :: l) ltac:(easy)) as (a & p & ->). rewrite part_chunks_snoc, removelast_last. intros H. apply in_app_or in H as [H|[<- |[]]].
  - apply in_map_iff in H as (p' & <- & H). exists p', false. split; [apply in_or_app; now left|auto].
  - exists p, true. split; [apply in_or_app; right; now left|auto].
Qed.
Lemma part_chunks_names l : map ch_name (part_chunks l) = map fst l.
Proof.
  destruct l as [|q l]; [easy|]. destruct (exists_last (l := q :: l) ltac:(easy)) as (a & p & ->). rewrite part_chunks_snoc, !map_app, map_map. reflexivity.
Qed.
Lemma sec_body_chunk x : sec_body (ch_sec x) = ch_body x.
Proof. reflexivity. Qed.
Lemma shown0_holds {T E} name (from : str -> res (option T) E) p o content l : shown0 name from p o content ->
  Forall (fun p => body_ok (snd p) = true) (removelast l) ->
  (forall ls, In (lit name, ls) l -> In (lit name, ls) p) -> (forall q, In q p -> In q l) -> holds (map ch_sec (part_chunks l)) name from None o.
Proof.
  intros H Hb H1 H2. split.
  - intros x Hx Hn. apply in_map_iff in Hx as (ch & <- & Hx). destruct (part_chunks_in l ch Hx) as ([n ls] & b & Hi & -> & Hl).
    cbn in Hn. subst n. rewrite sec_body_chunk. unfold part_chunk. cbn [ch_body snd]. pose proof (H1 _ Hi) as Hi'.
    destruct H as [(-> & _)|(ls' & y & -> & -> & _ & H)]; [easy|]. destruct Hi' as [Hi'|[]]. injection Hi' as ->.
    destruct b; [|destruct Hl as [Hl|Hl]; [easy|]; rewrite Forall_forall in Hb; specialize (Hb _ Hl); cbn [snd] in Hb; destruct H as [(_ & _ & H)|[-> _]]; easy].
    rewrite app_nil_r. destruct H as [(_ & H & _)|[-> H]]; easy.
  - intros Hno. destruct H as [(_ & -> & _)|(ls' & y & -> & -> & _)]; [easy|]. exfalso. specialize (H2 _ (or_introl eq_refl)).
    assert (K : In (lit name) (map ch_name (part_chunks l))) by (rewrite part_chunks_names; apply (in_map fst) in H2; exact H2).
    apply in_map_iff in K as (x & Hx & K). exact (Hno (ch_sec x) (in_map ch_sec _ _ K) Hx).
Qed.
Lemma option_part0 {A B T E} name (from : str -> res (option T) E) (ok : A -> bool) (lsf : A -> list B) (print : A -> option str) (keep : A -> T) o :
  (forall a, ok a = true -> exists ls, print a = Some (text_of_lines ls)
     /\ (part from ls (keep a) /\ is_empty (lsf a) = false \/ (ls = [] /\ from [] = ROk (Some (keep a))) /\ is_empty (lsf a) = true)) ->
  opt_all ok o = true -> exists p, shown0 name from p (option_map keep o) (obind o print) /\ hollow_of p = hollow_name name lsf o.
Proof.
  intros H Ho. destruct o as [a|]; [|exists []; split; [now left|easy]]. destruct (H a Ho) as (ls & H1 & H2). exists [(lit name, ls)]. split.
  - right. exists ls, (keep a). cbn. destruct H2 as [[H2 _]|[H2 _]]; auto.
  - unfold hollow_of, hollow_name. cbn [filter snd]. destruct H2 as [[[H2 _] ->]|[[-> _] ->]]; [|easy]. now destruct ls.
Qed.
Lemma option_run0 {A B T E} name (from : str -> res (option T) E) (ok : A -> bool) (lsf : A -> list B) (print : A -> run (option str)) (keep : A -> T) o :
  (forall a, ok a = true -> exists ls, print a = ROk (Some (text_of_lines ls))
     /\ (part from ls (keep a) /\ is_empty (lsf a) = false \/ (ls = [] /\ from [] = ROk (Some (keep a))) /\ is_empty (lsf a) = true)) ->
  opt_all ok o = true -> exists p content, run_opt o print = ROk content /\ shown0 name from p (option_map keep o) content /\ hollow_of p = hollow_name name lsf o.
Proof.
  intros H Ho. destruct o as [a|]; [|exists [], None; split; [easy|split; [now left|easy]]]. destruct (H a Ho) as (ls & H1 & H2). exists [(lit name, ls)], (Some (text_of_lines ls)). split; [easy|]. split.
  - right. exists ls, (keep a). cbn. destruct H2 as [[H2 _]|[H2 _]]; auto.
  - unfold hollow_of, hollow_name. cbn [filter snd]. destruct H2 as [[[H2 _] ->]|[[-> _] ->]]; [|easy]. now destruct ls.
Qed.

(** ** printed files *)
Lemma header_alone dbg v name y f : In name section_names -> In y section_names -> (5 <= v <= 14)%Z ->
  osu_section dbg (osu_new v) name (head_of y) 0 <> Some (ROk f).
Proof.
  intros Hn Hy Hv. assert (K : In v [5; 6; 7; 8; 9; 10; 11; 12; 13; 14]%Z) by (cbn [In]; lia). clear Hv.
  assert (Q : forallb (fun dbg => forallb (fun name => forallb (fun y => forallb (fun v =>
    match osu_section dbg (osu_new v) name (head_of y) 0 with Some (ROk _) => false | _ => true end)
    [5; 6; 7; 8; 9; 10; 11; 12; 13; 14]%Z) section_names) section_names) [true; false] = true) by (vm_compute; reflexivity).
  rewrite forallb_forall in Q. specialize (Q dbg ltac:(destruct dbg; cbn; auto)). rewrite forallb_forall in Q. specialize (Q name Hn).
  rewrite forallb_forall in Q. specialize (Q y Hy). rewrite forallb_forall in Q. specialize (Q v K). intros E. now rewrite E in Q.
Qed.
Lemma section_of_describes dbg v secs f x : describes dbg v secs (osu_new v) f -> In x secs -> known x ->
  exists g, osu_section dbg (osu_new v) (sec_name x) (sec_body x) 0 = Some (ROk g).
Proof.
  intros (_ & _ & H1 & H2 & H3 & H4 & H5 & H6 & H7 & H8) Hi Hk. apply known_cases in Hk. unfold osu_new, osu_section.
  destruct Hk as [H|[H|[H|[H|[H|[H|[H|H]]]]]]];
  match type of H with sec_name _ = lit ?n => match goal with K : holds _ n _ _ _ |- _ => destruct K as [K _]; specialize (K x Hi H) end end;
  rewrite H;
  repeat match goal with
  | |- context [str_eqb (lit ?a) (lit ?b)] =>
      let t := eval vm_compute in (str_eqb (lit a) (lit b)) in
      change (str_eqb (lit a) (lit b)) with t
  end; cbn beta iota; match goal with K : _ = ROk _ |- _ => rewrite K end; eexists; reflexivity.
Qed.
Lemma chunk_refused dbg v name y b1 f cs x : In name section_names -> In y section_names -> (5 <= v <= 14)%Z ->
  In x cs -> ch_name x = name -> ch_body x = head_of y ++ b1 -> (b1 = [] \/ exists t, b1 = 10 :: t) ->
  all_read dbg v (map ch_sec cs) (osu_new v) f -> False.
Proof.
  intros Hn Hy Hv Hi En Eb H1 (_ & Hk & Hd).
  assert (Hi' : In (ch_sec x) (map ch_sec cs)) by now apply in_map. rewrite Forall_forall in Hk. specialize (Hk _ Hi').
  destruct (section_of_describes dbg v _ f _ Hd Hi' Hk) as [g E]. rewrite sec_body_chunk, Eb in E. change (sec_name (ch_sec x)) with (ch_name x) in E. rewrite En in E.
  destruct H1 as [-> |[t ->]].
  - rewrite app_nil_r in E. now apply header_alone in E.
  - unfold head_of in E. apply header_refused in E; [easy|easy|easy|cbn [osu_new osu_version]; lia|cbn [osu_new osu_version]; lia].
Qed.
Lemma head_line_known n : In n section_names -> head_line (head_of n) = true.
Proof. unfold section_names. cbn [map In]. intros H. repeat (destruct H as [<-|H]; [reflexivity|]). destruct H. Qed.
Lemma chunks_of_printed v l cs : (3 <= v <= 14)%Z -> Forall (fun p => fine_body (snd p) = true) l -> incl (map fst l) section_names -> l <> [] ->
  falls_apart (ptext l) cs -> file_chunks (lit "osu file format v" ++ print_Z v ++ [c_nl; c_nl] ++ join [c_nl; c_nl] (map part_text l)) v cs.
Proof.
  intros Hv Hb Hi Hl Hf. destruct (printed_lines l Hb (known_names_ok _ Hi) Hl) as [L1 L2].
  exists [], (print_Z v), (10 :: 10 :: join [10; 10] (map part_text l)), [[]; []], (plines l). split; [|split; [now apply print_version|split; [|split; [reflexivity|split]]]].
  - apply (vh [] [] (print_Z v) (10 :: 10 :: join [10; 10] (map part_text l))); auto; [|right; eexists 10, _; auto].
    assert (K : In v [3;4;5;6;7;8;9;10;11;12;13;14]%Z) by (cbn; lia). cbn [In] in K. repeat destruct K as [K|K]; subst; easy.
  - rewrite <- L1. change (10 :: 10 :: join [10; 10] (map part_text l)) with ([] ++ 10 :: [] ++ 10 :: join [10; 10] (map part_text l)). now rewrite !lines_app_nl.
  - destruct l as [|[n ls] l]; [easy|]. assert (K : In n section_names) by (apply Hi; now left). pose proof (head_line_known n K). destruct l as [|[? ?] ?]; easy.
  - now rewrite L2.
Qed.
Lemma all_body l : Forall (fun p => fine_body (snd p) = true) l -> hollow_of l = [] -> Forall (fun p => body_ok (snd p) = true) l.
Proof.
  induction 1 as [|[n ls] l Hp H IH]; [constructor|]. unfold hollow_of in *. cbn [filter snd] in *. destruct ls as [|x ls]; [easy|]. cbn [is_empty]. intros Hh. constructor; [exact Hp|auto].
Qed.
Lemma hollow_incl l : incl (hollow_of l) (map fst l).
Proof. intros n H. unfold hollow_of in H. apply in_map_iff in H as (p & <- & H). apply filter_In in H as [H _]. now apply in_map. Qed.
Lemma first_hollow l : hollow_of l <> [] -> exists a n b, l = a ++ (n, []) :: b /\ hollow_of a = [].
Proof.
  induction l as [|[n ls] l IH]; [easy|]. unfold hollow_of in *. cbn [filter snd]. destruct ls as [|x ls]; cbn [is_empty].
  - intros _. now exists [], n, l.
  - intros H. destruct (IH H) as (a & m & b & -> & Ha). exists ((n, x :: ls) :: a), m, b. split; [easy|exact Ha].
Qed.
Lemma last_hollow l n : NoDup (map fst l) -> hollow_of l = [n] -> last (map fst l) [] = n -> hollow_of (removelast l) = [].
Proof.
  intros Hd Hh Hl. destruct l as [|q l]; [easy|]. destruct (exists_last (l := q :: l) ltac:(easy)) as (a & p & E). rewrite E in *. clear E q l.
  rewrite removelast_last. rewrite map_app in Hd, Hl. cbn [map] in Hd, Hl. rewrite last_last in Hl. rewrite hollow_of_app in Hh.
  destruct (hollow_of a) as [|m h] eqn:Ea; [easy|]. exfalso. cbn [app] in Hh. injection Hh as -> _.
  assert (K : In n (map fst a)) by (apply hollow_incl; rewrite Ea; now left). apply NoDup_remove_2 in Hd. apply Hd. rewrite app_nil_r. now rewrite Hl.
Qed.
Lemma read_hollow_last (dbg : bool) s v l f n : file_chunks s v (part_chunks l) -> Forall (fun p => fine_body (snd p) = true) l ->
  hollow_of l = [n] -> last (map fst l) [] = n -> all_read dbg v (map ch_sec (part_chunks l)) (osu_new v) f ->
  if dbg then panics (osu_from_str dbg s) else osu_from_str dbg s = ROk f.
Proof.
  intros Hc Hb Hh Hl Hr. destruct dbg; [|apply (total_read false s v _ f Hc); split; [exact Hr|easy]].
  destruct (osu_from_str true s) as [g|[j e]|p] eqn:E; [exfalso|exfalso|now exists p].
  - apply (total_read true s v _ g Hc) in E as [_ E]. specialize (E eq_refl). rewrite Forall_forall in E.
    destruct l as [|q l]; [easy|]. destruct (exists_last (l := q :: l) ltac:(easy)) as (a & [m ls] & El). rewrite El in *. clear El q l.
    rewrite map_app in Hl. cbn [map] in Hl. rewrite last_last in Hl. cbn [fst] in Hl. subst m. rewrite part_chunks_snoc in *.
    destruct Hr as (Hd & _ & _). rewrite chunks_names, map_app in Hd. cbn [map part_chunk ch_name fst] in Hd. rewrite map_map in Hd. cbn [part_chunk ch_name] in Hd.
    apply NoDup_remove_2 in Hd. rewrite app_nil_r in Hd. rewrite hollow_of_app in Hh.
    destruct ls as [|x ls].
    + apply (E (part_chunk true (n, []))); [apply in_or_app; right; now left|reflexivity].
    + unfold hollow_of at 2 in Hh. cbn [filter snd is_empty map] in Hh. rewrite app_nil_r in Hh. apply Hd. apply hollow_incl. rewrite Hh. now left.
  - assert (K : exists j, osu_from_str true s = RErr (mk_line_err j e)) by now exists j. apply (total_error true s v _ e Hc) in K as (before & x & g & d & (Hsplit & _ & _) & Hbad).
    destruct Hsplit as [rest Hcs]. destruct Hr as (Hd & Hk & Hds). rewrite Hcs, map_app in *. cbn [map] in *.
    assert (Hx : In (ch_sec x) (map ch_sec before ++ ch_sec x :: map ch_sec rest)) by (apply in_or_app; right; now left).
    rewrite Forall_forall in Hk. specialize (Hk _ Hx). inversion Hbad as [H|_ H|k e' _ H]; subst.
    + rewrite map_app in Hd. cbn [map] in Hd. apply NoDup_remove_2 in Hd. apply Hd. apply in_or_app. now left.
    + now apply H.
    + destruct Hds as (_ & _ & H1 & H2 & H3 & H4 & H5 & H6 & H7 & H8).
      destruct H as [? ? N R|? ? N R|? ? N R|? ? N R|? ? N R|? ? N R|? ? N R|? ? N R];
      match type of N with _ = lit ?nm => match goal with K : holds _ nm _ _ _ |- _ => destruct K as [K _]; specialize (K _ Hx N); congruence end end.
Qed.
Lemma fine_parts dbg f : file_fine f = true -> exists l t, osu_to_string dbg f = ROk t
  /\ t = lit "osu file format v" ++ print_Z (osu_version f) ++ [c_nl; c_nl] ++ join [c_nl; c_nl] (map part_text l)
  /\ (5 <= osu_version f <= 14)%Z /\ Forall (fun p => fine_body (snd p) = true) l /\ map fst l = names_of f /\ hollow_of l = hollow f
  /\ (hollow_of (removelast l) = [] -> l <> [] -> all_read dbg (osu_version f) (map ch_sec (part_chunks l)) (osu_new (osu_version f)) (file_at f)).
Proof.
  destruct f as [v g e o m d ev tp c h]. unfold file_fine, osu_to_string, file_at, hollow. cbn [osu_version osu_general osu_editor osu_metadata osu_difficulty osu_events osu_timing_points osu_colours osu_hitobjects].
  rewrite !andb_true_iff. intros [[[[[[[[[Hv1 Hv2] Hg] He] Hm] Hd] Hev] Htp] Hc] Hh]. apply Z.leb_le in Hv1, Hv2. assert (Hv : (4 < v)%Z) by lia.
  apply (option_part0 "General" (fun t => general_from_str t v) _ (general_lines v) (fun x => general_to_string x v) (general_at v)) in Hg as (p1 & S1 & T1).
  2:{ intros a Ha. destruct (is_empty (general_lines v a)) eqn:Em.
      - destruct (general_text_round_trip v a Ha) as [P R]. destruct (general_lines v a) eqn:El; [|easy]. exists []. auto.
      - destruct (general_part v a Ha) as (ls & P & R); [now rewrite Em|]. exists ls. auto. }
  apply (option_part0 "Editor" (fun t => editor_from_str t v) _ (editor_lines v) (fun x => editor_to_string x v) (editor_at v)) in He as (p2 & S2 & T2).
  2:{ intros a Ha. destruct (is_empty (editor_lines v a)) eqn:Em.
      - destruct (editor_text_round_trip v a Ha) as [P R]. destruct (editor_lines v a) eqn:El; [|easy]. exists []. auto.
      - destruct (editor_part v a Ha) as (ls & P & R); [now rewrite Em|]. exists ls. auto. }
  apply (option_part0 "Metadata" (fun t => metadata_from_str t v) _ metadata_lines (fun x => metadata_to_string x v) (fun x => x)) in Hm as (p3 & S3 & T3).
  2:{ intros a Ha. destruct (is_empty (metadata_lines a)) eqn:Em.
      - destruct (metadata_text_round_trip v a Ha) as [P R]. destruct (metadata_lines a) eqn:El; [|easy]. exists []. auto.
      - destruct (metadata_part v a Ha) as (ls & P & R); [now rewrite Em|]. exists ls. auto. }
  apply (option_part0 "Difficulty" (fun t => difficulty_from_str t v) _ (difficulty_lines v) (fun x => difficulty_to_string x v) (fun x => x)) in Hd as (p4 & S4 & T4).
  2:{ intros a Ha. destruct (is_empty (difficulty_lines v a)) eqn:Em.
      - destruct (difficulty_text_round_trip v a Ha) as [P R]. destruct (difficulty_lines v a) eqn:El; [|easy]. exists []. auto.
      - destruct (difficulty_part v a Ha) as (ls & P & R); [now rewrite Em|]. exists ls. auto. }
  apply (option_run0 "Events" (fun t => events_from_str dbg t v) _ (fun l => l) (fun x => events_to_string dbg x v) (fun x => x)) in Hev as (p5 & c5 & -> & S5 & T5).
  2:{ intros a Ha. destruct a as [|x a]; [exists []; split; [reflexivity|right; now repeat split]|]. destruct (events_part dbg v (x :: a) Ha) as (ls & P & R); [easy|]. exists ls. auto. }
  apply (option_run0 "TimingPoints" (fun t => timing_points_from_str t v) _ (fun l => l) (fun x => timing_points_to_string x v) (fun x => x)) in Htp as (p6 & c6 & -> & S6 & T6).
  2:{ intros a Ha. rewrite !andb_true_iff in Ha. destruct Ha as [[A1 A2] A3]. destruct a as [|x a]; [exists []; split; [reflexivity|right; now repeat split]|].
      destruct (timing_points_part v (x :: a) Hv A1 A2) as (ls & P & R); [exact A3|]. exists ls. auto. }
  apply (option_part0 "Colours" (fun t => colours_from_str t v) _ (fun l => l) (fun x => colours_to_string x v) (fun x => x)) in Hc as (p7 & S7 & T7).
  2:{ intros a Ha. rewrite !andb_true_iff in Ha. destruct Ha as [A1 A2]. destruct a as [|x a].
      - destruct (colours_text_round_trip v [] Hv A1 A2) as [P R]. exists []. auto.
      - destruct (colours_part v (x :: a) Hv A1 A2) as (ls & P & R); [easy|]. exists ls. auto. }
  apply (option_run0 "HitObjects" (fun t => hit_objects_from_str t v) _ (fun l => l) (fun x => hit_objects_to_string x v) (fun x => x)) in Hh as (p8 & c8 & -> & S8 & T8).
  2:{ intros a Ha. rewrite !andb_true_iff in Ha. destruct Ha as [A1 A3]. destruct a as [|x a]; [exists []; split; [reflexivity|right; now repeat split]|].
      destruct (hit_objects_part v (x :: a) Hv A1) as (ls & P & R); [exact A3|]. exists ls. auto. }
  cbn [rbind]. rewrite option_map_id in S3. rewrite option_map_id in S4. rewrite option_map_id in S5. rewrite option_map_id in S6. rewrite option_map_id in S7. rewrite option_map_id in S8.
  rewrite (shown0_out _ _ _ _ _ S1), (shown0_out _ _ _ _ _ S2), (shown0_out _ _ _ _ _ S3), (shown0_out _ _ _ _ _ S4), (shown0_out _ _ _ _ _ S5),
    (shown0_out _ _ _ _ _ S6), (shown0_out _ _ _ _ _ S7), (shown0_out _ _ _ _ _ S8), <- !map_app.
  set (l := p1 ++ p2 ++ p3 ++ p4 ++ p5 ++ p6 ++ p7 ++ p8). set (f' := mk_osu v (option_map (general_at v) g) (option_map (editor_at v) e) None m d ev tp c h).
  assert (Hb : Forall (fun q => fine_body (snd q) = true) l) by (unfold l; repeat (apply Forall_app; split); eauto using shown0_body).
  pose proof (shown0_names _ _ _ _ _ S1) as M1. pose proof (shown0_names _ _ _ _ _ S2) as M2. pose proof (shown0_names _ _ _ _ _ S3) as M3. pose proof (shown0_names _ _ _ _ _ S4) as M4.
  pose proof (shown0_names _ _ _ _ _ S5) as M5. pose proof (shown0_names _ _ _ _ _ S6) as M6. pose proof (shown0_names _ _ _ _ _ S7) as M7. pose proof (shown0_names _ _ _ _ _ S8) as M8.
  assert (Hnm : map fst l = names_of f').
  { unfold l, names_of, f'. cbn [osu_general osu_editor osu_metadata osu_difficulty osu_events osu_timing_points osu_colours osu_hitobjects]. rewrite !map_app.
    now rewrite M1, M2, M3, M4, M5, M6, M7, M8. }
  exists l. eexists. split; [reflexivity|]. split; [reflexivity|]. split; [lia|]. split; [exact Hb|]. split; [|split].
  - rewrite Hnm. unfold names_of, f'. cbn [osu_general osu_editor osu_metadata osu_difficulty osu_events osu_timing_points osu_colours osu_hitobjects]. now destruct g, e.
  - unfold l. rewrite !hollow_of_app. now rewrite T1, T2, T3, T4, T5, T6, T7, T8.
  - intros Hr Hl. destruct (names_known f') as [N1 N2]. rewrite <- Hnm in N1, N2.
    assert (Hrl : Forall (fun p => body_ok (snd p) = true) (removelast l)).
    { apply all_body; [|easy]. destruct (exists_last Hl) as (a & p & El). rewrite El, removelast_last. rewrite El in Hb. now apply Forall_app in Hb. }
    split; [now rewrite chunks_names, part_chunks_names|]. split.
    { apply Forall_forall. intros x Hx. apply N2. rewrite <- part_chunks_names, <- chunks_names. now apply in_map. }
    unfold describes, f', osu_new. cbn [osu_version osu_osb osu_general osu_editor osu_metadata osu_difficulty osu_events osu_timing_points osu_colours osu_hitobjects].
    split; [easy|]. split; [easy|].
    split; [|split; [|split; [|split; [|split; [|split; [|split]]]]]];
    (eapply shown0_holds; [eassumption|exact Hrl| |intros q Hq; unfold l; rewrite !in_app_iff; tauto]);
    intros ls Hi; unfold l in Hi; rewrite !in_app_iff in Hi; decompose [or] Hi; try assumption; elsewhere.
Qed.
Lemma print_hollow dbg f : file_fine f = true -> hollow f <> [] -> exists t, osu_to_string dbg f = ROk t
  /\ (hollow f = [last (names_of f) []] -> if dbg then panics (osu_from_str dbg t) else osu_from_str dbg t = ROk (file_at f))
  /\ (hollow f <> [last (names_of f) []] -> forall g, osu_from_str dbg t <> ROk g).
Proof.
  intros Hf Hh. destruct (fine_parts dbg f Hf) as (l & t & Et & -> & Hv & Hb & Hn & Hho & Hr). eexists. split; [exact Et|].
  destruct (names_known f) as [N1 N2]. rewrite <- Hn in *. rewrite <- Hho in *.
  assert (Hl : l <> []) by (intros ->; now apply Hh).
  split.
  - intros E. assert (Hrl : hollow_of (removelast l) = []) by (eapply last_hollow; [exact N1|exact E|reflexivity]).
    assert (Hbr : Forall (fun p => body_ok (snd p) = true) (removelast l)).
    { apply all_body; [|easy]. destruct (exists_last Hl) as (a & p & El). rewrite El, removelast_last. rewrite El in Hb. now apply Forall_app in Hb. }
    eapply read_hollow_last; [|exact Hb|exact E|reflexivity|].
    + apply chunks_of_printed; [lia|exact Hb|exact N2|exact Hl|]. apply fa_printed; try assumption. now apply known_names_ok.
    + now apply Hr.
  - intros E g Hread. destruct (first_hollow l Hh) as (a & n & b & -> & Ha). destruct b as [|[y ls] b].
    + apply E. rewrite hollow_of_app, Ha, map_app. cbn [map fst]. rewrite last_last. reflexivity.
    + apply Forall_app in Hb as Hb'. destruct Hb' as [Hba _]. apply all_body in Hba; [|easy].
      assert (I1 : In n section_names) by (apply N2; rewrite map_app; apply in_or_app; right; now left).
      assert (I2 : In y section_names) by (apply N2; rewrite map_app; apply in_or_app; right; right; now left).
      assert (C1 : forallb name_char n = true) by (pose proof (known_names_ok [n] ltac:(now intros ? [<- |[]])) as K; cbn [forallb] in K; now apply andb_true_iff in K).
      assert (C2 : forallb name_char y = true) by (pose proof (known_names_ok [y] ltac:(now intros ? [<- |[]])) as K; cbn [forallb] in K; now apply andb_true_iff in K).
      assert (exists X, ptext ((n, []) :: (y, ls) :: b) = head_of n ++ [10; 10; 10] ++ head_of y ++ X /\ (X = [] \/ exists t, X = 10 :: t)) as (X & EX & HX).
      { rewrite ptext_cons. cbn [fst snd text_of_lines app]. destruct b as [|q b].
        - cbn [ptext]. destruct ls as [|x ls]; eexists; (split; [reflexivity|]); [now left|right; eauto].
        - rewrite ptext_cons. cbn [fst snd]. eexists. split; [reflexivity|right; eauto]. }
      destruct (falls_apart_total (ptext ((n, []) :: (y, ls) :: b))) as [cs Hcs].
      pose proof Hcs as Hsw. rewrite EX in Hsw. destruct (swallow n y X cs C1 C2 Hsw) as (x & cs' & b1 & more & -> & Hx1 & Hx2 & HX2).
      assert (Hc : file_chunks (lit "osu file format v" ++ print_Z (osu_version f) ++ [c_nl; c_nl] ++ join [c_nl; c_nl] (map part_text (a ++ (n, []) :: (y, ls) :: b)))
                 (osu_version f) (map (part_chunk false) a ++ x :: cs')).
      { apply chunks_of_printed; [lia|exact Hb|exact N2|now destruct a|]. rewrite ptext_split. rewrite EX in Hcs |- *. apply fa_front; try easy.
        apply known_names_ok. intros z Hz. apply N2. rewrite map_app. apply in_or_app. now left. }
      apply (total_read dbg _ _ _ g Hc) in Hread as [Hread _].
      eapply (chunk_refused dbg (osu_version f) n y b1 g _ x I1 I2 Hv); [|exact Hx1|exact Hx2| |exact Hread].
      * apply in_or_app. right. now left.
      * destruct b1 as [|c b1]; [now left|right]. destruct HX as [-> |[t ->]]; [easy|]. cbn [app] in HX2. injection HX2 as <- _. now exists b1.
Qed.

(** ** the order of the sections (C17) *)
Definition blocks (name : string) (content : option str) : list (str * str) := match content with Some t => [(lit name, t)] | None => [] end.
Lemma sections_join l : join [c_nl; c_nl] (map (fun p : str * str => lit "[" ++ fst p ++ lit "]" ++ [c_nl] ++ snd p) l) = sections_text l.
Proof.
  induction l as [|[n b] l IH]; [easy|]. destruct l as [|q l]; [easy|]. cbn [map] in *. rewrite join_cons2. rewrite IH. cbn [sections_text fst snd].
  change (lit "[") with [91]. change (lit "]") with [93]. cbn [app]. rewrite <- ?app_assoc. reflexivity.
Qed.
Lemma out_blocks name content : out_section name content = map (fun p : str * str => lit "[" ++ fst p ++ lit "]" ++ [c_nl] ++ snd p) (blocks name content).
Proof. now destruct content. Qed.
Lemma blocks_sub name content a b : sublist (map fst a) b -> sublist (map fst (blocks name content ++ a)) (lit name :: b).
Proof. intros H. destruct content; cbn [blocks app map fst]; now constructor. Qed.
Lemma print_order dbg f t : osu_to_string dbg f = ROk t -> exists parts,
  t = lit "osu file format v" ++ print_Z (osu_version f) ++ [10; 10] ++ sections_text parts
  /\ sublist (map fst parts) section_names /\ forall n b, In (n, b) parts <-> section_text dbg f n b.
Proof.
  unfold osu_to_string.
  destruct (run_opt (osu_events f) _) as [ev|[]|] eqn:E5; cbn [rbind]; try easy.
  destruct (run_opt (osu_timing_points f) _) as [tp|[]|] eqn:E6; cbn [rbind]; try easy.
  destruct (run_opt (osu_hitobjects f) _) as [ho|[]|] eqn:E8; cbn [rbind]; try easy.
  intros E. assert (Et := f_equal (fun r => match r with ROk x => x | _ => [] end) E). cbv beta iota in Et. clear E. subst t.
  rewrite !out_blocks, <- !map_app, sections_join. eexists. split; [reflexivity|]. split.
  - unfold section_names. cbn [map]. repeat apply blocks_sub.
    match goal with |- sublist (map fst ?x) _ => replace x with (x ++ []) by apply app_nil_r end. apply blocks_sub. constructor.
  - intros n b. rewrite !in_app_iff. destruct f as [v g e o m d evs tps c h].
    cbn [osu_version osu_general osu_editor osu_metadata osu_difficulty osu_events osu_timing_points osu_colours osu_hitobjects] in *. split.
    + assert (B : forall name content, In (n, b) (blocks name content) -> n = lit name /\ content = Some b) by (intros name [x|]; [intros [H|[]]; injection H as -> ->; easy|easy]).
      intros H. repeat (destruct H as [H|H]); apply B in H as [-> H].
      * destruct g as [x|]; [|easy]. now apply (st_general dbg _ x).
      * destruct e as [x|]; [|easy]. now apply (st_editor dbg _ x).
      * destruct m as [x|]; [|easy]. now apply (st_metadata dbg _ x).
      * destruct d as [x|]; [|easy]. now apply (st_difficulty dbg _ x).
      * subst ev. destruct evs as [x|]; [|easy]. now apply (st_events dbg _ x).
      * subst tp. destruct tps as [x|]; [|easy]. now apply (st_timing dbg _ x).
      * destruct c as [x|]; [|easy]. now apply (st_colours dbg _ x).
      * subst ho. destruct h as [x|]; [|easy]. now apply (st_hitobjects dbg _ x).
    + assert (B : forall name content, content = Some b -> In (lit name, b) (blocks name content)) by (intros name content ->; now left).
      intros H. destruct H as [x b Hx Hb|x b Hx Hb|x b Hx Hb|x b Hx Hb|x b Hx Hb|x b Hx Hb|x b Hx Hb|x b Hx Hb]; cbn in Hx, Hb; subst; cbn [obind run_opt] in *.
      * left. now apply B.
      * right. left. now apply B.
      * do 2 right. left. now apply B.
      * do 3 right. left. now apply B.
      * do 4 right. left. apply B. congruence.
      * do 5 right. left. apply B. congruence.
      * do 6 right. left. now apply B.
      * do 7 right. apply B. congruence.
Qed.
