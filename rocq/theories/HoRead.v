(** The reader of hit objects reads field by field. *)
From Coq Require Import String List NArith ZArith Bool Lia.
From Verif Require Import Str Num Nom Dec Parsers Colours TimingPoints HitObjects Spec SpecWf SpecText SpecLine
  StrFacts NumFacts NomFacts DecFacts FieldFacts CmdFacts HoFacts HoRound LineRead.
Import ListNotations.
Local Open Scope N_scope.

(** ** pieces *)
Definition tailc (c : char) (fs : list str) : str := concat (map (cons c) fs).
Definition none_of (c : char) (s : str) : bool := forallb (fun d => negb (d =? c)) s.
Lemma tailc_cons c f fs : tailc c (f :: fs) = c :: f ++ tailc c fs.
Proof. reflexivity. Qed.
Lemma pieces_spec c s : exists f fs, pieces c s = f :: fs /\ s = f ++ tailc c fs
  /\ none_of c f = true /\ forallb (none_of c) fs = true.
Proof.
  induction s as [|d s (f & fs & E & S & F & L)]; [exists [], []; now repeat split|].
  cbn [pieces]. rewrite E. destruct (d =? c) eqn:D.
  - apply N.eqb_eq in D as ->. exists [], (f :: fs). repeat split.
    + rewrite tailc_cons. cbn [app]. now rewrite S.
    + cbn [forallb]. now rewrite F.
  - exists (d :: f), fs. repeat split; [|cbn [none_of forallb]; now rewrite D|easy].
    cbn [app]. now rewrite S.
Qed.
Lemma pieces_fields s : fields_of s (pieces 44 s).
Proof.
  destruct (pieces_spec 44 s) as (f & fs & -> & S & F & L). repeat split; [easy| |].
  - rewrite commas_tailf. exact S.
  - cbn [forallb]. apply andb_true_iff. now split.
Qed.
Lemma fields_pieces s fs : pieces 44 s = fs <-> fields_of s fs.
Proof.
  split; [intros <-; apply pieces_fields|]. intros H. eapply fields_unique; [apply pieces_fields|exact H].
Qed.
Lemma cut_spec c s : match cut_at c s with
  | Some (a, b) => s = a ++ c :: b /\ none_of c a = true
  | None => none_of c s = true
  end.
Proof.
  induction s as [|d s IH]; [reflexivity|]. cbn [cut_at]. destruct (d =? c) eqn:D.
  - apply N.eqb_eq in D as ->. now split.
  - destruct (cut_at c s) as [[a b]|].
    + destruct IH as [-> Ha]. split; [reflexivity|]. cbn [none_of forallb]. now rewrite D.
    + cbn [none_of forallb]. now rewrite D.
Qed.
Lemma cut_app c a b : none_of c a = true -> cut_at c (a ++ c :: b) = Some (a, b).
Proof.
  induction a as [|d a IH]; cbn [app cut_at none_of forallb]; [now rewrite N.eqb_refl|].
  intros H. apply andb_true_iff in H as [Hd H]. apply negb_true_iff in Hd. rewrite Hd. now rewrite (IH H).
Qed.
Lemma cut_none c s : none_of c s = true -> cut_at c s = None.
Proof.
  induction s as [|d s IH]; [reflexivity|]. cbn [cut_at none_of forallb]. intros H.
  apply andb_true_iff in H as [Hd H]. apply negb_true_iff in Hd. rewrite Hd. now rewrite (IH H).
Qed.

(** ** hit samples *)
Lemma hs_field_at f fs : none_of 58 f = true -> hs_field (f ++ tailc 58 fs) = POk (tailc 58 fs) f.
Proof. intros H. apply take_while_app; [easy|]. now destruct fs. Qed.
Lemma nothing_app {C} f : spaces f = true -> @nothing C f = POk [] [].
Proof.
  intros H. unfold nothing, preceded, pbind, space0, take_while. now rewrite (span_all is_space0 f H).
Qed.
Lemma spaces_app a b : spaces (a ++ b) = spaces a && spaces b.
Proof. apply forallb_app. Qed.
Definition ocase {A X} (i : hs_err) (rd : str -> res A X) (fs : list str) : pres hs_err (option A) :=
  match fs with
  | [] => POk [] None
  | f :: fs' => if is_empty fs' && spaces f then POk [] None
                else match rd f with
                     | ROk a => POk (tailc 58 fs') (Some a)
                     | RErr _ => PErr (mkErr KMapRes (Some i))
                     | RPanic p => PPanic p
                     end
  end.
Lemma optional_at {A X} i (rd : str -> res A X) fs : forallb (none_of 58) fs = true ->
  hs_optional (context i (map_res hs_field rd)) (tailc 58 fs) = ocase i rd fs.
Proof.
  intros H. destruct fs as [|f fs]; [reflexivity|]. cbn [forallb] in H. apply andb_true_iff in H as [Hf H].
  cbn [ocase]. unfold hs_optional, alt, pmap at 1. unfold preceded at 1. unfold pbind at 1.
  rewrite tailc_cons. unfold hs_sep. change (tag (lit ":")) with (@tag hs_err [58]). rewrite (tag_one 58).
  destruct (is_empty fs && spaces f) eqn:B.
  - apply andb_true_iff in B as [B1 B2]. destruct fs; [|discriminate]. cbn [tailc concat map].
    rewrite app_nil_r, nothing_app by easy. reflexivity.
  - destruct (@nothing_spaces hs_err (f ++ tailc 58 fs)) as [e ->].
    { change (spaces (f ++ tailc 58 fs) = false). rewrite spaces_app. destruct fs as [|g fs].
      - cbn [is_empty] in B. cbn. now rewrite andb_true_r.
      - rewrite tailc_cons. cbn. now rewrite andb_false_r. }
    unfold pmap at 1. change (58 :: f ++ tailc 58 fs) with (lit ":" ++ (f ++ tailc 58 fs)).
    destruct (@nothing_colon hs_err (f ++ tailc 58 fs)) as [e' ->].
    unfold preceded, pbind, context at 1. change (lit ":" ++ f ++ tailc 58 fs) with (58 :: f ++ tailc 58 fs).
    rewrite (tag_one 58). unfold pmap, context, map_res. rewrite hs_field_at by easy. now destruct (rd f).
Qed.
Lemma next_or_at {A B X} (d : A) i (rd : str -> res A X) (k : option A -> parser hs_err B) K fs :
  (forall o fs', forallb (none_of 58) fs' = true ->
     verbose_error_to_error (k o (tailc 58 fs')) = K (or_default d o) fs') ->
  forallb (none_of 58) fs = true ->
  verbose_error_to_error (pbind (hs_optional (context i (map_res hs_field rd))) k (tailc 58 fs))
  = next_or d i rd fs K.
Proof.
  intros HK H. unfold pbind. rewrite optional_at by easy. destruct fs as [|f fs]; cbn [ocase next_or].
  - apply (HK None []). reflexivity.
  - destruct (is_empty fs && spaces f); [apply (HK None []); reflexivity|].
    cbn [forallb] in H. apply andb_true_iff in H as [_ H].
    destruct (rd f); [now apply (HK (Some a) fs)|reflexivity|reflexivity].
Qed.
Lemma agree_rset : agree (fun s => v_unwrap (sample_set_from_str s)) rd_set.
Proof. apply agree_unwrap. intros s. unfold sample_set_from_str, rd_set. now destruct (parse_usize s). Qed.
Lemma agree_rindex : agree (fun s => v_unwrap (ho_index_from_str s)) rd_index.
Proof. apply agree_unwrap. intros s. unfold ho_index_from_str, rd_index. now destruct (parse_usize s). Qed.
Lemma agree_rvol : agree (fun s => v_unwrap (ho_volume_from_str s)) rd_volume.
Proof.
  intros s. unfold v_unwrap, ho_volume_from_str, rd_volume.
  destruct (parse_u8 s) as [z| |p] eqn:E; [|easy|now apply parse_int_no_panic in E].
  destruct (z =? 0)%Z eqn:Z0; [easy|]. cbn [ho_volume_new]. rewrite Z0.
  destruct (100 <? z)%Z eqn:L; destruct (z <=? 100)%Z eqn:L'; try easy;
    rewrite ?Z.ltb_lt, ?Z.ltb_ge, ?Z.leb_le, ?Z.leb_gt in *; lia.
Qed.
Lemma next_or_agree {A B X Y} (d : A) i (f : str -> res A X) (g : str -> res A Y) fs
  (K : A -> list str -> res B hs_err) : agree f g -> next_or d i f fs K = next_or d i g fs K.
Proof.
  intros H. destruct fs as [|x fs]; [reflexivity|]. cbn. specialize (H x).
  destruct (f x), (g x); try easy; now subst.
Qed.

Lemma hs_reads s : hit_sample_from_str s = rmap Some (rd_sample s).
Proof.
  unfold rd_sample. destruct (pieces_spec 58 s) as (f & fs & -> & -> & F & L).
  unfold hit_sample_from_str. f_equal. unfold hit_sample_parser.
  unfold hs_line. rewrite <- (next_or_agree _ _ _ _ _ _ agree_rset). cbn [next_or].
  unfold alt at 1. unfold pmap at 1.
  destruct (is_empty fs && spaces f) eqn:B.
  - apply andb_true_iff in B as [B1 B2]. destruct fs; [|discriminate]. cbn [tailc concat map].
    rewrite app_nil_r, nothing_app by easy. reflexivity.
  - assert (NS : forallb is_space0 (f ++ tailc 58 fs) = false).
    { change (spaces (f ++ tailc 58 fs) = false). rewrite spaces_app. destruct fs as [|g fs].
      - cbn [is_empty] in B. cbn. now rewrite andb_true_r.
      - rewrite tailc_cons. cbn. now rewrite andb_false_r. }
    destruct (@nothing_spaces hs_err _ NS) as [e ->]. unfold pbind at 1. unfold alt at 1. unfold pmap at 1.
    destruct (@nothing_spaces hs_err _ NS) as [e' ->]. unfold pmap at 1. unfold hs_sample_set at 1.
    unfold context at 1, map_res at 1. rewrite hs_field_at by easy.
    destruct (v_unwrap (sample_set_from_str f)) as [n| |]; [|reflexivity|reflexivity].
    rewrite <- (next_or_agree _ _ _ _ _ _ agree_rset).
    apply next_or_at; [|easy]. clear fs L B NS. intros a fs L.
    rewrite <- (next_or_agree _ _ _ _ _ _ agree_rindex).
    apply next_or_at; [|easy]. clear fs L. intros i fs L.
    rewrite <- (next_or_agree _ _ _ _ _ _ agree_rvol).
    apply next_or_at; [|easy]. clear fs L. intros vol fs L.
    assert (T : hs_optional hs_field (tailc 58 fs) = ocase HsInvalidVolume rd_text fs).
    { rewrite <- (optional_at HsInvalidVolume rd_text fs L).
      assert (X : forall r, hs_field r = context HsInvalidVolume (map_res hs_field rd_text) r).
      { intros r. unfold context, map_res, hs_field, take_while, rd_text. now destruct (span _ r). }
      unfold hs_optional. unfold alt. destruct (pmap _ (preceded hs_sep nothing) _); try reflexivity.
      destruct (pmap _ nothing _); try reflexivity. unfold preceded, pbind.
      destruct (context _ hs_sep _); try reflexivity. unfold pmap. now rewrite X. }
    unfold pmap. rewrite T. destruct fs as [|g fs]; [reflexivity|]. cbn [ocase next_or].
    now destruct (is_empty fs && spaces g).
Qed.

(** ** lists between bars *)
Section Pipe.
  Context {C A X Y : Type}.
  Variable f : str -> res (option A) X.
  Variable rd : str -> res A Y.
  Hypothesis same : agree (fun s => v_unwrap (f s)) rd.
  Hypothesis quiet : forall s p, rd s <> RPanic p.
  Let p : parser C A := map_res (take_while item_char) (fun s => v_unwrap (f s)).
  Definition clean_item (s : str) : bool := forallb (fun c => negb ((c =? 13) || (c =? 10))) s.
  (** what stops a list early *)
  Definition bad_start (u : str) : Prop := exists c t, u = c :: t /\ In c [124; 13; 10].

  Lemma item_ok x : none_of 124 x = true -> no_comma x = true -> clean_item x = true -> item_text x = true.
  Proof.
    unfold item_text, item_char, none_of, no_comma, clean_item. rewrite !forallb_forall. intros H1 H2 H3 c Hc.
    specialize (H1 c Hc). specialize (H2 c Hc). specialize (H3 c Hc).
    destruct (c =? 124), (c =? 44), (c =? 13), (c =? 10); easy.
  Qed.
  Lemma item_at x r : item_text x = true -> stops item_char r = true ->
    p (x ++ r) = match rd x with ROk a => POk r a | _ => PErr (mkErr KMapRes None) end.
  Proof.
    intros H S. unfold p, map_res. rewrite take_while_app by easy.
    specialize (same x). pose proof (quiet x) as Q. cbn beta in same.
    destruct (v_unwrap (f x)), (rd x); try easy; [now subst|now destruct (Q p1)].
  Qed.
  (** an item with a line break inside *)
  Lemma broken x : none_of 124 x = true -> no_comma x = true -> clean_item x = false ->
    exists a c b, x = a ++ c :: b /\ item_text a = true /\ (c = 13 \/ c = 10).
  Proof.
    induction x as [|d x IH]; [discriminate|]. cbn [none_of no_comma clean_item forallb].
    intros H1 H2 H3. apply andb_true_iff in H1 as [D1 H1]. apply andb_true_iff in H2 as [D2 H2].
    destruct ((d =? 13) || (d =? 10)) eqn:D.
    - exists [], d, x. repeat split. apply orb_true_iff in D as [D|D]; apply N.eqb_eq in D; auto.
    - cbn [negb andb] in H3. destruct (IH H1 H2 H3) as (a & c & b & -> & Ha & Hc).
      exists (d :: a), c, b. repeat split; [|easy]. cbn [item_text forallb]. apply andb_true_iff. split; [|easy].
      unfold item_char. apply orb_false_iff in D as [-> ->].
      destruct (d =? 124), (d =? 44); easy.
  Qed.
  Lemma item_broken x r : none_of 124 x = true -> no_comma x = true -> clean_item x = false ->
    (exists e, p (x ++ r) = PErr e) \/ exists u a, p (x ++ r) = POk (u ++ r) a
      /\ exists c t, u = c :: t /\ (c = 13 \/ c = 10).
  Proof.
    intros H1 H2 H3. destruct (broken x H1 H2 H3) as (a & c & b & -> & Ha & Hc).
    rewrite <- app_assoc. cbn [app]. rewrite item_at; [|easy|destruct Hc as [-> | ->]; reflexivity].
    destruct (rd a) as [y| |]; [right|left; now eexists|left; now eexists].
    exists (c :: b), y. split; [reflexivity|]. exists c, b. now split.
  Qed.
  Lemma bar_at r : @tag C (lit "|") (124 :: r) = POk r (lit "|").
  Proof. apply (tag_one 124). Qed.
  Lemma tails_stop xs rest : stop_comma rest = true -> stops item_char (tailc 124 xs ++ rest) = true.
  Proof. intros H. destruct xs; [now apply stop_comma_item|reflexivity]. Qed.
  (** the tail of the list *)
  Lemma tail_at rest : stop_comma rest = true -> forall xs fuel,
    forallb (none_of 124) xs = true -> forallb no_comma xs = true -> (length xs < fuel)%nat ->
    (exists l, forallb clean_item xs = true /\ all_items rd xs = Some l
       /\ sep_tail fuel (tag (lit "|")) p (tailc 124 xs ++ rest) = POk rest l)
    \/ (exists u l, (forallb clean_item xs = false \/ all_items rd xs = None) /\ bad_start u
       /\ sep_tail fuel (tag (lit "|")) p (tailc 124 xs ++ rest) = POk (u ++ rest) l).
  Proof.
    intros Hr. induction xs as [|x xs IH]; intros fuel H1 H2 Hf; (destruct fuel as [|fuel]; [cbn in Hf; lia|]).
    - left. exists []. repeat split. cbn [tailc concat map app sep_tail].
      destruct (@stop_comma_tag C rest Hr) as [e ->]. reflexivity.
    - cbn [forallb] in H1, H2. apply andb_true_iff in H1 as [X1 H1]. apply andb_true_iff in H2 as [X2 H2].
      rewrite tailc_cons. cbn [app sep_tail]. rewrite <- app_assoc. rewrite bar_at.
      replace (Nat.eqb _ _) with false by (symmetry; apply Nat.eqb_neq; cbn [length]; lia).
      destruct (clean_item x) eqn:Cx.
      + rewrite item_at; [|now apply item_ok|now apply tails_stop].
        destruct (rd x) as [a|e|q] eqn:Rx; [|right|now destruct (quiet x q)].
        * destruct (IH fuel H1 H2 ltac:(cbn in Hf; lia)) as [(l & E1 & E2 & ->)|(u & l & E1 & E2 & ->)].
          -- left. exists (a :: l). cbn [forallb all_items]. now rewrite Cx, E1, Rx, E2.
          -- right. exists u, (a :: l). split; [|now split]. cbn [forallb all_items]. rewrite Cx, Rx.
             destruct E1 as [E1|E1]; [left; exact E1|right; now rewrite E1].
        * exists (124 :: x ++ tailc 124 xs), []. split; [right; cbn [all_items]; now rewrite Rx|]. split.
          -- eexists _, _. split; [reflexivity|]. cbn. auto.
          -- cbn [app]. now rewrite <- app_assoc.
      + right. destruct (item_broken x (tailc 124 xs ++ rest) X1 X2 Cx) as [[e ->]|(u & a & -> & B)].
        * exists (124 :: x ++ tailc 124 xs), []. split; [left; cbn [forallb]; now rewrite Cx|]. split.
          -- eexists _, _. split; [reflexivity|]. cbn. auto.
          -- cbn [app]. now rewrite <- app_assoc.
        * destruct B as (c & t & -> & Hc). destruct fuel as [|fuel]; [cbn in Hf; lia|].
          exists ((c :: t) ++ tailc 124 xs), [a]. split; [left; cbn [forallb]; now rewrite Cx|]. split.
          -- exists c, (t ++ tailc 124 xs). split; [reflexivity|]. cbn. destruct Hc as [-> | ->]; auto.
          -- cbn [app sep_tail]. rewrite <- app_assoc. destruct Hc as [-> | ->]; reflexivity.
  Qed.

  Hypothesis empty : fails (rd []).
  Hypothesis blank : forall t, spaces t = true -> fails (rd t).
  Lemma tailc_len xs : (length xs <= length (tailc 124 xs))%nat.
  Proof. induction xs as [|x xs IH]; [easy|]. rewrite tailc_cons. cbn [length]. rewrite app_length. lia. Qed.
  Lemma clean_pieces x xs : existsb (fun c => (c =? 13) || (c =? 10)) (x ++ tailc 124 xs)
    = negb (clean_item x && forallb clean_item xs).
  Proof.
    assert (W : forall y, existsb (fun c => (c =? 13) || (c =? 10)) y = negb (clean_item y)).
    { induction y as [|c y IH]; [reflexivity|]. cbn [existsb clean_item forallb]. rewrite IH.
      unfold clean_item. now destruct ((c =? 13) || (c =? 10)). }
    rewrite existsb_app, W. clear -W. revert x. induction xs as [|y xs IH]; intros x.
    - cbn. now rewrite orb_false_r, andb_true_r.
    - rewrite tailc_cons. cbn [existsb]. change ((124 =? 13) || (124 =? 10)) with false. cbn [orb].
      rewrite existsb_app, W, IH. cbn [forallb]. destruct (clean_item x), (clean_item y); reflexivity.
  Qed.
  (** a list between bars in the field [t] *)
  Lemma pipe_at t rest : no_comma t = true -> stop_comma rest = true ->
    match items rd t with
    | Some l => @pipe_vec_versioned_map C A X f (t ++ rest) = POk rest l
    | None => exists u l, @pipe_vec_versioned_map C A X f (t ++ rest) = POk (u ++ rest) l
        /\ (exists c v, u = c :: v /\ c <> 44) /\ (if spaces t then u = t /\ l = [] else spaces u = false)
    end.
  Proof.
    intros Ht Hr. unfold items. destruct t as [|c0 t0] eqn:Et.
    { cbn [is_empty app]. destruct empty as [e He]. pose proof (same []) as S. cbn beta in S. rewrite He in S.
      unfold pipe_vec_versioned_map, separated_list0, map_res. fold item_char.
      rewrite take_while_none by now apply stop_comma_item. now destruct (v_unwrap (f [])). }
    rewrite <- Et in *. assert (Tn : t <> []) by (rewrite Et; discriminate).
    replace (is_empty t) with false by (now rewrite Et). clear Et c0 t0.
    destruct (pieces_spec 124 t) as (x & xs & -> & Es & Hx & Hxs).
    assert (Nx : no_comma x = true /\ forallb no_comma xs = true).
    { rewrite Es in Ht. rewrite no_comma_app in Ht. apply andb_true_iff in Ht as [H1 H2]. split; [easy|].
      clear -H2. induction xs as [|y xs IH]; [easy|]. rewrite tailc_cons in H2. cbn in H2.
      fold (no_comma (y ++ tailc 124 xs)) in H2. rewrite no_comma_app in H2. apply andb_true_iff in H2 as [H1 H2].
      cbn [forallb]. now rewrite H1, IH. }
    destruct Nx as [Nx Nxs]. 
    replace (existsb _ t) with (negb (clean_item x && forallb clean_item xs))
      by (rewrite Es; symmetry; apply clean_pieces).
    unfold pipe_vec_versioned_map, separated_list0. fold item_char. fold p.
    assert (SP : spaces t = true -> xs = [] /\ x = t).
    { intros S. rewrite Es in S |- *. destruct xs; [cbn; now rewrite app_nil_r|]. rewrite spaces_app, tailc_cons in S.
      cbn in S. now rewrite andb_false_r in S. }
    assert (Fail : (exists e, p (t ++ rest) = PErr e) -> exists u l,
      match p (t ++ rest) with
      | POk r a => match sep_tail (S (length r)) (tag (lit "|")) p r with POk r' l0 => POk r' (a :: l0) | x0 => x0 end
      | PErr _ => POk (t ++ rest) []
      | PFail e => PFail e
      | PPanic x0 => PPanic x0
      end = POk (u ++ rest) l /\ (exists c v, u = c :: v /\ c <> 44)
      /\ (if spaces t then u = t /\ l = [] else spaces u = false)).
    { intros [e ->]. exists t, []. split; [easy|]. split; [|now destruct (spaces t)].
      destruct t as [|c t]; [easy|]. exists c, t. split; [easy|]. intros ->. discriminate. }
    destruct (clean_item x) eqn:Cx.
    - assert (P1 : p (t ++ rest) = match rd x with ROk a => POk (tailc 124 xs ++ rest) a | _ => PErr (mkErr KMapRes None) end).
      { rewrite Es, <- app_assoc. apply item_at; [now apply item_ok|now apply tails_stop]. }
      destruct (rd x) as [a|e|q] eqn:Rx; [|clear P1|now destruct (quiet x q)].
      + assert (Sp : spaces t = false).
        { destruct (spaces t) eqn:S; [|easy]. destruct (SP eq_refl) as [-> ->]. destruct (blank t S) as [e He]. congruence. }
        rewrite Sp in Fail |- *. rewrite P1. clear Fail.
        destruct (tail_at rest Hr xs (S (length (tailc 124 xs ++ rest))) Hxs Nxs) as [(l & E1 & E2 & E3)|(u & l & E1 & E2 & E3)].
        { rewrite app_length. pose proof (tailc_len xs). lia. }
        * rewrite E1, E3. cbn [andb negb all_items]. rewrite Rx, E2. reflexivity.
        * rewrite E3. replace (if negb (true && forallb clean_item xs) then None else all_items rd (x :: xs)) with (@None (list A)).
          -- exists u, (a :: l). destruct E2 as (c & v & -> & Hc).
             cbn in Hc. split; [easy|]. split; [exists c, v; split; [easy|]|]; destruct Hc as [<-|[<-|[<-|[]]]]; easy.
          -- cbn [all_items]. rewrite Rx. destruct E1 as [-> | ->]; [reflexivity|]. now destruct (negb _).
      + replace (if negb (true && forallb clean_item xs) then None else all_items rd (x :: xs)) with (@None (list A)).
        * apply Fail. rewrite Es, <- app_assoc, item_at; [|now apply item_ok|now apply tails_stop]. rewrite Rx. now eexists.
        * cbn [all_items]. rewrite Rx. now destruct (negb _).
    - cbn [andb negb].
      destruct (item_broken x (tailc 124 xs ++ rest) Hx Nx Cx) as [[e E]|(u & a & E & B)].
      + apply Fail. exists e. now rewrite Es, <- app_assoc.
      + assert (Sp : spaces t = false).
        { destruct (spaces t) eqn:S; [|easy]. destruct (SP eq_refl) as [-> ->]. clear -S Cx.
          exfalso. revert Cx. induction t as [|c t IH]; [easy|]. cbn [spaces forallb clean_item] in *.
          apply andb_true_iff in S as [S1 S2]. apply orb_true_iff in S1 as [S1|S1]; apply N.eqb_eq in S1; subst; cbn; now apply IH. }
        rewrite Sp. rewrite Es, <- app_assoc, E. destruct B as (c & v & -> & Hc).
        exists ((c :: v) ++ tailc 124 xs), [a]. rewrite <- app_assoc. cbn [app length sep_tail].
        split; [destruct Hc as [-> | ->]; reflexivity|]. split; [|destruct Hc as [-> | ->]; reflexivity].
        exists c, (v ++ tailc 124 xs). split; [easy|]. destruct Hc as [-> | ->]; easy.
  Qed.
End Pipe.

(** ** the lists of a slider *)
Lemma u8_quiet s p : parse_u8 s <> RPanic p.
Proof. apply parse_int_no_panic. Qed.
Lemma spaces_no_digit signed s z : spaces s = true -> ~ int_text signed s z.
Proof.
  intros S H. assert (D : forall ds, ds <> [] -> Forall digit ds -> spaces ds = false).
  { intros [|d ds] N F; [easy|]. apply Forall_inv in F. unfold digit in F. cbn.
    destruct (N.eqb_spec d 32); [lia|]. destruct (N.eqb_spec d 9); [lia|]. reflexivity. }
  destruct H as [ds N F|ds N F|ds _ N F]; cbn in S; [|discriminate|discriminate]. rewrite (D ds N F) in S. discriminate.
Qed.
Lemma u8_spaces s : spaces s = true -> fails (parse_u8 s).
Proof.
  intros H. destruct (parse_u8 s) eqn:E; [|now eexists|now apply u8_quiet in E].
  apply u8_accepts in E as [E _]. now apply spaces_no_digit in E.
Qed.
Lemma agree_sound : agree (fun s => v_unwrap (hit_sound_from_str s)) rd_sound.
Proof.
  intros s. unfold v_unwrap, hit_sound_from_str, rd_sound. destruct (parse_u8 s) eqn:E; try easy.
  now apply u8_quiet in E.
Qed.
Lemma sound_quiet s p : rd_sound s <> RPanic p.
Proof. unfold rd_sound. now destruct (parse_u8 s). Qed.
Lemma sound_blank s : spaces s = true -> fails (rd_sound s).
Proof. intros H. unfold rd_sound. destruct (u8_spaces s H) as [e ->]. now eexists. Qed.
Lemma spaces_none s : spaces s = true -> cut_at 58 s = None.
Proof.
  intros H. apply cut_none. unfold none_of, spaces in *. rewrite forallb_forall in *. intros c Hc. specialize (H c Hc).
  apply orb_true_iff in H as [H|H]; apply N.eqb_eq in H; now subst.
Qed.
Lemma colon_item s :
  match @take_while colon_err (fun c => negb (c =? 58)) s with
  | POk r a => (cut_at 58 s = None /\ r = [] /\ a = s) \/ exists t, r = 58 :: t /\ cut_at 58 s = Some (a, t)
  | _ => False
  end.
Proof.
  pose proof (cut_spec 58 s) as H. destruct (cut_at 58 s) as [[a b]|].
  - destruct H as [-> H]. rewrite (@take_while_app colon_err (fun c => negb (c =? 58)) a (58 :: b)); [|easy|reflexivity].
    right. now exists b.
  - unfold take_while. rewrite (span_all _ s H). now left.
Qed.
Lemma agree_point : agree (fun s => v_unwrap (curve_point_from_str s)) rd_point.
Proof.
  intros s. unfold v_unwrap, curve_point_from_str, rd_point, curve_point_parser, pbind at 1, terminated, pbind at 1, context at 1, map_res.
  pose proof (colon_item s) as H.
  destruct (take_while (fun c => negb (c =? 58)) s) as [r a|e|e|p]; try easy.
  destruct H as [(H & -> & ->)|(t & -> & H)]; rewrite H; [reflexivity|].
  unfold parse_decimal at 1, pmap, context. change (tag (lit ":")) with (@tag colon_err [58]). rewrite (tag_one 58). reflexivity.
Qed.
Lemma point_quiet s p : rd_point s <> RPanic p.
Proof. unfold rd_point. now destruct (cut_at 58 s) as [[]|]. Qed.
Lemma point_blank s : spaces s = true -> fails (rd_point s).
Proof. intros H. unfold rd_point. rewrite spaces_none by easy. now eexists. Qed.
Lemma set_quiet s p : rd_set s <> RPanic p.
Proof. unfold rd_set. destruct (parse_usize s) eqn:E; try easy. now apply parse_int_no_panic in E. Qed.
Lemma set_is s : sample_set_from_str s = rmap Some (rd_set s).
Proof. unfold sample_set_from_str, rd_set. now destruct (parse_usize s). Qed.
Lemma agree_edge : agree (fun s => v_unwrap (edge_set_from_str s)) rd_edge.
Proof.
  intros s. unfold v_unwrap, edge_set_from_str, rd_edge, edge_set_parser, pbind at 1, terminated, pbind at 1, context at 1, map_res.
  pose proof (colon_item s) as H.
  destruct (take_while (fun c => negb (c =? 58)) s) as [r a|e|e|p]; try easy.
  rewrite set_is. pose proof (set_quiet a) as Qa.
  destruct H as [(H & -> & ->)|(t & -> & H)]; rewrite H.
  - destruct (rd_set s) as [x|e|q]; [reflexivity|reflexivity|now destruct (Qa q)].
  - destruct (rd_set a) as [x|e|q]; [|reflexivity|now destruct (Qa q)]. cbn [v_unwrap rmap rbind unwrap].
    unfold pmap, context. change (tag (lit ":")) with (@tag colon_err [58]). rewrite (tag_one 58).
    unfold consume_rest_versioned_type, map_res, prest, v_unwrap. rewrite set_is.
    pose proof (set_quiet t) as Qt. destruct (rd_set t) as [y|e|q]; [reflexivity|reflexivity|now destruct (Qt q)].
Qed.
Lemma edge_quiet s p : rd_edge s <> RPanic p.
Proof. unfold rd_edge. destruct (cut_at 58 s) as [[a b]|]; [|easy]. now destruct (rd_set a), (rd_set b). Qed.
Lemma edge_blank s : spaces s = true -> fails (rd_edge s).
Proof. intros H. unfold rd_edge. rewrite spaces_none by easy. now eexists. Qed.
Lemma tailf_stop fs : stop_comma (tailf fs) = true.
Proof. now destruct fs. Qed.

(** a field with a list, then the next thing *)
Lemma comma_stuck {C} (m : C) c v : c <> 44 -> exists e, context m comma (c :: v) = PErr e /\ e_ctx e = Some m.
Proof.
  intros H. unfold context, comma, tag. change (lit ",") with [44]. cbn [strip_prefix].
  destruct (N.eqb_spec 44 c) as [E|_]; [now subst|]. eexists. split; reflexivity.
Qed.
Lemma nothing_at {C} u fs : if is_empty fs && spaces u then @nothing C (u ++ tailf fs) = POk [] []
  else exists e, @nothing C (u ++ tailf fs) = PErr e.
Proof.
  destruct fs as [|f fs]; cbn [is_empty andb].
  - cbn [tailf concat map]. rewrite app_nil_r. destruct (spaces u) eqn:S; [now apply nothing_app|].
    now apply nothing_spaces.
  - apply nothing_spaces. change (spaces (u ++ tailf (f :: fs)) = false). rewrite spaces_app, tailf_cons. cbn.
    apply andb_false_r.
Qed.
Lemma blank_items {A X} (rd : str -> res A X) t l : (forall t, spaces t = true -> fails (rd t)) ->
  spaces t = true -> items rd t = Some l -> l = [].
Proof.
  intros B S. unfold items. destruct t as [|c t]; [cbn; congruence|]. cbn [is_empty].
  destruct (existsb _ _); [discriminate|].
  destruct (pieces_spec 124 (c :: t)) as (x & xs & -> & E & _ & _).
  assert (Sx : spaces x = true). { rewrite E, spaces_app in S. now apply andb_true_iff in S as [S _]. }
  cbn [all_items]. destruct (B x Sx) as [e ->]. discriminate.
Qed.

Lemma span_over f a b : forallb f a = true -> span f (a ++ b) = let (x, y) := span f b in (a ++ x, y).
Proof.
  induction a as [|c a IH]; cbn; intros H; [now destruct (span f b)|].
  apply andb_true_iff in H as [-> H]. rewrite (IH H). now destruct (span f b).
Qed.
Section Objects.
  Variable v : version.
  Lemma ho_sample_agree : agree (fun s => v_unwrap (hit_sample_from_str s)) rd_sample.
  Proof. apply agree_unwrap, hs_reads. Qed.
  Lemma ho_sample_at {B} (k : option hit_sample -> B) fs :
    rmap k (verbose_error_to_error (ho_hitsample_p (tailf fs)))
    = sample_end fs (fun h => ROk (k h)).
  Proof.
    unfold ho_hitsample_p, alt, pmap at 1. destruct fs as [|f fs]; [reflexivity|].
    rewrite tailf_cons at 1. destruct (@nothing_comma ho_err (f ++ tailf fs)) as [e E].
    change (lit "," ++ (f ++ tailf fs)) with (44 :: f ++ tailf fs) in E. rewrite E.
    unfold pmap. change (map_res prest (fun s => v_unwrap (hit_sample_from_str s)))
      with (@consume_rest_type ho_err _ _ (fun s => v_unwrap (hit_sample_from_str s))).
    rewrite last_at. unfold sample_end.
    rewrite <- (last_agree _ _ _ _ (f :: fs) _ ho_sample_agree). cbn [lcase last_field].
    now destruct (v_unwrap (hit_sample_from_str (commas (f :: fs)))).
  Qed.
  Lemma edges_at {B} (g : list hit_sound * list edge_set * option hit_sample * bool * bool -> B) fs :
    forallb no_comma fs = true ->
    rmap g (verbose_error_to_error (ho_edges (tailf fs)))
    = edges_line fs (fun es sets h b1 b2 => ROk (g (es, sets, h, b1, b2))).
  Proof.
    intros H. unfold ho_edges. unfold alt at 1. unfold pmap at 1.
    destruct fs as [|e fs]; [reflexivity|]. cbn [forallb] in H. apply andb_true_iff in H as [He H].
    pose proof (@nothing_at ho_err [] (e :: fs)) as N. cbn [is_empty andb app] in N. destruct N as [x ->].
    unfold pbind at 1, preceded at 1, pbind at 1. rewrite comma_at.
    pose proof (@pipe_at ho_err _ _ _ hit_sound_from_str rd_sound agree_sound sound_quiet
      (sound_blank [] eq_refl) sound_blank e (tailf fs) He (tailf_stop fs)) as P1.
    unfold context at 1. cbn [edges_line].
    destruct (items rd_sound e) as [es|] eqn:I1.
    - rewrite P1. unfold pmap at 1, alt. unfold pmap at 1. destruct fs as [|s fs].
      + cbn. unfold last_items. destruct (spaces e) eqn:S; [|now rewrite I1].
        now rewrite (blank_items _ _ _ sound_blank S I1).
      + cbn [forallb] in H. apply andb_true_iff in H as [Hs H].
        pose proof (@nothing_at ho_err [] (s :: fs)) as N. cbn [is_empty andb app] in N. destruct N as [y ->].
        unfold pbind at 1, preceded at 1, pbind at 1. rewrite comma_at.
        pose proof (@pipe_at ho_err _ _ _ edge_set_from_str rd_edge agree_edge edge_quiet
          (edge_blank [] eq_refl) edge_blank s (tailf fs) Hs (tailf_stop fs)) as P2.
        unfold context at 1. destruct (items rd_edge s) as [sets|] eqn:I2.
        * rewrite P2. transitivity (rmap (fun h => g (es, sets, h, false, false))
            (verbose_error_to_error (ho_hitsample_p (tailf fs)))).
          { unfold pmap. destruct (ho_hitsample_p (tailf fs)) as [? ?|e0|e0|?]; try reflexivity; cbn; now destruct (e_ctx e0). }
          rewrite ho_sample_at. destruct fs; [|reflexivity].
          unfold last_items. destruct (spaces s) eqn:S; [|now rewrite I2].
          now rewrite (blank_items _ _ _ edge_blank S I2).
        * destruct P2 as (u & l & -> & (c & w & -> & Hc) & Hu).
          unfold pmap at 1. unfold ho_hitsample_p, alt. unfold pmap at 1.
          pose proof (@nothing_at ho_err (c :: w) fs) as N.
          destruct (comma_stuck HoMissingHitSample c (w ++ tailf fs) Hc) as (e1 & E1 & E2).
          destruct fs as [|f fs]; cbn [is_empty andb] in N.
          -- unfold last_items. destruct (spaces s) eqn:S.
             ++ destruct Hu as [<- ->]. rewrite S in N. rewrite N. reflexivity.
             ++ rewrite I2. rewrite Hu in N. destruct N as [e2 ->].
                unfold pmap, preceded, pbind. change ((c :: w) ++ tailf []) with (c :: w ++ tailf []).
                rewrite E1. cbn [verbose_error_to_error]. now rewrite E2.
          -- destruct N as [e2 ->]. unfold pmap, preceded, pbind.
             change ((c :: w) ++ tailf (f :: fs)) with (c :: w ++ tailf (f :: fs)). rewrite E1.
             cbn [verbose_error_to_error]. now rewrite E2.
    - destruct P1 as (u & l & -> & (c & w & -> & Hc) & Hu).
      unfold pmap at 1. unfold alt. unfold pmap at 1.
      pose proof (@nothing_at ho_err (c :: w) fs) as N.
      destruct (comma_stuck HoMissingEdgeSet c (w ++ tailf fs) Hc) as (e1 & E1 & E2).
      destruct fs as [|s fs]; cbn [is_empty andb] in N.
      + unfold last_items. destruct (spaces e) eqn:S.
        * destruct Hu as [<- ->]. rewrite S in N. rewrite N. reflexivity.
        * rewrite I1. rewrite Hu in N. destruct N as [e2 ->].
          unfold preceded, pbind. change ((c :: w) ++ tailf []) with (c :: w ++ tailf []). rewrite E1.
          cbn. now rewrite E2.
      + destruct N as [e2 ->]. unfold preceded, pbind.
        change ((c :: w) ++ tailf (s :: fs)) with (c :: w ++ tailf (s :: fs)). rewrite E1.
        cbn [verbose_error_to_error]. rewrite E2. now destruct fs.
  Qed.
  Lemma curve_is s : curve_type_from_str s = match rd_curve s with Some c => ROk (Some c) | None => RErr tt end.
  Proof.
    unfold curve_type_from_str, rd_curve. destruct (str_eqb s (lit "B")); [reflexivity|].
    destruct (str_eqb s (lit "C")); [reflexivity|]. destruct (str_eqb s (lit "L")); [reflexivity|].
    now destruct (str_eqb s (lit "P")).
  Qed.
  Lemma curve_letter s c : rd_curve s = Some c -> exists l, s = [l] /\ In l [66; 67; 76; 80].
  Proof.
    unfold rd_curve. destruct (str_eqb s (lit "B")) eqn:E1; [apply str_eqb_eq in E1 as ->; exists 66; cbn; auto|].
    destruct (str_eqb s (lit "C")) eqn:E2; [apply str_eqb_eq in E2 as ->; exists 67; cbn; auto|].
    destruct (str_eqb s (lit "L")) eqn:E3; [apply str_eqb_eq in E3 as ->; exists 76; cbn; auto|].
    destruct (str_eqb s (lit "P")) eqn:E4; [apply str_eqb_eq in E4 as ->; exists 80; cbn; auto 6|discriminate].
  Qed.
  Lemma rmap_pmap {C A B D} (g : B -> D) (h : A -> B) (p : parser C A) s :
    rmap g (verbose_error_to_error (pmap h p s)) = rmap (fun a => g (h a)) (verbose_error_to_error (p s)).
  Proof. unfold pmap. destruct (p s) as [? ?|e|e|?]; try reflexivity; cbn; now destruct (e_ctx e). Qed.
  Lemma edges_ext {B} fs (k k' : list hit_sound -> list edge_set -> option hit_sample -> bool -> bool -> res B ho_err) :
    (forall a b c d e, k a b c d e = k' a b c d e) -> edges_line fs k = edges_line fs k'.
  Proof.
    intros H. destruct fs as [|e [|s [|f fs]]]; cbn [edges_line].
    - apply H.
    - destruct (last_items rd_sound e); [apply H|reflexivity].
    - destruct (items rd_sound e); [|reflexivity]. destruct (last_items rd_edge s); [apply H|reflexivity].
    - destruct (items rd_sound e); [|reflexivity]. destruct (items rd_edge s); [|reflexivity].
      cbn [sample_end last_field]. destruct (rd_sample _); [apply H|reflexivity|reflexivity].
  Qed.
  (** the part of a slider behind its curve *)
  Lemma slider_rest {B} (g : slide_params * option hit_sample -> B) ct cps fs : forallb no_comma fs = true ->
    rmap g (verbose_error_to_error
      (pbind (preceded (context HoMissingSlidesCount comma)
             (context HoInvalidSlidesCount (comma_field_type parse_i32))) (fun slides =>
       pbind (preceded (context HoMissingLength comma)
             (context HoInvalidLength (comma_field_type (@parse_decimal unit)))) (fun len =>
       pmap (fun '(es, sets, hs, sh1, sh2) => (mk_slide ct cps slides len es sh1 sets sh2, hs))
         ho_edges)) (tailf fs)))
    = next HoMissingSlidesCount HoInvalidSlidesCount parse_i32 fs (fun n fs =>
      next HoMissingLength HoInvalidLength rd_dec fs (fun len fs =>
      edges_line fs (fun es sets h b1 b2 => ROk (g (mk_slide ct cps n len es b1 sets b2, h))))).
  Proof.
    intros H. apply next_at; [|easy]. clear fs H. intros n fs H.
    rewrite <- (next_agree _ _ _ _ fs _ agree_dec).
    apply next_at; [|easy]. clear fs H. intros len fs H.
    rewrite rmap_pmap.
    replace (rmap _ _) with (rmap (fun x : list hit_sound * list edge_set * option hit_sample * bool * bool =>
      g (let '(es, sets, hs, sh1, sh2) := x in (mk_slide ct cps n len es sh1 sets sh2, hs)))
      (verbose_error_to_error (ho_edges (tailf fs)))) by reflexivity.
    now rewrite edges_at.
  Qed.
  Lemma slider_at {B} (g : slide_params * option hit_sample -> B) fs : forallb no_comma fs = true ->
    rmap g (verbose_error_to_error (ho_slider v (tailf fs))) = slider_line v fs (fun p h => ROk (g (p, h))).
  Proof.
    intros H. unfold ho_slider. unfold pbind at 1. unfold ho_curve, alt. unfold pmap at 1.
    unfold preceded at 1. unfold pbind at 1. rewrite comma_at.
    destruct fs as [|f fs]; [reflexivity|]. cbn [forallb] in H. apply andb_true_iff in H as [Hf H].
    cbn [slider_line].
    change (comma_field_versioned_type curve_type_from_str) with
      (@comma_field_type ho_err _ _ (fun s => v_unwrap (curve_type_from_str s))).
    rewrite first_at by easy. rewrite curve_is.
    destruct (rd_curve f) as [c|] eqn:R.
    - cbn [v_unwrap rbind unwrap]. destruct (curve_letter f c R) as (l & -> & Hl).
      replace (cut_at 124 [l]) with (@None (str * str)) by (destruct Hl as [<-|[<-|[<-|[<-|[]]]]]; reflexivity).
      rewrite R. cbn [tl]. replace (if (v =? 3)%Z then [] else []) with (@nil curve_point) by now destruct (v =? 3)%Z.
      now rewrite slider_rest.
    - cbn [v_unwrap rbind unwrap]. unfold pbind at 1. unfold preceded at 1. unfold pbind at 1. rewrite comma_at.
      pose proof (cut_spec 124 f) as Cf. unfold context at 1, map_res at 1, take_till.
      destruct (cut_at 124 f) as [[a t]|].
      + destruct Cf as [-> Ha]. rewrite no_comma_app in Hf. apply andb_true_iff in Hf as [_ Hf].
        cbn [no_comma forallb] in Hf. apply andb_true_iff in Hf as [_ Hf]. fold (no_comma t) in Hf.
        rewrite <- app_assoc. cbn [app]. rewrite take_while_app; [|exact Ha|reflexivity].
        rewrite curve_is. destruct (rd_curve a) as [c|]; [|reflexivity]. cbn [v_unwrap rbind unwrap].
        unfold pmap at 1. unfold preceded at 1. unfold pbind at 1. unfold context at 1, pchar. cbn [N.eqb Pos.eqb].
        pose proof (@pipe_at ho_err _ _ _ curve_point_from_str rd_point agree_point point_quiet
          (point_blank [] eq_refl) point_blank t (tailf fs) Hf (tailf_stop fs)) as P1.
        unfold context at 1. destruct (items rd_point t) as [ps|].
        * rewrite P1. now rewrite slider_rest.
        * destruct P1 as (u & l & -> & (x & w & -> & Hx) & _).
          destruct (comma_stuck HoMissingSlidesCount x (w ++ tailf fs) Hx) as (e1 & E1 & E2).
          unfold pbind at 1. unfold preceded at 1. unfold pbind at 1. cbn [app]. rewrite E1. cbn. now rewrite E2.
      + rewrite R. unfold take_while. rewrite (span_over _ f (tailf fs) Cf).
        destruct (span _ (tailf fs)) as [y r] eqn:Sp.
        assert (R' : rd_curve (f ++ y) = None).
        { destruct y as [|d y]; [now rewrite app_nil_r|].
          assert (d = 44) as ->.
          { destruct fs as [|h fs]; [discriminate|]. rewrite tailf_cons in Sp. cbn in Sp.
            destruct (span _ (h ++ tailf fs)). congruence. }
          destruct (rd_curve (f ++ 44 :: y)) as [c|] eqn:Q; [|reflexivity].
          destruct (curve_letter _ c Q) as (l & El & Hl). destruct f as [|z f].
          - injection El as <- _. cbn in Hl. destruct Hl as [Hl|[Hl|[Hl|[Hl|[]]]]]; discriminate.
          - injection El as _ El. destruct f; discriminate. }
        rewrite curve_is, R'. reflexivity.
  Qed.
  Lemma spinner_at {B} (g : decimal * option hit_sample -> B) fs : forallb no_comma fs = true ->
    rmap g (verbose_error_to_error (ho_spinner v (tailf fs)))
    = next HoMissingEndTime HoInvalidEndTime rd_dec fs (fun e fs =>
      andthen (shift_in v e) (fun e => sample_end fs (fun h => ROk (g (e, h))))).
  Proof.
    intros H. unfold ho_spinner. unfold pbind at 1, map_run. rewrite field_at by easy.
    destruct fs as [|f fs]; [reflexivity|]. cbn [fcase next rd_dec]. unfold parse_decimal.
    destruct (shift_in v (decimal_of_str f)) as [d|[]|p]; [|reflexivity]. cbn [andthen].
    rewrite rmap_pmap. now rewrite ho_sample_at.
  Qed.
  Lemma find_cut s : find_sub (lit ":") s = match cut_at 58 s with Some (a, b) => Some (a, 58 :: b) | None => None end.
  Proof.
    change (lit ":") with [58]. induction s as [|c s IH]; [reflexivity|]. cbn [find_sub cut_at]. unfold starts_with. cbn [strip_prefix].
    replace (c =? 58) with (58 =? c) by apply N.eqb_sym. destruct (N.eqb_spec 58 c) as [<-|_]; cbn [andb]; [reflexivity|].
    rewrite IH. now destruct (cut_at 58 s) as [[]|].
  Qed.
  Lemma hold_at {B} (g : decimal * option hit_sample -> B) fs :
    rmap g (verbose_error_to_error (ho_hold v (tailf fs)))
    = match fs with
      | [] => RErr HoMissingEndTime
      | _ => match cut_at 58 (commas fs) with
             | None => RErr HoInvalidEndTime
             | Some (a, b) =>
                 andthen (shift_in v (decimal_of_str a)) (fun e =>
                 match rd_sample b with
                 | ROk h => ROk (g (e, Some h))
                 | RErr _ => RErr HoInvalidHitSample
                 | RPanic p => RPanic p
                 end)
             end
      end.
  Proof.
    unfold ho_hold. unfold pbind at 1. unfold preceded at 1. unfold pbind at 1. rewrite comma_at.
    destruct fs as [|f fs]; [reflexivity|]. rewrite commas_tailf. unfold map_run, context at 1, map_res at 1, take_until.
    rewrite find_cut. destruct (cut_at 58 (f ++ tailf fs)) as [[a b]|]; [|reflexivity].
    unfold parse_decimal. destruct (shift_in v (decimal_of_str a)) as [d|[]|p]; [|reflexivity]. cbn [andthen].
    rewrite rmap_pmap. unfold ho_hold_hitsample, alt. unfold pmap at 1.
    destruct (@nothing_colon ho_err b) as [e E]. change (lit ":" ++ b) with (58 :: b) in E. rewrite E.
    unfold pmap, preceded, pbind, context at 1, pchar. cbn [N.eqb Pos.eqb].
    unfold context, map_res, prest, v_unwrap. rewrite hs_reads. now destruct (rd_sample b).
  Qed.
End Objects.

Lemma sample_map {B D} (g : B -> D) fs k : rmap g (sample_end fs k) = sample_end fs (fun h => rmap g (k h)).
Proof. destruct fs as [|f fs]; [reflexivity|]. cbn [sample_end last_field]. now destruct (rd_sample (commas (f :: fs))). Qed.
Lemma edges_map {B D} (g : B -> D) fs k : rmap g (edges_line fs k) = edges_line fs (fun a b c d e => rmap g (k a b c d e)).
Proof.
  destruct fs as [|e [|s [|f fs]]]; cbn [edges_line].
  - reflexivity.
  - now destruct (last_items rd_sound e).
  - destruct (items rd_sound e); [|reflexivity]. now destruct (last_items rd_edge s).
  - destruct (items rd_sound e); [|reflexivity]. destruct (items rd_edge s); [|reflexivity].
    now rewrite sample_map.
Qed.
Lemma slider_map {B D} (g : B -> D) v fs k : rmap g (slider_line v fs k) = slider_line v fs (fun p h => rmap g (k p h)).
Proof.
  destruct fs as [|f fs]; [reflexivity|]. cbn [slider_line].
  destruct (match cut_at 124 f with Some (a, t) => (a, items rd_point t) | None => (f, Some []) end) as [l ps].
  destruct (rd_curve l); [|reflexivity]. destruct ps as [ps|]; [|reflexivity].
  destruct fs as [|n fs]; [reflexivity|]. cbn [next]. destruct (parse_i32 n); [|reflexivity|reflexivity].
  destruct fs as [|m fs]; [reflexivity|]. cbn [next rd_dec]. apply edges_map.
Qed.

Lemma combo_bits ty : combo_skip_count_try_from (Z.land (Z.shiftr ty 4) 7) = ROk (Some ((ty / 16) mod 8)%Z).
Proof.
  change 7%Z with (Z.ones 3) at 1. rewrite Z.land_ones, Z.shiftr_div_pow2 by easy. change (2 ^ 4)%Z with 16%Z.
  change (2 ^ 3)%Z with 8%Z. unfold combo_skip_count_try_from. pose proof (Z.mod_pos_bound (ty / 16) 8 ltac:(easy)) as H.
  destruct (Z.ltb_spec 7 ((ty / 16) mod 8)); [lia|reflexivity].
Qed.
Lemma ho_line_reads v s fs : fields_of s fs -> ho_from_str v s = rmap Some (ho_line v fs).
Proof.
  intros (N & -> & H). destruct fs as [|x fs]; [easy|]. clear N.
  cbn [forallb] in H. apply andb_true_iff in H as [Hx H]. rewrite commas_tailf.
  unfold ho_from_str, ho_common, ho_line. unfold pbind at 1. rewrite first_at by easy. cbn [next rd_dec].
  unfold parse_decimal at 1.
  unfold pbind at 1. rewrite field_at by easy. destruct fs as [|y fs]; [reflexivity|].
  cbn [forallb] in H. apply andb_true_iff in H as [_ H]. cbn [fcase next rd_dec]. unfold parse_decimal at 1.
  unfold pbind at 1, map_run at 1. rewrite field_at by easy. destruct fs as [|t fs]; [reflexivity|].
  cbn [forallb] in H. apply andb_true_iff in H as [_ H]. cbn [fcase next rd_dec]. unfold parse_decimal at 1.
  destruct (shift_in v (decimal_of_str t)) as [d|[]|p]; [|reflexivity]. cbn [andthen].
  unfold pbind at 1. rewrite field_at by easy. destruct fs as [|ty fs]; [reflexivity|].
  cbn [forallb] in H. apply andb_true_iff in H as [_ H]. cbn [fcase next].
  destruct (parse_i32 ty) as [z|e|p]; [|reflexivity|reflexivity].
  unfold pmap at 1. change (comma_field_versioned_type hit_sound_from_str) with
    (@comma_field_type ho_err _ _ (fun s => v_unwrap (hit_sound_from_str s))).
  rewrite field_at by easy. rewrite <- (next_agree _ _ _ _ fs _ agree_sound).
  destruct fs as [|h fs]; [reflexivity|].
  cbn [forallb] in H. apply andb_true_iff in H as [_ H]. cbn [fcase next].
  destruct (v_unwrap (hit_sound_from_str h)) as [hs|e|p]; [|reflexivity|reflexivity].
  rewrite combo_bits. unfold nth_bit.
  destruct (Z.testbit z 0).
  { rewrite ho_sample_at. destruct fs as [|f fs]; [reflexivity|]. cbn [sample_end last_field].
    now destruct (rd_sample (commas (f :: fs))). }
  destruct (Z.testbit z 1).
  { rewrite slider_map. now rewrite slider_at. }
  destruct (Z.testbit z 3).
  { rewrite spinner_at by easy. destruct fs as [|f fs]; [reflexivity|]. cbn [next rd_dec].
    destruct (shift_in v (decimal_of_str f)) as [e|[]|p]; [|reflexivity]. cbn [andthen]. now rewrite sample_map. }
  destruct (Z.testbit z 7); [|reflexivity].
  rewrite hold_at. destruct fs as [|f fs]; [reflexivity|]. destruct (cut_at 58 _) as [[a b]|]; [|reflexivity].
  destruct (shift_in v (decimal_of_str a)) as [e|[]|p]; [|reflexivity]. cbn [andthen].
  now destruct (rd_sample b).
Qed.

(** errors that are never reported *)
Definition unreported (r : res (option hit_object) ho_err) : Prop :=
  forall e, r = RErr e ->
  ~ In e [HoMissingCurvePoint; HoInvalidCurvePoint; HoInvalidEdgeSound; HoInvalidEdgeSet; HoInvalidX; HoInvalidY;
          HoInvalidTime; HoInvalidLength].
Ltac unrep := let e := fresh in let H := fresh in intros e H; injection H as <-; cbn; intuition discriminate.
Lemma unrep_ok o : unreported (ROk o).
Proof. intros e. discriminate. Qed.
Lemma unrep_panic p : unreported (RPanic p).
Proof. intros e. discriminate. Qed.
Lemma unrep_sample fs (k : option hit_sample -> hit_object) : unreported (rmap Some (sample_end fs (fun h => ROk (k h)))).
Proof.
  destruct fs as [|f fs]; [apply unrep_ok|]. cbn [sample_end last_field].
  destruct (rd_sample _); [apply unrep_ok|unrep|apply unrep_panic].
Qed.
Lemma unrep_edges fs (k : list hit_sound -> list edge_set -> option hit_sample -> bool -> bool -> hit_object) :
  unreported (rmap Some (edges_line fs (fun a b c d e => ROk (k a b c d e)))).
Proof.
  destruct fs as [|e [|s [|f fs]]]; cbn [edges_line].
  - apply unrep_ok.
  - destruct (last_items rd_sound e); [apply unrep_ok|unrep].
  - destruct (items rd_sound e); [|unrep]. destruct (last_items rd_edge s); [apply unrep_ok|unrep].
  - destruct (items rd_sound e); [|unrep]. destruct (items rd_edge s); [|unrep]. apply (unrep_sample (f :: fs)).
Qed.
Lemma ho_never v s e : ho_from_str v s = RErr e ->
  ~ In e [HoMissingCurvePoint; HoInvalidCurvePoint; HoInvalidEdgeSound; HoInvalidEdgeSet; HoInvalidX; HoInvalidY;
          HoInvalidTime; HoInvalidLength].
Proof.
  revert e. change (unreported (ho_from_str v s)). rewrite (ho_line_reads v s _ (pieces_fields s)).
  destruct (pieces_spec 44 s) as (x & fs & -> & _).
  unfold ho_line. cbn [next rd_dec]. destruct fs as [|y fs]; [unrep|]. cbn [next rd_dec].
  destruct fs as [|t fs]; [unrep|]. cbn [next rd_dec].
  destruct (shift_in v (decimal_of_str t)) as [d|[]|p]; [|apply unrep_panic]. cbn [andthen].
  destruct fs as [|ty fs]; [unrep|]. cbn [next]. destruct (parse_i32 ty) as [z| |p]; [|unrep|apply unrep_panic].
  destruct fs as [|h fs]; [unrep|]. cbn [next]. destruct (rd_sound h) as [hs| |p]; [|unrep|apply unrep_panic].
  destruct (Z.testbit z 0); [apply unrep_sample|].
  destruct (Z.testbit z 1).
  { destruct fs as [|f fs]; [unrep|]. cbn [slider_line].
    destruct (match cut_at 124 f with Some (a, t) => (a, items rd_point t) | None => (f, Some []) end) as [l ps].
    destruct (rd_curve l); [|unrep]. destruct ps as [ps|]; [|unrep].
    destruct fs as [|n fs]; [unrep|]. cbn [next]. destruct (parse_i32 n); [|unrep|apply unrep_panic].
    destruct fs as [|m fs]; [unrep|]. cbn [next rd_dec]. apply unrep_edges. }
  destruct (Z.testbit z 3).
  { destruct fs as [|f fs]; [unrep|]. cbn [next rd_dec].
    destruct (shift_in v (decimal_of_str f)) as [e|[]|p]; [|apply unrep_panic]. cbn [andthen]. apply unrep_sample. }
  destruct (Z.testbit z 7); [|unrep].
  destruct fs as [|f fs]; [unrep|]. destruct (cut_at 58 _) as [[a b]|]; [|unrep].
  destruct (shift_in v (decimal_of_str a)) as [e|[]|p]; [|apply unrep_panic]. cbn [andthen].
  destruct (rd_sample b); [apply unrep_ok|unrep|apply unrep_panic].
Qed.
