(** The lines of the [Events] section, printed and read back. *)
From Coq Require Import String List NArith ZArith Bool Lia.
From Verif Require Import Str Num Nom Dec Parsers Unicode Storyboard NormalEvents Events
  Spec SpecWf SpecText SpecTypes SpecCmd SpecEvents
  StrFacts NumFacts NomFacts DecFacts FieldFacts LineFacts LayoutFacts TpFacts CmdFacts CmdRound CmdTree EvFacts EvRound.
Import ListNotations.
Local Open Scope N_scope.

Lemma forallb_map {A B} (f : A -> B) (p : B -> bool) l : forallb p (map f l) = forallb (fun x => p (f x)) l.
Proof. induction l; cbn; congruence. Qed.

(** ** lines of fields *)
Definition clean (s : str) : bool := forallb (fun c => negb (c =? 10) && negb (c =? 13)) s.
Lemma clean_app a b : clean (a ++ b) = clean a && clean b.
Proof. apply forallb_app. Qed.
Lemma clean_no_nl s : clean s = true -> no_nl s = true.
Proof. apply forallb_impl. intros c H. now apply andb_true_iff in H. Qed.
Lemma no_cr_end_app a b : b <> [] -> no_cr_end (a ++ b) = no_cr_end b.
Proof.
  intros H. destruct b as [|x b] using rev_ind; [easy|]. unfold no_cr_end. now rewrite app_assoc, !ends_with_char_snoc.
Qed.
Lemma clean_no_cr s : clean s = true -> no_cr_end s = true.
Proof.
  destruct s as [|x s] using rev_ind; [easy|]. rewrite clean_app, andb_true_iff. intros [_ H]. cbn in H.
  unfold no_cr_end. rewrite ends_with_char_snoc. destruct (x =? 10), (x =? 13); easy.
Qed.
Definition plain_fields (fs : list str) : bool := forallb no_nl fs && no_cr_end (last fs []).
Lemma plain_commas fs : plain_fields fs = true -> plain_line (commas fs) = true.
Proof.
  unfold plain_fields, plain_line. destruct fs as [|h fs]; [easy|]. intros H.
  apply andb_true_iff in H as [Hn Hl]. change (negb (ends_with_char 13 ?s)) with (no_cr_end s).
  rewrite commas_tailf. revert h Hn Hl. induction fs as [|f fs IH]; intros h Hn Hl.
  - cbn in *. rewrite app_nil_r. now rewrite andb_true_r in Hn; rewrite Hn, Hl.
  - cbn [forallb] in Hn. rewrite !andb_true_iff in Hn. destruct Hn as [Hh [Hf Hn]].
    assert (K : no_nl (f ++ tailf fs) && no_cr_end (f ++ tailf fs) = true).
    { apply IH; [cbn; now rewrite Hf, Hn|exact Hl]. }
    apply andb_true_iff in K as [K1 K2]. rewrite tailf_cons, no_nl_app, Hh.
    change (no_nl (44 :: f ++ tailf fs)) with (no_nl (f ++ tailf fs)). rewrite K1. cbn [andb].
    rewrite no_cr_end_app by easy. destruct (f ++ tailf fs) as [|c t] eqn:E; [easy|].
    change (44 :: c :: t) with ([44] ++ c :: t). now rewrite no_cr_end_app.
Qed.
Lemma plain_fields_app a b : b <> [] -> forallb no_nl a = true -> plain_fields b = true -> plain_fields (a ++ b) = true.
Proof.
  unfold plain_fields. intros Hb Ha H. apply andb_true_iff in H as [H1 H2]. rewrite forallb_app, Ha, H1. cbn.
  clear - Hb H2. induction a as [|x a IH]; [easy|]. cbn [app last]. destruct (a ++ b) eqn:E; [|exact IH].
  destruct a; [|easy]. cbn in E. now subst.
Qed.
Lemma plain_clean fs : forallb clean fs = true -> plain_fields fs = true.
Proof.
  intros H. unfold plain_fields. apply andb_true_iff. split.
  - eapply forallb_impl; [|exact H]. apply clean_no_nl.
  - destruct fs as [|x fs] using rev_ind; [easy|]. rewrite last_last. rewrite forallb_app in H.
    apply andb_true_iff in H as [_ H]. cbn in H. rewrite andb_true_r in H. now apply clean_no_cr.
Qed.
Lemma num_char_clean c : num_char c = true -> negb (c =? 10) && negb (c =? 13) = true.
Proof.
  intros H. apply andb_true_iff. split; apply negb_true_iff, N.eqb_neq; intros K; subst c; easy.
Qed.
Lemma clean_Z z : clean (print_Z z) = true.
Proof. eapply forallb_impl; [|apply print_Z_chars]. apply num_char_clean. Qed.
Lemma clean_time o : clean (time_field o) = true.
Proof. destruct o; [apply clean_Z|easy]. Qed.
Lemma clean_rdec d : clean (print_rdec d) = true.
Proof.
  eapply forallb_impl; [|apply print_rdec_chars]. unfold dec_char. intros c H.
  apply andb_true_iff. split; apply negb_true_iff, N.eqb_neq; intros K; subst c; easy.
Qed.
Lemma dec_no_nl_text d : dec_no_nl d = true -> no_nl (print_decimal d) = true.
Proof. destruct d as [d|s]; [|easy]. intros _. apply clean_no_nl, clean_rdec. Qed.
Lemma dec_lines_plain l : dec_lines l = true -> plain_fields (map print_decimal l) = true.
Proof.
  unfold dec_lines, plain_fields. rewrite andb_true_iff. intros [H1 H2]. apply andb_true_iff. split.
  - rewrite forallb_map. eapply forallb_impl; [|exact H1]. apply dec_no_nl_text.
  - destruct l as [|x l] using rev_ind; [easy|]. rewrite map_app. cbn [map]. rewrite last_last. now rewrite rev_app_distr in H2.
Qed.
Lemma pair_fields_decs l : concat (map pair_fields l) = map print_decimal (concat (map pair_decs l)).
Proof.
  induction l as [|[x y] l IH]; [easy|]. cbn [map concat]. rewrite map_app, IH. f_equal. now destruct y.
Qed.
Lemma trigger_clean t : clean (trigger_type_to_string t) = true.
Proof.
  destruct t as [ss ass ad n| |]; try easy. cbn [trigger_type_to_string]. rewrite !clean_app.
  destruct ss as [[]|], ass as [[]|], ad as [[]|], n; cbn [opt_str]; rewrite ?clean_Z; reflexivity.
Qed.
Lemma optional_end_clean l : forallb clean (optional_end l) = true.
Proof.
  induction l as [|o l IH]; [easy|]. cbn [optional_end]. destruct o; [cbn [forallb]; now rewrite clean_time|].
  destruct (optional_end l); [easy|]. exact IH.
Qed.
Lemma rgbs_clean l : forallb clean (concat (map rgb_fields l)) = true.
Proof.
  induction l as [|[[r g] b] l IH]; [easy|]. cbn [map concat]. rewrite forallb_app, IH, andb_true_r.
  unfold rgb_fields. destruct g, b; cbn; now rewrite !clean_Z.
Qed.
Lemma cmd_fields_plain ez c : cmd_one_line c = true -> plain_fields (cmd_fields ez c) = true.
Proof.
  assert (T : forall h et st, clean h = true -> forallb no_nl (h :: [print_Z ez; time_field st; time_field et]) = true).
  { intros h et st H. cbn. now rewrite (clean_no_nl h), (clean_no_nl (print_Z ez)), !(clean_no_nl (time_field _)) by
      (apply clean_time || apply clean_Z || easy). }
  assert (One : forall h et st l, clean h = true -> l <> [] -> dec_lines l = true ->
     plain_fields (h :: [print_Z ez; time_field st; time_field et] ++ map print_decimal l) = true).
  { intros h et st l Hh Hl H. apply (plain_fields_app (h :: [_; _; _])); [now destruct l|now apply T|now apply dec_lines_plain]. }
  assert (Two : forall h et st x, clean h = true ->
     dec_lines (fst (ct_start x) :: snd (ct_start x) :: concat (map pair_decs (ct_rest x))) = true ->
     plain_fields (h :: [print_Z ez; time_field st; time_field et]
       ++ [print_decimal (fst (ct_start x)); print_decimal (snd (ct_start x))] ++ concat (map pair_fields (ct_rest x))) = true).
  { intros h et st x Hh H. rewrite pair_fields_decs.
    change ([print_decimal (fst (ct_start x)); print_decimal (snd (ct_start x))] ++ map print_decimal (concat (map pair_decs (ct_rest x))))
      with (map print_decimal (fst (ct_start x) :: snd (ct_start x) :: concat (map pair_decs (ct_rest x)))).
    now apply One. }
  unfold cmd_one_line, cmd_fields.
  destruct c as [st [e et s l|e et x|e et s l|e et s l|e et s l|e et x|e et s l|e et x|e et p l|n cs|t et g cs]];
    cbn [cmd_props cmd_start]; intros H; try (now apply One); try (now apply Two).
  - destruct (sbc_start x) as [[r g] b]. apply plain_clean. cbn [forallb app]. rewrite rgbs_clean, !clean_Z, !clean_time. easy.
  - apply plain_clean. cbn [forallb app]. rewrite clean_Z, !clean_time. cbn. rewrite forallb_map. apply andb_true_iff.
    split; [now destruct p|]. apply forallb_forall. intros [] _; easy.
  - apply plain_clean. cbn. now rewrite clean_time, clean_Z.
  - apply plain_clean. cbn [forallb]. now rewrite trigger_clean, optional_end_clean.
Qed.

(** ** a command line *)
Definition line_reads (vars : list variable) (d : nat) (c : command) (l : str) : Prop :=
  good_line l = true /\ strip_prefix (lit "//") l = None /\ indent_of l = d /\ cmd_parse vars l = ROk (Some c).
Lemma indent_spaces d h t : is_indent h = false -> indent_of (repeat 32 d ++ h :: t) = d.
Proof.
  intros H. unfold indent_of. rewrite span_app.
  - apply repeat_length.
  - now induction d.
  - cbn [span]. now rewrite H.
Qed.
Lemma slice_ascii a b : forallb (fun c => c <? 128) a = true -> slice_from_byte (length a) (a ++ b) = Some b.
Proof.
  induction a as [|x a IH]; intros H; [now destruct b|]. cbn [forallb] in H. apply andb_true_iff in H as [H1 H].
  cbn [length app slice_from_byte]. unfold utf8_width. rewrite H1. cbn. rewrite Nat.sub_0_r. now apply IH.
Qed.
Lemma position_app f a b c : forallb (fun x => negb (f x)) a = true -> f c = true ->
  position f (a ++ c :: b) = Some (length a).
Proof.
  intros H Hc. induction a as [|x a IH]; cbn; [now rewrite Hc|]. cbn in H. apply andb_true_iff in H as [H1 H].
  apply negb_true_iff in H1. rewrite H1, IH by easy. easy.
Qed.
Lemma header_slice a b : forallb (fun x => (x <? 128) && negb (x =? 44)) a = true ->
  line_without_header (a ++ 44 :: b) = ROk b.
Proof.
  intros H. unfold line_without_header. rewrite position_app.
  - replace (S (length a)) with (length (a ++ [44])) by (rewrite app_length; cbn; lia).
    change (a ++ 44 :: b) with (a ++ [44] ++ b). rewrite app_assoc, slice_ascii; [easy|].
    rewrite forallb_app. cbn. rewrite andb_true_r. eapply forallb_impl; [|exact H]. intros x Hx. now apply andb_true_iff in Hx.
  - eapply forallb_impl; [|exact H]. intros x Hx. now apply andb_true_iff in Hx.
  - easy.
Qed.
(** the letters in front of the first comma *)
Lemma cmd_header c : exists h t, cmd_to_string [] c = h ++ 44 :: t
  /\ forallb (fun x => (x <? 128) && negb (x =? 44)) h = true /\ h <> [] /\ forallb (fun x => negb (is_indent x) && negb (is_ws x)) h = true.
Proof.
  rewrite cmd_print. unfold cmd_fields.
  destruct c as [st [e et s l|e et x|e et s l|e et s l|e et s l|e et x|e et s l|e et x|e et p l|n cs|t et g cs]];
    cbn [cmd_props cmd_start]; try (destruct (sbc_start x) as [[r g] b]); rewrite commas_tailf; cbn [app]; rewrite tailf_cons;
    (eexists; eexists; split; [reflexivity|]); repeat split; easy.
Qed.
Lemma cmd_line_reads d c : (1 <= d)%nat -> cmd_ok c = true -> cmd_one_line c = true ->
  line_reads [] d (bare c) (repeat 32 d ++ cmd_to_string [] c).
Proof.
  intros Hd Hc Hl. destruct (cmd_header c) as (h & t & E & Hh & Hn & Hi).
  assert (P : plain_line (cmd_to_string [] c) = true). { rewrite cmd_print. now apply plain_commas, cmd_fields_plain. }
  repeat split.
  - unfold good_line. apply andb_true_iff. split.
    + unfold plain_line in *. apply andb_true_iff in P as [P1 P2]. rewrite no_nl_app, P1.
      change (negb (ends_with_char 13 ?s)) with (no_cr_end s) in *. rewrite no_cr_end_app, P2.
      * rewrite !andb_true_r. clear. now induction d.
      * rewrite E. now destruct h.
    + rewrite E. rewrite is_blank_forallb, !forallb_app. cbn. now rewrite !andb_false_r.
  - destruct d; [lia|]. reflexivity.
  - rewrite E. destruct h as [|x h]; [easy|]. cbn [forallb] in Hi. apply andb_true_iff in Hi as [Hi _].
    apply andb_true_iff in Hi as [Hi _]. apply negb_true_iff in Hi. cbn [app]. now apply indent_spaces.
  - unfold cmd_parse. rewrite E, app_assoc, header_slice.
    + cbn [rbind expand_vars]. rewrite <- app_assoc, <- E. apply cmd_round; [easy|]. clear. induction d; easy.
    + rewrite forallb_app, Hh, andb_true_r. clear. now induction d.
Qed.

(** ** the loop *)
Lemma set_cmds_twice a b e : ev_set_cmds a (ev_set_cmds b e) = ev_set_cmds a e.
Proof. now destruct e. Qed.
Lemma cmds_set_cmds a e cs : ev_cmds e = Some cs -> ev_cmds (ev_set_cmds a e) = Some a.
Proof. now destruct e. Qed.
Lemma set_cmds_same e : ev_set_cmds (commands_of e) e = e.
Proof. destruct e as [| [] | [] | | | [] | [] | [] | [] |]; reflexivity. Qed.
Lemma good_not_blank l : good_line l = true -> is_blank l = false.
Proof. unfold good_line. rewrite andb_true_iff. intros [_ H]. now apply negb_true_iff in H. Qed.
Lemma loop_commands dbg v vars rest xs ls : Forall2 (fun x l => line_reads vars (fst x) (snd x) l) xs ls ->
  Forall (fun x => 1 <= fst x)%nat xs ->
  forall i evs e cs cs', ev_cmds e = Some cs -> push_all cs xs = ROk cs' ->
  ev_loop dbg v vars i (evs ++ [e]) (ls ++ rest)
  = ev_loop dbg v vars (i + Z.of_nat (length ls)) (evs ++ [ev_set_cmds cs' e]) rest.
Proof.
  intros H Hd. induction H as [|[d c] l xs ls Hl H IH]; intros i evs e cs cs' He Hp.
  - cbn in Hp. injection Hp as <-. cbn [app length]. rewrite Z.add_0_r.
    replace (ev_set_cmds cs e) with e; [easy|]. destruct e as [| [] | [] | | | [] | [] | [] | [] |]; try easy;
      cbn in He; injection He as <-; reflexivity.
  - rewrite push_all_cons in Hp. cbn [fst snd] in *.
    destruct (try_push_cmd cs c d) as [cs1| |] eqn:E; try easy. cbn [rbind] in Hp.
    destruct Hl as (Hg & Hs & Hi & Hc). inversion Hd as [|? ? Hd1 Hd2]; subst. cbn [fst] in Hd1.
    cbn [app ev_loop]. rewrite good_not_blank by easy. unfold ev_step. rewrite Hs.
    destruct (Nat.ltb_spec 0 (indent_of l)) as [_|]; [|lia]. rewrite last_opt_snoc, He, Hc. cbn [rmap_err rbind].
    rewrite E. cbn [rmap_err rmap]. rewrite set_last_snoc.
    rewrite (IH Hd2 (i + 1)%Z evs (ev_set_cmds cs1 e) cs1 cs') by (easy || now apply cmds_set_cmds with (cs := cs)).
    rewrite set_cmds_twice. f_equal. cbn [length]. lia.
Qed.
Lemma position_plain a f p : forallb no_nl a = true -> path_end_ok f (is_absent p) = true ->
  opt_position_ok p = true -> plain_fields (a ++ f :: opt_position p) = true.
Proof.
  intros Ha Hf Hp. apply path_end in Hf as [Hf1 Hf2]. pose proof (path_no_nl _ Hf1) as Hn.
  apply plain_fields_app; [easy|easy|]. unfold plain_fields.
  destruct p as [[x y]|]; cbn [opt_position is_absent opt_position_ok pos_x pos_y] in *.
  - rewrite !andb_true_iff in Hp. destruct Hp as [[[_ Hx] Hy] Hc]. unfold dec_line in *.
    apply andb_true_iff in Hx as [_ Hx], Hy as [_ Hy]. cbn. now rewrite Hn, !dec_no_nl_text, Hc.
  - cbn. now rewrite Hn, Hf2.
Qed.
Lemma nl_Z z : no_nl (print_Z z) = true.
Proof. apply clean_no_nl, clean_Z. Qed.
Lemma own_plain v e : own_ok v e = true -> plain_line (own_text v e) = true.
Proof.
  intros H. destruct e; cbn [own_text own_fields own_ok] in *; rewrite ?andb_true_iff in H.
  - unfold one_line in H. apply andb_true_iff in H as [H1 H2]. unfold plain_line.
    change (negb (ends_with_char 13 ?s)) with (no_cr_end s). change (lit "//" ++ s) with ([47] ++ [47] ++ s).
    rewrite !no_nl_app, H1. cbn [no_nl forallb andb]. rewrite no_cr_end_app by easy.
    destruct s; [easy|]. now rewrite no_cr_end_app.
  - destruct H as [[_ Hf] Hp]. apply plain_commas, (position_plain [_; _]); [|easy|easy]. cbn. now rewrite nl_Z.
  - destruct H as [[_ Hf] Hp]. apply plain_commas, (position_plain [_; _]); [|easy|easy]. cbn.
    rewrite nl_Z. now destruct (vi_short x).
  - apply plain_commas, plain_clean. cbn. rewrite !clean_Z. now destruct (br_short x).
  - apply plain_commas, plain_clean. cbn. now rewrite !clean_Z.
  - destruct H as [Hf Hp]. apply plain_commas, (position_plain [_; _; _]); [|easy|easy]. cbn. now rewrite !nl_Z.
  - destruct H as [Hf Hp]. apply plain_commas, (position_plain [_; _; _]); [|easy|easy]. cbn. now rewrite !nl_Z.
  - destruct H as [[Ht Hf] Hv]. apply plain_commas. apply path_end in Hf as [Hf1 Hf2]. pose proof (path_no_nl _ Hf1) as Hn.
    unfold obj_dec in Ht. apply andb_true_iff in Ht as [_ Ht].
    apply (plain_fields_app [_; _; _]); [easy|cbn; now rewrite nl_Z, dec_no_nl_text|].
    unfold plain_fields. destruct (sl_volume x); cbn; rewrite Hn; [|now rewrite Hf2].
    rewrite nl_Z. cbn. apply clean_no_cr, clean_Z.
  - unfold object_ok in H. rewrite !andb_true_iff in H. destruct H as [[[Ho Hx] Hy] Ht]. unfold obj_dec in *.
    apply andb_true_iff in Hx as [_ Hx], Hy as [_ Hy].
    assert (L : no_nl (sb_layer_to_string (ob_layer x)) = true) by (now destruct (ob_layer x)).
    assert (O : no_nl (origin_to_string (ob_origin x)) = true).
    { unfold origin_to_string. destruct (or_type (ob_origin x)) as [t|z]; [|apply nl_Z].
      destruct (or_short (ob_origin x)); [apply nl_Z|now destruct t]. }
    apply plain_commas. unfold object_fields. destruct (ob_type x) as [f|n d l f]; rewrite ?andb_true_iff in Ht.
    + destruct Ht as [Hf Hc]. pose proof (path_no_nl _ Hf) as Hn.
      apply (plain_fields_app [_; _; _; _; _]); [easy| |].
      * cbn. now rewrite L, O, Hn, dec_no_nl_text.
      * unfold plain_fields. cbn. now rewrite dec_no_nl_text.
    + destruct Ht as [[Hf Hd] Hc]. pose proof (path_no_nl _ Hf) as Hn. cbn [app].
      apply (plain_fields_app [_; _; _; _; _; _]); [easy| |].
      * cbn. now rewrite L, O, Hn, !dec_no_nl_text.
      * apply plain_clean. cbn. rewrite clean_Z, clean_rdec. now destruct l.
  - destruct H as [[_ Hf] _]. pose proof (path_no_nl _ Hf) as Hn. apply plain_commas.
    apply (plain_fields_app [_; _; _; _]); [easy| |apply plain_clean; cbn; now rewrite clean_Z].
    cbn. now rewrite !nl_Z, Hn.
Qed.
(** the first letter of an event line *)
Lemma own_head v e : (forall c, e <> EComment c) ->
  exists h t, own_text v e = h :: t /\ In h [48; 49; 50; 51; 52; 53; 54; 66; 86; 83; 65].
Proof.
  intros Hc. destruct e; cbn [own_text own_fields app]; [now destruct (Hc s)|..];
    try (destruct (vi_short x)); try (destruct (br_short x)); try (destruct (ob_type x)); rewrite commas_tailf;
    (eexists; eexists; split; [reflexivity|cbn; auto 20]).
Qed.
Lemma own_good v e : own_ok v e = true -> good_line (own_text v e) = true.
Proof.
  intros H. unfold good_line. rewrite own_plain by easy. cbn [andb].
  assert (D : (exists c, e = EComment c) \/ (forall c, e <> EComment c)) by (destruct e; (now right) || (left; eauto)).
  destruct D as [[c ->]|D]; [now rewrite is_blank_forallb|].
  destruct (own_head v e D) as (h & t & -> & Hh). rewrite is_blank_forallb. cbn [forallb].
  assert (W : is_ws h = false) by (cbn [In] in Hh; repeat destruct Hh as [Hh|Hh]; subst; easy). now rewrite W.
Qed.
Lemma own_step dbg v vars evs e : own_ok v e = true ->
  ev_step dbg v vars evs (own_text v e) = ROk (evs ++ [ev_set_cmds [] e]).
Proof.
  intros H. unfold ev_step.
  assert (D : (exists c, e = EComment c) \/ (forall c, e <> EComment c)) by (destruct e; (now right) || (left; eauto)).
  destruct D as [[c ->]|D]; [reflexivity|]. pose proof (own_parse dbg v e H D) as P.
  destruct (own_head v e D) as (h & t & E & Hh). rewrite E in *.
  assert (W : strip_prefix (lit "//") (h :: t) = None /\ indent_of (h :: t) = 0%nat)
    by (cbn [In] in Hh; repeat destruct Hh as [Hh|Hh]; subst; easy).
  destruct W as [-> ->]. cbn. now rewrite P.
Qed.
(** the lines of an event *)
Definition texts (v : version) (e : event) : list str := own_text v e :: map (walk_line []) (preorders 1 (commands_of e)).
Lemma walk_forall (P : nat * command -> Prop) c : forall d, (1 <= d)%nat -> tree_ok c = true ->
  (forall d k, (1 <= d)%nat -> cmd_ok k = true -> cmd_one_line k = true -> P (d, bare k)) -> Forall P (preorder d c).
Proof.
  induction c as [c IH] using command_tree_ind. intros d Hd Ht HP. rewrite preorder_eq.
  assert (T : cmd_ok c = true /\ cmd_one_line c = true /\ forallb tree_ok (body c) = true).
  { destruct c as [s p]. destruct p; cbn [tree_ok] in Ht; rewrite !andb_true_iff in Ht; destruct Ht as [[H1 H2] H3]; easy. }
  destruct T as (T1 & T2 & T3). constructor; [now apply HP|]. unfold preorders.
  induction (body c) as [|k l IHl]; [constructor|]. cbn [map concat]. inversion IH as [|? ? K1 K2]; subst.
  cbn [forallb] in T3. apply andb_true_iff in T3 as [T3 T4]. apply Forall_app. split.
  - apply K1; [lia|easy|easy].
  - now apply IHl.
Qed.
Lemma walks_forall (P : nat * command -> Prop) cs : forallb tree_ok cs = true ->
  (forall d k, (1 <= d)%nat -> cmd_ok k = true -> cmd_one_line k = true -> P (d, bare k)) -> Forall P (preorders 1 cs).
Proof.
  intros H HP. unfold preorders. induction cs as [|c cs IH]; [constructor|]. cbn [forallb] in H.
  apply andb_true_iff in H as [H1 H2]. cbn [map concat]. apply Forall_app. split; [now apply walk_forall|now apply IH].
Qed.
Lemma Forall2_map_r {A B} (f : A -> B) (R : A -> B -> Prop) l : Forall (fun x => R x (f x)) l -> Forall2 R l (map f l).
Proof. induction 1; cbn; constructor; easy. Qed.
Lemma bare_bare c : bare (bare c) = bare c.
Proof. apply set_subs_twice. Qed.
Lemma walk_reads cs : forallb tree_ok cs = true ->
  Forall2 (fun x l => line_reads [] (fst x) (snd x) l) (preorders 1 cs) (map (walk_line []) (preorders 1 cs)).
Proof.
  intros H. apply Forall2_map_r. apply walks_forall; [easy|]. intros d k Hd H1 H2. unfold walk_line. cbn [fst snd].
  rewrite bare_text. now apply cmd_line_reads.
Qed.
Lemma event_loop dbg v i evs e rest : event_ok v e = true ->
  ev_loop dbg v [] i evs (texts v e ++ rest) = ev_loop dbg v [] (i + Z.of_nat (length (texts v e))) (evs ++ [e]) rest.
Proof.
  unfold event_ok. rewrite andb_true_iff. intros [Ho Hc]. unfold texts. cbn [app ev_loop].
  rewrite good_not_blank by now apply own_good. rewrite own_step by easy.
  destruct (ev_cmds e) as [cs|] eqn:E.
  - erewrite loop_commands with (cs := []) (cs' := commands_of e).
    + rewrite set_cmds_twice, set_cmds_same. f_equal. cbn [length]. lia.
    + now apply walk_reads.
    + apply walks_forall; [easy|]. intros; easy.
    + now apply cmds_set_cmds with (cs := cs).
    + apply rebuild_forest.
  - replace (ev_set_cmds [] e) with e by now destruct e. replace (commands_of e) with (@nil command) by now destruct e.
    cbn [preorders map concat app length]. f_equal.
Qed.
Lemma texts_good v e : event_ok v e = true -> forallb good_line (texts v e) = true.
Proof.
  unfold event_ok. rewrite andb_true_iff. intros [Ho Hc]. unfold texts. cbn [forallb]. rewrite own_good by easy. cbn [andb].
  pose proof (walk_reads _ Hc) as H. induction H as [|x l xs ls (Hl & _) H IH]; [easy|]. cbn. now rewrite Hl.
Qed.
Definition all_texts (v : version) (l : list event) : list str := concat (map (texts v) l).
Lemma all_texts_good v l : forallb (event_ok v) l = true -> forallb good_line (all_texts v l) = true.
Proof.
  unfold all_texts. induction l as [|e l IH]; [easy|]. cbn [forallb map concat]. rewrite andb_true_iff. intros [H1 H2].
  now rewrite forallb_app, texts_good, IH.
Qed.
Lemma events_loop dbg v l : forallb (event_ok v) l = true -> forall i evs,
  ev_loop dbg v [] i evs (all_texts v l) = ROk (evs ++ l).
Proof.
  unfold all_texts. induction l as [|e l IH]; intros H i evs; cbn [map concat].
  - cbn. now rewrite app_nil_r.
  - cbn [forallb] in H. apply andb_true_iff in H as [H1 H2]. rewrite event_loop, IH by easy. now rewrite <- app_assoc.
Qed.

(** ** printing *)
Lemma join_nl_cons a l : join [10] (a :: l) = a ++ match l with [] => [] | _ => 10 :: join [10] l end.
Proof. destruct l; [cbn; now rewrite app_nil_r|easy]. Qed.
Lemma walk_join_nonempty vars xs : xs <> [] -> Forall (fun x => 1 <= fst x)%nat xs -> join [10] (map (walk_line vars) xs) <> [].
Proof.
  destruct xs as [|[d c] xs]; [easy|]. intros _ H. inversion H; subst. cbn [fst] in *. destruct d; [lia|].
  cbn [map]. rewrite join_nl_cons. discriminate.
Qed.
Lemma preorders_levels d cs : Forall (fun x => d <= fst x)%nat (preorders d cs).
Proof.
  assert (P : forall c d, Forall (fun x => d <= fst x)%nat (preorder d c)).
  { induction c as [c IH] using command_tree_ind. intros d'. rewrite preorder_eq. constructor; [easy|].
    unfold preorders. induction (body c) as [|k l IHl]; [constructor|]. inversion IH; subst. cbn [map concat].
    apply Forall_app. split; [|now apply IHl]. eapply Forall_impl; [|apply (H1 (S d'))]. cbn. lia. }
  unfold preorders. induction cs; [constructor|]. cbn [map concat]. apply Forall_app. auto.
Qed.
Lemma with_cmds_text vars s cs :
  with_cmds vars s cs = ROk (Some (join [10] (s :: map (walk_line vars) (preorders 1 cs)))).
Proof.
  unfold with_cmds. rewrite commands_walk. cbn [rmap]. rewrite join_nl_cons.
  destruct (preorders 1 cs) as [|x xs] eqn:E; [reflexivity|].
  assert (K : join [10] (map (walk_line vars) (x :: xs)) <> []).
  { apply walk_join_nonempty; [easy|]. rewrite <- E. apply preorders_levels. }
  destruct (map (walk_line vars) (x :: xs)) as [|y ys] eqn:E2; [easy|]. destruct (join [10] (y :: ys)); easy.
Qed.
(** An event prints its own line and then its commands. *)
Lemma ev_print dbg v vars e s : ev_own dbg v e = ROk (Some s) ->
  ev_to_string dbg v vars e
  = ROk (Some (join [10] (s :: map (walk_line (match e with EBackground _ | EVideo _ => [] | _ => vars end))
                                   (preorders 1 (commands_of e))))).
Proof.
  destruct e; cbn [ev_own ev_to_string commands_of]; intros H; try (injection H as <-); rewrite ?with_cmds_text; try reflexivity.
  - destruct (vid_to_string_cmd dbg v x); [|easy|easy]. cbn in H. injection H as <-. cbn [rbind]. apply with_cmds_text.
  - rewrite H. reflexivity.
  - rewrite H. reflexivity.
Qed.
Lemma join_app2 a b : a <> [] -> b <> [] -> join [10] (a ++ b) = join [10] a ++ 10 :: join [10] b.
Proof.
  intros Ha Hb. induction a as [|x a IH]; [easy|]. destruct a as [|y a].
  - cbn [app]. rewrite join_nl_cons. destruct b; [easy|]. cbn [join]. easy.
  - cbn [app] in *. rewrite join_nl_cons, (join_nl_cons x (y :: a)), IH by easy. now rewrite <- app_assoc.
Qed.
Lemma join_concat ls : (forall l, In l ls -> l <> []) -> join [10] (map (join [10]) ls) = join [10] (concat ls).
Proof.
  induction ls as [|l ls IH]; intros H; [easy|]. cbn [map concat]. rewrite join_nl_cons, IH by (intros; apply H; now right).
  destruct ls as [|m ls]; [cbn; now rewrite !app_nil_r|]. cbn [map]. rewrite join_app2; [easy|apply H; now left|].
  cbn [concat]. destruct m; [|easy]. now destruct (H []); [right; left|].
Qed.
Lemma flatten_some {A} (l : list A) : flatten_opt (map Some l) = l.
Proof. induction l as [|x l IH]; [easy|]. unfold flatten_opt in *. cbn [map flat_map app]. now rewrite IH. Qed.
Lemma events_print dbg v l : forallb (own_ok v) l = true ->
  events_to_string dbg l v = ROk (Some (join [10] (all_texts v l))).
Proof.
  intros H. unfold events_to_string, events_to_string_vars.
  rewrite (run_list_map_ok _ (fun e => Some (join [10] (texts v e)))).
  - cbn [rmap]. unfold map_string_new_line. rewrite <- (map_map (fun e => join [10] (texts v e)) Some), flatten_some.
    rewrite <- map_map, join_concat; [easy|]. intros t Ht. apply in_map_iff in Ht as (e & <- & _). easy.
  - intros e He. rewrite forallb_forall in H. apply H in He.
    rewrite (ev_print dbg v [] e (own_text v e)) by now apply own_print. unfold texts. now destruct e.
Qed.
Lemma events_round_trip dbg v l : forallb (event_ok v) l = true ->
  exists t, events_to_string dbg l v = ROk (Some t) /\ events_from_str dbg t v = ROk (Some l).
Proof.
  intros H. exists (join [10] (all_texts v l)). split.
  - apply events_print. eapply forallb_impl; [|exact H]. intros e He. unfold event_ok in He. now apply andb_true_iff in He.
  - unfold events_from_str, events_from_str_vars. rewrite good_lines_join by now apply all_texts_good.
    now rewrite events_loop.
Qed.
(** ** the text of the format *)
Lemma texts_iff v e ls : own_ok v e = true -> (event_lines v e ls <-> ls = texts v e).
Proof.
  intros H. split.
  - intros K. revert H. destruct K as [e own ls K1 K2]; intros H. apply own_text_iff in K1 as ->; [|easy]. unfold texts. f_equal.
    induction K2 as [|x l xs ls K K2 IH]; [easy|]. cbn [map]. f_equal; [|easy]. inversion K; subst.
    apply cmd_text_iff in H0 as ->. easy.
  - intros ->. unfold texts. constructor; [now apply own_text_iff|]. apply Forall2_map_r. apply Forall_forall.
    intros [d c] _. unfold walk_line. cbn [fst snd]. constructor. now apply cmd_text_iff.
Qed.
Lemma all_texts_iff v l ls : forallb (own_ok v) l = true -> (events_lines v l ls <-> ls = all_texts v l).
Proof.
  intros H. split.
  - intros K. induction K as [|e l a b K1 K2 IH]; [easy|]. cbn [forallb] in H. apply andb_true_iff in H as [H1 H2].
    apply texts_iff in K1 as ->; [|easy]. now rewrite IH.
  - intros ->. unfold all_texts. induction l as [|e l IH]; [constructor|]. cbn [forallb] in H. apply andb_true_iff in H as [H1 H2].
    cbn [map concat]. constructor; [now apply texts_iff|now apply IH].
Qed.
Lemma events_text dbg v l t : forallb (own_ok v) l = true ->
  (events_to_string dbg l v = ROk (Some t) <-> exists ls, events_lines v l ls /\ t = text_of_lines ls).
Proof.
  intros H. rewrite events_print by easy. split.
  - intros [= <-]. exists (all_texts v l). split; [now apply all_texts_iff|now rewrite text_of_lines_join].
  - intros (ls & K & ->). apply all_texts_iff in K as ->; [|easy]. now rewrite text_of_lines_join.
Qed.
