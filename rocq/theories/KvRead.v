(** The key/value sections are read entry by entry. *)
From Coq Require Import String List NArith ZArith Bool Lia.
From Verif Require Import Str Num Nom Dec Parsers KeyValue KvFields General Editor Metadata Difficulty Spec SpecKv
  SpecText SpecSections SpecLine SpecEvLine SpecKvRead StrFacts NumFacts SplitFacts KvFacts KvSem KvSections.
Import ListNotations.
Local Open Scope N_scope.

Lemma split_pieces c s : split_on c s = pieces c s.
Proof.
  induction s as [|d s IH]; [easy|]. cbn [split_on pieces]. rewrite IH.
  assert (H : pieces c s <> []).
  { clear. induction s as [|e s IH]; [easy|]. cbn [pieces]. destruct (pieces c s); [easy|]. now destruct (e =? c). }
  destruct (pieces c s); [easy|]. now destruct (d =? c).
Qed.
Lemma mem_existsb k l : mem_str k l = existsb (str_eqb k) l.
Proof. reflexivity. Qed.
Lemma existsb_same {A} (f : A -> bool) l l' : (forall x, In x l <-> In x l') -> existsb f l = existsb f l'.
Proof.
  intros H. apply eq_true_iff_eq. rewrite !existsb_exists. split; intros (x & Hx & Hf); exists x; split; try easy;
    now apply H.
Qed.

Section Reads.
  Context {S E : Type}.
  Variable errs : kv_errs E.
  Variable fields : list (field S E).
  Variable new : S.
  Variable spacing : str -> version -> str.
  Hypothesis laws : field_laws fields new spacing.
  Variable v : version.
  Variable table : list (string * (str -> res unit E)).
  Variable build : (str -> option str) -> S.
  Hypothesis table_ok :
    Forall2 (fun f (r : string * (str -> res unit E)) =>
               f_name f = lit (fst r) /\ forall s, can (fun s => f_from f s v) s = snd r s) fields table.
  Hypothesis build_ok : forall get f, In f fields ->
    f_get f (build get)
    = match get (f_name f) with
      | Some s => match f_from f s v with ROk x => x | _ => None end
      | None => None
      end.

  Lemma assign_reader k s sec :
    match kv_assign fields k s v sec with
    | Some (ROk _) => reader_of (ke_key errs) table k s = ROk tt
    | Some (RErr e) => reader_of (ke_key errs) table k s = RErr e
    | Some (RPanic p) => reader_of (ke_key errs) table k s = RPanic p
    | None => reader_of (ke_key errs) table k s = RErr (ke_key errs)
    end.
  Proof.
    clear laws build_ok. generalize table_ok. clear table_ok. generalize fields, table. intros fs0 tb0 Ho.
    induction Ho as [|f [n rd] fs tb [H1 H2] Hr IH]; [reflexivity|].
    cbn [kv_assign reader_of]. rewrite H1. cbn [fst snd] in *. destruct (str_eqb k (lit n)); [|apply IH].
    rewrite <- H2. unfold can. now destruct (f_from f s v).
  Qed.
  Lemma loop_first_bad es n parsed before sec :
    (forall k, In k parsed <-> In k before) ->
    kv_loop errs fields v n parsed sec (map entry4 es)
    = rmap (fun _ => kv_fold fields v sec es) (first_bad table (ke_key errs) (ke_dup errs) n before es).
  Proof.
    revert n parsed before sec. induction es as [|e es IH]; intros n parsed before sec Hp; [easy|].
    cbn [map kv_loop first_bad kv_fold]. unfold entry4 at 1.
    rewrite mem_existsb, (existsb_same _ parsed before) by apply Hp.
    destruct (existsb _ before); [easy|].
    pose proof (assign_reader (entry_key e) (entry_value e) sec) as Ha.
    destruct (kv_assign fields (entry_key e) (entry_value e) v sec) as [[sec'|x|p]|]; rewrite Ha; try easy.
    apply IH. intros k. rewrite in_app_iff. cbn. rewrite Hp. tauto.
  Qed.
  Lemma find_same k es : find (fun e => str_eqb k (entry_key e)) es = find_key k es.
  Proof.
    unfold find_key. induction es as [|e es IH]; [easy|]. cbn [find].
    replace (str_eqb (entry_key e) k) with (str_eqb k (entry_key e)); [now rewrite IH|].
    apply eq_true_iff_eq. rewrite !str_eqb_eq. split; congruence.
  Qed.
  Lemma kv_reads_eq es t :
    entries_ok es = true -> rest_after es t = true ->
    kv_from_str errs fields new (kv_text es ++ t) v
    = rmap Some (kv_reads table (ke_key errs) (ke_dup errs) (ke_colon errs) build es t).
  Proof.
    intros He Ht. rewrite (kv_from_str_eq errs fields new _ v es t eq_refl He Ht). unfold kv_reads.
    destruct (is_blank t); [|easy].
    pose proof (loop_first_bad es 0%Z [] [] new (fun k => iff_refl _)) as Hl.
    destruct (kv_loop errs fields v 0 [] new (map entry4 es)) as [sec|x|p] eqn:El.
    - apply (kv_loop_ok errs fields (law_names _ _ _ laws)) in El as (Hn & _ & Hg & ->).
      destruct (first_bad table (ke_key errs) (ke_dup errs) 0 [] es); [|easy|easy]. cbn [rmap]. do 2 f_equal.
      apply (law_ext _ _ _ laws). intros f Hf. rewrite (kv_fold_get fields new spacing laws) by easy.
      rewrite build_ok by easy. unfold value_of. rewrite find_same.
      destruct (find_key (f_name f) es); [easy|]. now apply (law_new _ _ _ laws).
    - destruct (first_bad table (ke_key errs) (ke_dup errs) 0 [] es); cbn [rmap] in *; congruence.
    - destruct (first_bad table (ke_key errs) (ke_dup errs) 0 [] es); cbn [rmap] in *; congruence.
  Qed.
End Reads.

(** ** the values *)
Lemma int_value_eq {E} (bad : int_err -> E) v s : from_int bad s v = int_value bad s.
Proof. unfold from_int, nv, int_value, rmap_err, rmap. now destruct (parse_i32 s). Qed.
Lemma flag_value_eq v s : from_zero_one s v = flag_value s.
Proof.
  unfold from_zero_one, nv, flag_value, rmap_err, rmap, parse_zero_one_bool.
  destruct (parse_i32 s) as [z|e|p]; try easy. unfold pick. cbn [length].
  destruct z as [|q|q]; [easy| |easy]. destruct q as [q|q|]; [..|easy].
  all: destruct ((0 <=? _)%Z && (_ <? Z.of_nat 2)%Z) eqn:El; [|easy]; apply andb_true_iff in El as [_ El]; apply Z.ltb_lt in El; exfalso; lia.
Qed.
Lemma pick_usize {A} (l : list A) z : (0 <= z)%Z -> pick l z = nth_error l (Z.to_nat z).
Proof.
  intros H. unfold pick. replace (0 <=? z)%Z with true by lia. cbn [andb].
  destruct (z <? Z.of_nat (length l))%Z eqn:El; [easy|]. symmetry. apply nth_error_None. lia.
Qed.
Lemma pick4 {A} (a b c d : A) z :
  pick [a; b; c; d] z
  = if (z =? 0)%Z then Some a else if (z =? 1)%Z then Some b else if (z =? 2)%Z then Some c
    else if (z =? 3)%Z then Some d else None.
Proof.
  unfold pick. cbn [length].
  destruct (z =? 0)%Z eqn:E0; [apply Z.eqb_eq in E0 as ->; easy|].
  destruct (z =? 1)%Z eqn:E1; [apply Z.eqb_eq in E1 as ->; easy|].
  destruct (z =? 2)%Z eqn:E2; [apply Z.eqb_eq in E2 as ->; easy|].
  destruct (z =? 3)%Z eqn:E3; [apply Z.eqb_eq in E3 as ->; easy|].
  destruct ((0 <=? z)%Z && (z <? Z.of_nat 4)%Z) eqn:El; [|easy]. exfalso. apply andb_true_iff in El as [H1 H2]. apply Z.leb_le in H1. apply Z.ltb_lt in H2. apply Z.eqb_neq in E0, E1, E2, E3. lia.
Qed.
Lemma countdown_value_eq v s : countdown_from_str s v = countdown_value v s.
Proof.
  unfold countdown_from_str, countdown_value, has_countdown, rmap_err, countdown_from_repr, old_version.
  destruct ((3 <=? v)%Z && (v <=? 4)%Z); [easy|]. cbn [negb]. destruct (parse_usize s) as [z|e|p]; try easy.
  rewrite pick4. destruct (z =? 0)%Z, (z =? 1)%Z, (z =? 2)%Z, (z =? 3)%Z; easy.
Qed.
Lemma mode_gate_has m v : mode_gate m v = if has_mode v m then Some m else None.
Proof.
  unfold mode_gate, has_mode. destruct m; cbn [negb]; rewrite ?andb_false_r, ?andb_true_r; try easy.
  all: repeat match goal with |- context [if ?b then _ else _] => destruct b eqn:? end; lia || easy.
Qed.
Lemma mode_value_eq v s : mode_from_str s v = mode_value v s.
Proof.
  unfold mode_from_str, mode_value, rmap_err. destruct (parse_usize s) as [z|e|p]; try easy.
  rewrite pick4. destruct (z =? 0)%Z, (z =? 1)%Z, (z =? 2)%Z, (z =? 3)%Z; rewrite ?mode_gate_has; easy.
Qed.
Lemma sample_set_value_eq v s : gsample_set_from_str s v = sample_set_value v s.
Proof.
  unfold gsample_set_from_str, sample_set_value, name_value, has_sample_set, rd_name.
  destruct (v =? 3)%Z; [easy|]. cbn [negb].
  now destruct (str_eqb s (lit "Normal")), (str_eqb s (lit "Soft")), (str_eqb s (lit "Drum")), (str_eqb s (lit "None")).
Qed.
Lemma overlay_value_eq v s : overlay_position_from_str s v = overlay_value v s.
Proof.
  unfold overlay_position_from_str, overlay_value, name_value, has_overlay, no_overlay, rd_name.
  destruct ((3 <=? v)%Z && (v <=? 13)%Z); [easy|]. cbn [negb].
  now destruct (str_eqb s (lit "NoChange")), (str_eqb s (lit "Below")), (str_eqb s (lit "Above")).
Qed.
Lemma ints_value_eq {E} (bad : int_err -> E) empty v s :
  nv (parse_int_list bad empty) s v = ints_value bad empty s.
Proof.
  unfold nv, ints_value. rewrite parse_int_list_eq. destruct s as [|c s]; [easy|]. rewrite split_pieces.
  f_equal. induction (pieces 44 (c :: s)) as [|x l IH]; [easy|]. cbn [items_read int_items].
  destruct (parse_i32 x) as [z|e|p]; [now rewrite IH| |easy]. now destruct e.
Qed.
Lemma id_value_eq v s : from_id s v = id_value s.
Proof.
  unfold from_id, nv, id_value, rmap. destruct (parse_i32 s) eqn:Ei; [easy|easy|]. now apply parse_i32_no_panic in Ei.
Qed.
Lemma tags_value_eq v s : from_tags s v = tags_value_of s.
Proof. unfold tags_value_of. rewrite from_tags_eq. now rewrite split_pieces. Qed.

Ltac value_tac :=
  rewrite ?int_value_eq, ?flag_value_eq, ?countdown_value_eq, ?mode_value_eq, ?sample_set_value_eq,
    ?overlay_value_eq, ?id_value_eq, ?tags_value_eq;
  reflexivity || (unfold from_editor_bookmarks, from_bookmarks; rewrite ints_value_eq; reflexivity).
Ltac table_tac fields table :=
  unfold fields, table;
  repeat (apply Forall2_cons; [split; [reflexivity|]; intros s; cbn [f_from mk_field snd]; unfold can, gen_int; value_tac|]);
  apply Forall2_nil.
Ltac build_tac fields Hf :=
  unfold fields in Hf; cbn [In] in Hf;
  repeat (destruct Hf as [<-|Hf]; [cbn [f_get f_from f_name mk_field]; unfold of_key, gen_int, of_key;
    match goal with |- _ = match ?g ?k with Some _ => _ | None => _ end => destruct (g k) as [s|] end; [|reflexivity]; value_tac|]);
  destruct Hf.
Lemma general_reads_eq es t v :
  entries_ok es = true -> rest_after es t = true ->
  general_from_str (kv_text es ++ t) v = rmap Some (general_reads v es t).
Proof.
  apply (kv_reads_eq general_errs general_fields general_new general_spacing general_laws v (general_table v) (general_of v)).
  - table_tac general_fields general_table.
  - intros get f Hf. unfold general_of. build_tac general_fields Hf.
Qed.
Lemma editor_reads_eq es t v :
  entries_ok es = true -> rest_after es t = true ->
  editor_from_str (kv_text es ++ t) v = rmap Some (editor_reads es t).
Proof.
  apply (kv_reads_eq editor_errs editor_fields editor_new editor_spacing editor_laws v editor_table editor_of).
  - table_tac editor_fields editor_table.
  - intros get f Hf. unfold editor_of. build_tac editor_fields Hf.
Qed.
Lemma metadata_reads_eq es t v :
  entries_ok es = true -> rest_after es t = true ->
  metadata_from_str (kv_text es ++ t) v = rmap Some (metadata_reads es t).
Proof.
  apply (kv_reads_eq metadata_errs metadata_fields metadata_new metadata_spacing metadata_laws v metadata_table metadata_of).
  - table_tac metadata_fields metadata_table.
  - intros get f Hf. unfold metadata_of. build_tac metadata_fields Hf.
Qed.
Lemma difficulty_reads_eq es t v :
  entries_ok es = true -> rest_after es t = true ->
  difficulty_from_str (kv_text es ++ t) v = rmap Some (difficulty_reads es t).
Proof.
  apply (kv_reads_eq difficulty_errs difficulty_fields difficulty_new difficulty_spacing difficulty_laws v difficulty_table difficulty_of).
  - table_tac difficulty_fields difficulty_table.
  - intros get f Hf. unfold difficulty_of. build_tac difficulty_fields Hf.
Qed.
