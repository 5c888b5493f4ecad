(** The four key/value sections: layout, round trips, image, panics. *)
From Coq Require Import String List NArith ZArith Bool Lia Permutation.
From Verif Require Import Str Num Nom Dec Parsers KeyValue KvFields General Editor Metadata Difficulty Spec
  SpecWf SpecKv SpecText SpecSections StrFacts NumFacts NomFacts DecFacts LineFacts SplitFacts LayoutFacts
  KvFacts KvSem KvSections.
Import ListNotations.
Local Open Scope N_scope.

Lemma general_keys_eq : map f_name general_fields = general_keys.
Proof. reflexivity. Qed.
Lemma editor_keys_eq : map f_name editor_fields = editor_keys.
Proof. reflexivity. Qed.
Lemma metadata_keys_eq : map f_name metadata_fields = metadata_keys.
Proof. reflexivity. Qed.
Lemma difficulty_keys_eq : map f_name difficulty_fields = difficulty_keys.
Proof. reflexivity. Qed.

(** ** layout *)
Lemma spaced_join l : join (lit " ") l = spaced l.
Proof.
  induction l as [|x l IH]; [easy|]. destruct l as [|y l]; [easy|]. rewrite join_cons by easy. now rewrite IH.
Qed.
Lemma print_int_list_commas l : print_int_list l = commas (map print_Z l).
Proof. unfold print_int_list. change (lit ",") with [44]. symmetry. apply commas_join. Qed.
Lemma print_bool_text b : print_bool b = bool_text b.
Proof. now destruct b. Qed.
Lemma gate_le a v : (if (a <? v)%Z then @None str else None) = None.
Proof. now destruct (a <? v)%Z. Qed.
Ltac layout :=
  unfold kv_to_string; rewrite <- text_of_lines_join; do 2 f_equal;
  unfold flatten_opt; cbn [map flat_map]; rewrite ?app_nil_r;
  repeat (apply f_equal2; [|]);
  unfold kv_field_line, kv_line; cbn [f_get f_to f_name mk_field f_ty].
Lemma metadata_layout m v : metadata_to_string m v = Some (text_of_lines (metadata_lines m)).
Proof.
  unfold metadata_to_string, metadata_fields, metadata_lines. layout;
  match goal with |- context [match ?x m with _ => _ end] => destruct (x m) as [y|] end; try reflexivity.
  cbn. now rewrite spaced_join.
Qed.
Lemma difficulty_layout d v : difficulty_to_string d v = Some (text_of_lines (difficulty_lines v d)).
Proof.
  unfold difficulty_to_string, difficulty_fields, difficulty_lines. layout;
  match goal with |- context [match ?x d with _ => _ end] => destruct (x d) as [y|] end;
  cbn; unfold difficulty_spacing, old_version; try reflexivity;
  now destruct ((3 <=? v)%Z && (v <=? 4)%Z).
Qed.
Lemma editor_layout e v : editor_to_string e v = Some (text_of_lines (editor_lines v e)).
Proof.
  unfold editor_to_string, editor_fields, editor_lines. layout;
  match goal with |- context [match ?x e with _ => _ end] => destruct (x e) as [y|] end; try reflexivity.
  - cbn. now rewrite print_int_list_commas.
  - unfold to_current_time, opt_if. now destruct (v =? 10)%Z.
  - unfold opt_if. now destruct (v =? 10)%Z.
Qed.
Lemma leb_ltb a b : (a <=? b)%Z = negb (b <? a)%Z.
Proof. destruct (Z.leb_spec a b), (Z.ltb_spec b a); try easy; lia. Qed.
Lemma general_layout g v : general_to_string g v = Some (text_of_lines (general_lines v g)).
Proof.
  unfold general_to_string, general_fields, general_lines. layout;
  match goal with |- context [match ?x g with _ => _ end] => destruct (x g) as [y|] end; try reflexivity;
  try (cbn; now rewrite print_bool_text);
  unfold to_audio_hash, to_editor_bookmarks, to_editor_distance_spacing, countdown_to_string,
    gsample_set_to_string, overlay_position_to_string, no_overlay, old_version, opt_if, has_audio_hash,
    has_countdown, has_sample_set, has_overlay, has_editor_fields, mode_to_string; rewrite ?leb_ltb;
  try (match goal with |- context [if ?b then _ else _] => destruct b end; try reflexivity);
  try (cbn; now rewrite print_int_list_commas); try (now destruct y).
  all: cbn; repeat match goal with |- context [if ?b then _ else _] => destruct b end; try reflexivity.
Qed.

(** ** round trips *)
Ltac conj_ok H := repeat match type of H with
  | (_ && _) = true => let H1 := fresh "K" in apply andb_true_iff in H as [H H1] end.
Lemma opt_all_some {A} (f : A -> bool) o x : opt_all f o = true -> o = Some x -> f x = true.
Proof. intros H ->. exact H. Qed.
Ltac rt_open := cbn in *; unfold field_rt, to_text, to_dec, to_int, to_zero_one, to_tags, to_bookmarks, nvp;
  cbn [f_get f_to f_from f_name mk_field f_ty].
Ltac kind v Hx :=
  first [ apply (reads_text _ v) | apply (reads_dec _ v) | apply (reads_int _ _ v) | apply (reads_id _ v)
        | apply (reads_ints _ _ _ v) | apply (reads_flag _ v) | apply (reads_tags _ v) ];
  try (eapply opt_all_some; [|exact Hx]; eassumption).

Lemma metadata_rt v m : metadata_ok m = true -> forall f x, In f metadata_fields -> f_get f m = Some x ->
  field_rt f v x (f_get f m).
Proof.
  intros H f x Hf Hx. unfold metadata_ok in H. conj_ok H.
  each_field Hf; rt_open; rewrite Hx; kind v Hx.
Qed.
Lemma metadata_round_trip m v : metadata_ok m = true ->
  metadata_from_str (text_of_lines (metadata_lines m)) v = ROk (Some m).
Proof.
  intros H. destruct (kv_round_trip metadata_errs _ _ _ metadata_laws m m v) as (t & Ht & Hr).
  - now apply metadata_rt.
  - auto.
  - pose proof (metadata_layout m v) as Hl. unfold metadata_to_string in Hl. rewrite Hl in Ht.
    injection Ht as <-. exact Hr.
Qed.
Lemma difficulty_rt v m : difficulty_ok m = true -> forall f x, In f difficulty_fields -> f_get f m = Some x ->
  field_rt f v x (f_get f m).
Proof.
  intros H f x Hf Hx. unfold difficulty_ok in H. conj_ok H.
  each_field Hf; rt_open; rewrite Hx; kind v Hx.
Qed.
Lemma difficulty_round_trip m v : difficulty_ok m = true ->
  difficulty_from_str (text_of_lines (difficulty_lines v m)) v = ROk (Some m).
Proof.
  intros H. destruct (kv_round_trip difficulty_errs _ _ _ difficulty_laws m m v) as (t & Ht & Hr).
  - now apply difficulty_rt.
  - auto.
  - pose proof (difficulty_layout m v) as Hl. unfold difficulty_to_string in Hl. rewrite Hl in Ht.
    injection Ht as <-. exact Hr.
Qed.
Lemma editor_rt v m : editor_ok m = true -> forall f x, In f editor_fields -> f_get f m = Some x ->
  field_rt f v x (f_get f (editor_at v m)).
Proof.
  intros H f x Hf Hx. unfold editor_ok in H. conj_ok H.
  each_field Hf; rt_open; rewrite Hx; try kind v Hx.
  unfold to_current_time, opt_if. destruct (v =? 10)%Z; [|easy]. cbn [negb]. kind v Hx.
Qed.
Lemma editor_round_trip m v : editor_ok m = true ->
  editor_from_str (text_of_lines (editor_lines v m)) v = ROk (Some (editor_at v m)).
Proof.
  intros H. destruct (kv_round_trip editor_errs _ _ _ editor_laws m (editor_at v m) v) as (t & Ht & Hr).
  - now apply editor_rt.
  - intros f Hf. each_field Hf; cbn; try easy. intros ->. unfold opt_if. now destruct (v =? 10)%Z.
  - pose proof (editor_layout m v) as Hl. unfold editor_to_string in Hl. rewrite Hl in Ht.
    injection Ht as <-. exact Hr.
Qed.
Lemma general_rt v g : general_ok g = true -> forall f x, In f general_fields -> f_get f g = Some x ->
  field_rt f v x (f_get f (general_at v g)).
Proof.
  intros H f x Hf Hx. unfold general_ok in H. conj_ok H.
  each_field Hf; rt_open; try rewrite Hx; try kind v Hx.
  - unfold to_audio_hash, has_audio_hash, opt_if. rewrite leb_ltb. destruct (13 <? v)%Z; [easy|].
    kind v Hx.
  - unfold countdown_to_string, has_countdown, opt_if. fold (old_version v).
    destruct (old_version v) eqn:Eo; [easy|]. now apply reads_countdown.
  - unfold gsample_set_to_string, has_sample_set, opt_if, gsample_set_from_str.
    destruct (v =? 3)%Z; [easy|]. now destruct x.
  - apply reads_mode.
  - unfold overlay_position_to_string, has_overlay, opt_if, overlay_position_from_str. fold (no_overlay v).
    destruct (no_overlay v) eqn:Eo; [easy|]. now destruct x.
  - unfold to_editor_bookmarks, has_editor_fields, opt_if. rewrite leb_ltb. destruct (5 <? v)%Z; [easy|].
    cbn [negb]. kind v Hx.
  - unfold to_editor_distance_spacing, has_editor_fields, opt_if. rewrite leb_ltb.
    destruct (5 <? v)%Z; [easy|]. cbn [negb]. kind v Hx.
Qed.
Lemma general_round_trip g v : general_ok g = true ->
  general_from_str (text_of_lines (general_lines v g)) v = ROk (Some (general_at v g)).
Proof.
  intros H. destruct (kv_round_trip general_errs _ _ _ general_laws g (general_at v g) v) as (t & Ht & Hr).
  - now apply general_rt.
  - intros f Hf. each_field Hf; cbn; try easy; intros ->; unfold opt_if; try easy;
      match goal with |- context [if ?b then _ else _] => now destruct b end.
  - pose proof (general_layout g v) as Hl. unfold general_to_string in Hl. rewrite Hl in Ht.
    injection Ht as <-. exact Hr.
Qed.
