(** The lemmas on the key/value sections in the form of the property theorems. *)
From Coq Require Import String List NArith ZArith Bool Lia.
From Verif Require Import Str Num Nom Dec Parsers KeyValue General Editor Metadata Difficulty Spec SpecWf SpecKv
  SpecText SpecSections KvFacts KvSem KvSections KvTheorems KvLines KvImage.
Import ListNotations.
Local Open Scope N_scope.

Lemma general_text_round_trip v g : general_ok g = true ->
  general_to_string g v = Some (text_of_lines (general_lines v g))
  /\ general_from_str (text_of_lines (general_lines v g)) v = ROk (Some (general_at v g)).
Proof. intros H. split; [apply general_layout|now apply general_round_trip]. Qed.
Lemma editor_text_round_trip v g : editor_ok g = true ->
  editor_to_string g v = Some (text_of_lines (editor_lines v g))
  /\ editor_from_str (text_of_lines (editor_lines v g)) v = ROk (Some (editor_at v g)).
Proof. intros H. split; [apply editor_layout|now apply editor_round_trip]. Qed.
Lemma metadata_text_round_trip v g : metadata_ok g = true ->
  metadata_to_string g v = Some (text_of_lines (metadata_lines g))
  /\ metadata_from_str (text_of_lines (metadata_lines g)) v = ROk (Some g).
Proof. intros H. split; [apply metadata_layout|now apply metadata_round_trip]. Qed.
Lemma difficulty_text_round_trip v g : difficulty_ok g = true ->
  difficulty_to_string g v = Some (text_of_lines (difficulty_lines v g))
  /\ difficulty_from_str (text_of_lines (difficulty_lines v g)) v = ROk (Some g).
Proof. intros H. split; [apply difficulty_layout|now apply difficulty_round_trip]. Qed.

Lemma general_reparse s v g : general_from_str s v = ROk (Some g) ->
  general_ok g = true
  /\ exists t, general_to_string g v = Some t /\ general_from_str t v = ROk (Some (general_at v g)).
Proof.
  intros H. apply general_image in H. split; [easy|]. eexists. apply (general_text_round_trip v g H).
Qed.
Lemma general_reparse_same s v g : general_from_str s v = ROk (Some g) ->
  (v <= 13)%Z \/ general_audio_hash g = None ->
  (v <= 5)%Z \/ general_editor_bookmarks g = None /\ general_editor_distance_spacing g = None ->
  exists t, general_to_string g v = Some t /\ general_from_str t v = ROk (Some g).
Proof.
  intros H Ha Hb. destruct (general_reparse s v g H) as (_ & t & Ht & Hr). exists t. split; [easy|].
  rewrite (general_read_at s v g H) in Hr; [easy| |].
  - unfold has_audio_hash. rewrite Z.leb_le. exact Ha.
  - unfold has_editor_fields. rewrite Z.leb_le. exact Hb.
Qed.
Lemma editor_reparse s v e : editor_from_str s v = ROk (Some e) ->
  editor_ok e = true
  /\ (exists t, editor_to_string e v = Some t /\ editor_from_str t v = ROk (Some (editor_at v e)))
  /\ (v = 10%Z \/ editor_current_time e = None -> editor_at v e = e).
Proof.
  intros H. apply editor_image in H. split; [easy|]. split; [|apply editor_read_at].
  eexists. apply (editor_text_round_trip v e H).
Qed.
Lemma metadata_reparse s v g : metadata_from_str s v = ROk (Some g) ->
  metadata_ok g = true
  /\ exists t, metadata_to_string g v = Some t /\ metadata_from_str t v = ROk (Some g).
Proof.
  intros H. apply metadata_image in H. split; [easy|]. eexists. apply (metadata_text_round_trip v g H).
Qed.
Lemma difficulty_reparse s v g : difficulty_from_str s v = ROk (Some g) ->
  difficulty_ok g = true
  /\ exists t, difficulty_to_string g v = Some t /\ difficulty_from_str t v = ROk (Some g).
Proof.
  intros H. apply difficulty_image in H. split; [easy|]. eexists. apply (difficulty_text_round_trip v g H).
Qed.

Lemma general_error_line s v i e :
  unindented s = true -> general_from_str s v = RErr (mk_line_err i e) ->
  names_bad_line general_from_str GenColonSet GenDup s v i e.
Proof. exact (kv_error_line general_errs _ _ (law_names _ _ _ general_laws) s v i e). Qed.
Lemma editor_error_line s v i e :
  unindented s = true -> editor_from_str s v = RErr (mk_line_err i e) ->
  names_bad_line editor_from_str EdColonSet EdDup s v i e.
Proof. exact (kv_error_line editor_errs _ _ (law_names _ _ _ editor_laws) s v i e). Qed.
Lemma metadata_error_line s v i e :
  unindented s = true -> metadata_from_str s v = RErr (mk_line_err i e) ->
  names_bad_line metadata_from_str MdColonSet MdDup s v i e.
Proof. exact (kv_error_line metadata_errs _ _ (law_names _ _ _ metadata_laws) s v i e). Qed.
Lemma difficulty_error_line s v i e :
  unindented s = true -> difficulty_from_str s v = RErr (mk_line_err i e) ->
  names_bad_line difficulty_from_str DfColonSet DfDup s v i e.
Proof. exact (kv_error_line difficulty_errs _ _ (law_names _ _ _ difficulty_laws) s v i e). Qed.
Lemma difficulty_indented :
  exists s i e, difficulty_from_str s 14%Z = RErr (mk_line_err i e) /\ (i = Z.of_nat (length (lines s)))%Z.
Proof.
  exists (lit "CircleSize:1" ++ [10] ++ lit " CircleSiz:1"), 2%Z, DfKey. vm_compute. auto.
Qed.

Lemma every_text_has_entries s :
  exists es t, s = kv_text es ++ t /\ entries_ok es = true /\ rest_after es t = true.
Proof. destruct (kv_lines_decompose (C:=unit) s) as (es & t & H1 & H2 & H3 & _). eauto. Qed.
Lemma duplicate_keys es t v :
  entries_ok es = true -> rest_after es t = true -> ~ NoDup (map entry_key es) ->
  (forall x, general_from_str (kv_text es ++ t) v <> ROk x)
  /\ (forall x, editor_from_str (kv_text es ++ t) v <> ROk x)
  /\ (forall x, metadata_from_str (kv_text es ++ t) v <> ROk x)
  /\ (forall x, difficulty_from_str (kv_text es ++ t) v <> ROk x).
Proof.
  intros He Ht Hd. repeat split.
  - apply (kv_duplicate _ _ _ (law_names _ _ _ general_laws)); auto.
  - apply (kv_duplicate _ _ _ (law_names _ _ _ editor_laws)); auto.
  - apply (kv_duplicate _ _ _ (law_names _ _ _ metadata_laws)); auto.
  - apply (kv_duplicate _ _ _ (law_names _ _ _ difficulty_laws)); auto.
Qed.
Lemma unknown_keys es t v e :
  entries_ok es = true -> rest_after es t = true -> In e es ->
  (~ In (entry_key e) general_keys -> forall x, general_from_str (kv_text es ++ t) v <> ROk x)
  /\ (~ In (entry_key e) editor_keys -> forall x, editor_from_str (kv_text es ++ t) v <> ROk x)
  /\ (~ In (entry_key e) metadata_keys -> forall x, metadata_from_str (kv_text es ++ t) v <> ROk x)
  /\ (~ In (entry_key e) difficulty_keys -> forall x, difficulty_from_str (kv_text es ++ t) v <> ROk x).
Proof.
  intros He Ht Hin. repeat split; intros Hd.
  - apply (kv_duplicate _ _ _ (law_names _ _ _ general_laws)); auto. right. now exists e.
  - apply (kv_duplicate _ _ _ (law_names _ _ _ editor_laws)); auto. right. now exists e.
  - apply (kv_duplicate _ _ _ (law_names _ _ _ metadata_laws)); auto. right. now exists e.
  - apply (kv_duplicate _ _ _ (law_names _ _ _ difficulty_laws)); auto. right. now exists e.
Qed.
Lemma general_accepted_lines s v x :
  unindented s = true -> general_from_str s v = ROk x ->
  NoDup (map line_key (filter (contains_char 58) (lines s)))
  /\ (forall l, In l (lines s) -> contains_char 58 l = true -> In (line_key l) general_keys)
  /\ (forall l, In l (lines s) -> contains_char 58 l = false -> is_blank l = true).
Proof. exact (kv_accepted_lines _ _ _ (law_names _ _ _ general_laws) s v x). Qed.
Lemma editor_accepted_lines s v x :
  unindented s = true -> editor_from_str s v = ROk x ->
  NoDup (map line_key (filter (contains_char 58) (lines s)))
  /\ (forall l, In l (lines s) -> contains_char 58 l = true -> In (line_key l) editor_keys)
  /\ (forall l, In l (lines s) -> contains_char 58 l = false -> is_blank l = true).
Proof. exact (kv_accepted_lines _ _ _ (law_names _ _ _ editor_laws) s v x). Qed.
Lemma metadata_accepted_lines s v x :
  unindented s = true -> metadata_from_str s v = ROk x ->
  NoDup (map line_key (filter (contains_char 58) (lines s)))
  /\ (forall l, In l (lines s) -> contains_char 58 l = true -> In (line_key l) metadata_keys)
  /\ (forall l, In l (lines s) -> contains_char 58 l = false -> is_blank l = true).
Proof. exact (kv_accepted_lines _ _ _ (law_names _ _ _ metadata_laws) s v x). Qed.
Lemma difficulty_accepted_lines s v x :
  unindented s = true -> difficulty_from_str s v = ROk x ->
  NoDup (map line_key (filter (contains_char 58) (lines s)))
  /\ (forall l, In l (lines s) -> contains_char 58 l = true -> In (line_key l) difficulty_keys)
  /\ (forall l, In l (lines s) -> contains_char 58 l = false -> is_blank l = true).
Proof. exact (kv_accepted_lines _ _ _ (law_names _ _ _ difficulty_laws) s v x). Qed.
