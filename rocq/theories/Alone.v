(** Values that are read on their own (C71): proofs. *)
From Coq Require Import String List NArith ZArith Bool Lia.
From Verif Require Import Str Num Nom Dec Parsers Colours TimingPoints HitObjects Storyboard NormalEvents Events Osb Spec SpecWf SpecAlone SpecOsb
  StrFacts NumFacts NomFacts DecFacts LineFacts ColoursFacts TypeFacts HoRound EvFacts EvPanic OsbFacts TpFacts HoObj HoImage LineRead HoRead SpecLine SpecEvents.
Import ListNotations.
Local Open Scope N_scope.

(** ** names *)
Ltac names f := unfold f; split; [|split];
  [intros s; unfold answers; repeat (destruct (str_eqb s _); [left; eexists; reflexivity|]); right; eexists; reflexivity
  |intros s x; split;
   [repeat (let K := fresh in let H := fresh in destruct (str_eqb s _) eqn:K; [apply str_eqb_eq in K; intros H; inversion H; subst; eexists; split; [|reflexivity]; cbn; tauto|clear K]); discriminate
   |intros (t & H & ->); cbv [In curve_names sample_set_names addition_names parameter_names layer_names loop_names] in H; repeat (destruct H as [H|H]; [apply pair_equal_spec in H as [<- <-]; reflexivity|]); destruct H]
  |intros x; destruct x; eexists; (split; [|reflexivity]); cbn; tauto].
Lemma names_ok :
  by_name curve_names curve_type_from_str curve_type_to_string /\ by_name sample_set_names sb_sample_set_from_str sb_sample_set_to_string
  /\ by_name addition_names addition_from_str addition_to_string /\ by_name parameter_names parameter_from_str parameter_to_string
  /\ by_name layer_names sb_layer_from_str sb_layer_to_string /\ by_name loop_names loop_type_from_str loop_type_to_string.
Proof.
  split; [|split; [|split; [|split; [|split]]]].
  - names curve_type_from_str.
  - names sb_sample_set_from_str.
  - names addition_from_str.
  - names parameter_from_str.
  - names sb_layer_from_str.
  - names loop_type_from_str.
Qed.
Lemma by_name_settles {A E} table (from : str -> res (option A) E) to : by_name table from to -> NoDup (map fst table) -> settles_alone from to.
Proof.
  intros (_ & H & K) _ s x _. destruct (K x) as (t & Ht & ->). apply H. now exists t.
Qed.

(** ** numbers *)
Lemma number_reader {A E} signed lo hi table other (parse : str -> res Z int_err) (from : str -> res (option A) E) :
  (forall s z, parse s = ROk z <-> int_text signed s z /\ (lo <= z <= hi)%Z) -> (forall s p, parse s <> RPanic p) ->
  (forall s z, parse s = ROk z -> (exists x, meant table other z = Some x /\ from s = ROk (Some x)) \/ meant table other z = None /\ exists e, from s = RErr e) ->
  (forall s e, parse s = RErr e -> exists e', from s = RErr e') ->
  by_number signed lo hi table other from.
Proof.
  intros Hp Hn Hf He. split.
  - intros s. destruct (parse s) as [z|e|p] eqn:K.
    + destruct (Hf s z K) as [(x & _ & H)|[_ H]]; [left; now exists x|now right].
    + right. exact (He s e K).
    + now elim (Hn s p).
  - intros s x. split.
    + intros H. destruct (parse s) as [z|e|p] eqn:K.
      * exists z. destruct (Hf s z K) as [(y & M & H')|[_ [e H']]]; [|congruence]. apply Hp in K as [K1 K2]. repeat split; try easy. congruence.
      * destruct (He s e K) as [e' H']. congruence.
      * now elim (Hn s p).
    + intros (z & Ht & Hr & M). assert (K : parse s = ROk z) by now apply Hp. destruct (Hf s z K) as [(y & M' & H')|[M' _]]; congruence.
Qed.
Lemma rmap_reader {A} signed lo hi table other (parse : str -> res Z int_err) (f : Z -> A) (from : str -> res (option A) int_err) :
  (forall s z, parse s = ROk z <-> int_text signed s z /\ (lo <= z <= hi)%Z) -> (forall s p, parse s <> RPanic p) ->
  (forall s, from s = rmap (fun z => Some (f z)) (parse s)) -> (forall z, (lo <= z <= hi)%Z -> meant table other z = Some (f z)) ->
  by_number signed lo hi table other from.
Proof.
  intros Hp Hn Hf Hm. apply (number_reader _ _ _ _ _ parse); try easy.
  - intros s z K. left. exists (f z). split; [apply Hm; now apply Hp in K|]. now rewrite Hf, K.
  - intros s e K. exists e. now rewrite Hf, K.
Qed.
Lemma meant_cons {A} n (x : A) t other z : meant ((n, x) :: t) other z = if (n =? z)%Z then Some x else meant t other z.
Proof. unfold meant. cbn [find fst]. now destruct (n =? z)%Z. Qed.
Ltac table := rewrite ?meant_cons; cbn [meant find]; repeat (rewrite (Z.eqb_sym _ _); destruct (_ =? _)%Z; [reflexivity|]); try reflexivity.
Lemma np_all s : (forall p, parse_i32 s <> RPanic p) /\ (forall p, parse_u8 s <> RPanic p) /\ (forall p, parse_u32 s <> RPanic p) /\ (forall p, parse_usize s <> RPanic p).
Proof. repeat split; intros p; [apply np_i32|apply np_u8|apply np_u32|apply np_usize]. Qed.
Lemma numbers_ok :
  by_i32 ts_numbers (fun z => Some (TsOther z)) tp_sample_set_from_str
  /\ by_usize ss_numbers (fun z => Some (SsOther z)) sample_set_from_str
  /\ by_u32 [] Some effects_from_str
  /\ by_i32 [] Some tp_volume_from_str
  /\ by_u32 [(0, SiDefault)]%Z (fun z => Some (SiIndex z)) sample_index_from_str
  /\ by_usize [(0, HiTimingPoint)]%Z (fun z => Some (HiIndex z)) ho_index_from_str
  /\ by_u8 [] (fun z => Some (sounds_of z)) hit_sound_from_str
  /\ by_u8 [(0, None)]%Z (fun z => option_map Some (percent z)) ho_volume_from_str
  /\ by_u8 [] percent au_volume_from_str
  /\ by_usize origin_numbers no_other origin_legacy_from_str
  /\ by_usize layer_numbers no_other layer_legacy_from_str.
Proof.
  split; [|split; [|split; [|split; [|split; [|split; [|split; [|split; [|split; [|split]]]]]]]]].
  - apply (rmap_reader true _ _ _ _ parse_i32 tp_sample_set_of_Z); [apply i32_accepts|apply np_i32|easy|]. intros z _. unfold ts_numbers, tp_sample_set_of_Z. table.
  - apply (rmap_reader false _ _ _ _ parse_usize sample_set_of_Z); [apply usize_accepts|apply np_usize|easy|]. intros z _. unfold ss_numbers, sample_set_of_Z. table.
  - apply (rmap_reader false _ _ _ _ parse_u32 (fun z => z)); [apply u32_accepts|apply np_u32|easy|]. easy.
  - apply (rmap_reader true _ _ _ _ parse_i32 (fun z => z)); [apply i32_accepts|apply np_i32|easy|]. easy.
  - apply (rmap_reader false _ _ _ _ parse_u32 sample_index_of_u32); [apply u32_accepts|apply np_u32|easy|]. intros z _. unfold sample_index_of_u32. table.
  - apply (rmap_reader false _ _ _ _ parse_usize ho_index_of_Z); [apply usize_accepts|apply np_usize|easy|]. intros z _. unfold ho_index_of_Z. table.
  - apply (rmap_reader false _ _ _ _ parse_u8 hit_sound_of_u8); [apply u8_accepts|apply np_u8|easy|]. intros z Hz. reflexivity.
  - apply (number_reader _ _ _ _ _ parse_u8); [apply u8_accepts|apply np_u8| |].
    + intros s z K. unfold ho_volume_from_str. rewrite K, meant_cons, (Z.eqb_sym 0 z). destruct (z =? 0)%Z eqn:E0; [left; now exists None|].
      unfold ho_volume_new. rewrite E0. cbn [meant find]. unfold meant, percent. cbn [find]. rewrite Z.leb_antisym. destruct (100 <? z)%Z; cbn [negb option_map]; [right; split; [easy|eexists; reflexivity]|left; now exists (Some z)].
    + intros s e K. unfold ho_volume_from_str. rewrite K. eexists. reflexivity.
  - apply (number_reader _ _ _ _ _ parse_u8); [apply u8_accepts|apply np_u8| |].
    + intros s z K. unfold au_volume_from_str, au_volume_of_Z, meant, percent. cbn [find]. rewrite K, Z.leb_antisym. destruct (100 <? z)%Z; cbn [negb]; [right; split; [easy|eexists; reflexivity]|left; now exists z].
    + intros s e K. unfold au_volume_from_str. rewrite K. eexists. reflexivity.
  - apply (number_reader _ _ _ _ _ parse_usize); [apply usize_accepts|apply np_usize| |].
    + intros s z K. unfold origin_legacy_from_str. rewrite K.
      assert (M : origin_type_of_Z z = meant origin_numbers no_other z) by (unfold origin_numbers; destruct z as [|p|p]; [reflexivity| |reflexivity]; do 4 (destruct p; try reflexivity)).
      rewrite M. destruct (meant origin_numbers no_other z) as [x|]; [left; now exists x|right; split; [easy|eexists; reflexivity]].
    + intros s e K. unfold origin_legacy_from_str. rewrite K. eexists. reflexivity.
  - apply (number_reader _ _ _ _ _ parse_usize); [apply usize_accepts|apply np_usize| |].
    + intros s z K. unfold layer_legacy_from_str. rewrite K.
      assert (M : layer_legacy_of_Z z = meant layer_numbers no_other z) by (unfold layer_numbers; destruct z as [|p|p]; [reflexivity| |reflexivity]; do 3 (destruct p; try reflexivity)).
      rewrite M. destruct (meant layer_numbers no_other z) as [x|]; [left; now exists x|right; split; [easy|eexists; reflexivity]].
    + intros s e K. unfold layer_legacy_from_str. rewrite K. eexists. reflexivity.
Qed.

(** ** settling *)
Lemma print_text_i32 z : (- 2 ^ 31 <= z <= 2 ^ 31 - 1)%Z -> int_text true (print_Z z) z.
Proof. intros H. apply i32_accepts. apply parse_print_i32. unfold in_i32, i32_min, i32_max. apply andb_true_iff. split; apply Z.leb_le; lia. Qed.
Lemma print_text_usize z : (0 <= z <= 2 ^ 64 - 1)%Z -> int_text false (print_Z z) z.
Proof. intros H. apply usize_accepts. apply parse_print_usize. unfold in_usize, usize_max. apply andb_true_iff. split; apply Z.leb_le; lia. Qed.
Lemma number_settles {A E} (signed : bool) lo hi table other (from : str -> res (option A) E) to :
  by_number signed lo hi table other from -> (forall z, (lo <= z <= hi)%Z -> int_text signed (print_Z z) z) ->
  (forall z x, (lo <= z <= hi)%Z -> meant table other z = Some x -> exists z', (lo <= z' <= hi)%Z /\ meant table other z' = Some x /\ to x = print_Z z') ->
  settles_alone from to.
Proof.
  intros [_ H] T K s x Hs. apply H in Hs as (z & _ & Hr & M). destruct (K z x Hr M) as (z' & Hr' & M' & ->).
  apply H. exists z'. split; [now apply T|easy].
Qed.
Lemma text_u8 z : (0 <= z <= 2 ^ 8 - 1)%Z -> int_text false (print_Z z) z.
Proof. intros H. apply print_text_usize. lia. Qed.
Lemma text_u32 z : (0 <= z <= 2 ^ 32 - 1)%Z -> int_text false (print_Z z) z.
Proof. intros H. apply print_text_usize. lia. Qed.
Ltac mcases := rewrite ?meant_cons; repeat match goal with |- context [(?a =? ?b)%Z] => let E := fresh in destruct (Z.eqb_spec a b) as [E|E]; [intros [= <-]; rewrite <- E; reflexivity|] end; unfold meant; cbn [find].
Lemma settles_ok :
  settles_alone tp_sample_set_from_str tp_sample_set_to_string /\ settles_alone sample_set_from_str sample_set_to_string
  /\ settles_alone effects_from_str effects_to_string /\ settles_alone tp_volume_from_str print_Z
  /\ settles_alone ho_index_from_str ho_index_to_string /\ settles_alone hit_sound_from_str hit_sound_to_string
  /\ settles_alone ho_volume_from_str (fun x => print_Z (ho_volume_to_Z x)) /\ settles_alone au_volume_from_str print_Z
  /\ settles_alone origin_legacy_from_str (fun x => print_Z (origin_type_to_Z x))
  /\ settles_alone layer_legacy_from_str (fun x => print_Z (layer_legacy_to_Z x)).
Proof.
  pose proof numbers_ok as (N1 & N2 & N3 & N4 & N5 & N6 & N7 & N8 & N9 & N10 & N11).
  split; [|split; [|split; [|split; [|split; [|split; [|split; [|split; [|split]]]]]]]].
  - apply (number_settles _ _ _ _ _ _ _ N1 print_text_i32). intros z x Hr M. exists z. split; [easy|]. split; [easy|].
    unfold tp_sample_set_to_string. f_equal. revert M. unfold ts_numbers. mcases. now intros [= <-].
  - apply (number_settles _ _ _ _ _ _ _ N2 print_text_usize). intros z x Hr M. exists z. split; [easy|]. split; [easy|].
    unfold sample_set_to_string. f_equal. revert M. unfold ss_numbers. mcases. now intros [= <-].
  - apply (number_settles _ _ _ _ _ _ _ N3 text_u32). intros z x Hr M. assert (M' : Some z = Some x) by exact M. injection M' as <-. now exists z.
  - apply (number_settles _ _ _ _ _ _ _ N4 print_text_i32). intros z x Hr M. assert (M' : Some z = Some x) by exact M. injection M' as <-. now exists z.
  - apply (number_settles _ _ _ _ _ _ _ N6 print_text_usize). intros z x Hr M. exists z. split; [easy|]. split; [easy|].
    unfold ho_index_to_string. f_equal. revert M. mcases. now intros [= <-].
  - intros s x _. apply hit_sound_print.
  - apply (number_settles _ _ _ _ _ _ _ N8 text_u8). intros z x Hr M. exists z. split; [easy|]. split; [easy|].
    f_equal. revert M. mcases. unfold percent. destruct (z <=? 100)%Z; [|easy]. now intros [= <-].
  - apply (number_settles _ _ _ _ _ _ _ N9 text_u8). intros z x Hr M. exists z. split; [easy|]. split; [easy|].
    f_equal. revert M. unfold meant, percent. cbn [find]. destruct (z <=? 100)%Z; [|easy]. now intros [= <-].
  - intros s x _. apply legacy_origin_parse.
  - intros s x _. apply legacy_layer_parse.
Qed.
Lemma index_settles s x : sample_index_from_str s = ROk (Some x) ->
  (exists z, int_text false s z /\ (2 ^ 31 <= z)%Z) \/ sample_index_from_str (sample_index_to_string x) = ROk (Some x).
Proof.
  intros H. pose proof numbers_ok as (_ & _ & _ & _ & [_ N] & _).
  pose proof H as K. apply N in K as (z & Hz & Hr & M).
  destruct (Z_lt_le_dec z (2 ^ 31)) as [L|L]; [right|left; now exists z].
  apply N. exists z. split; [|easy].
  replace (sample_index_to_string x) with (print_Z z); [apply text_u32; lia|].
  unfold sample_index_to_string. f_equal. revert M. mcases. intros [= <-].
  symmetry. apply wrap_i32_small. unfold i32_max. lia.
Qed.
(** above, what is printed is a negative number, which is not read *)
Lemma index_lost s z : int_text false s z -> (2 ^ 31 <= z <= 2 ^ 32 - 1)%Z ->
  sample_index_from_str s = ROk (Some (SiIndex z)) /\ exists e, sample_index_from_str (sample_index_to_string (SiIndex z)) = RErr e.
Proof.
  intros Hz Hr. pose proof numbers_ok as (_ & _ & _ & _ & [A N] & _). split.
  - apply N. exists z. split; [easy|]. split; [lia|]. rewrite meant_cons. destruct (Z.eqb_spec 0 z); [lia|reflexivity].
  - apply sample_index_big.
    + unfold sample_index_ok, u32_max. apply andb_true_iff. split; apply Z.leb_le; lia.
    + unfold index_small, i32_max. apply Z.leb_gt. lia.
Qed.

(** ** two parts *)
Lemma two_cut s a b : cut_at 58 s = Some (a, b) <-> two_parts s a b.
Proof.
  unfold two_parts. change (lit ":") with [58]. revert a b. induction s as [|d s IH]; intros a b; cbn [cut_at].
  - split; [easy|]. intros [H _]. now destruct a.
  - destruct (N.eqb_spec d 58) as [->|D].
    + split; [intros [= <- <-]; now split|]. intros [H K]. destruct a as [|c a]; [now injection H as <-|]. injection H as <- _. elim K. now left.
    + destruct (cut_at 58 s) as [[x y]|].
      * split.
        -- intros [= <- <-]. destruct (proj1 (IH x y) eq_refl) as [-> K]. split; [easy|]. intros [H|H]; congruence.
        -- intros [H K]. destruct a as [|c a]; [injection H as H _; congruence|]. injection H as <- H.
           assert (Q : Some (x, y) = Some (a, b)) by (apply IH; split; [easy|]; intros Q; apply K; now right).
           injection Q as <- <-. reflexivity.
      * split; [easy|]. intros [H K]. destruct a as [|c a]; [injection H as H _; congruence|]. injection H as <- H.
        assert (Q : None = Some (a, b)) by (apply IH; split; [easy|]; intros Q; apply K; now right). discriminate Q.
Qed.
Lemma edge_answers : answers edge_set_from_str.
Proof.
  intros s. pose proof (agree_edge s) as H. cbv beta in H. unfold v_unwrap in H.
  pose proof (edge_quiet s) as Q. unfold edge_set_from_str in *.
  destruct (verbose_error_to_error (edge_set_parser s)) as [x|e|p]; cbn in *; [left; now exists x|right; now exists e|].
  destruct (rd_edge s) as [| |q]; try easy. now elim (Q q).
Qed.
Lemma edge_reads s x : edge_set_from_str s = ROk (Some x) <->
  exists a b n d, two_parts s a b /\ sample_set_from_str a = ROk (Some n) /\ sample_set_from_str b = ROk (Some d) /\ x = mk_edge_set n d.
Proof.
  assert (R : edge_set_from_str s = ROk (Some x) <-> rd_edge s = ROk x).
  { pose proof (agree_edge s) as H. cbv beta in H. rewrite <- v_unwrap_ok.
    destruct (v_unwrap (edge_set_from_str s)), (rd_edge s); try easy. split; congruence. }
  rewrite R. unfold rd_edge. split.
  - destruct (cut_at 58 s) as [[a b]|] eqn:C; [|easy]. apply two_cut in C.
    destruct (rd_set a) as [n| |] eqn:Ea; [|easy|easy]. destruct (rd_set b) as [d| |] eqn:Eb; [|easy|easy]. intros [= <-].
    exists a, b, n, d. rewrite !set_is, Ea, Eb. easy.
  - intros (a & b & n & d & C & Ha & Hb & ->). apply two_cut in C. rewrite C. rewrite set_is in Ha, Hb.
    destruct (rd_set a); try easy. destruct (rd_set b); try easy. cbn in Ha, Hb. congruence.
Qed.
Lemma edge_settles : settles_alone edge_set_from_str edge_set_to_string.
Proof. intros s x H. apply edge_set_print. now apply edge_set_image in H. Qed.
Lemma point_answers : answers curve_point_from_str.
Proof.
  intros s. pose proof (agree_point s) as H. cbv beta in H. unfold v_unwrap in H.
  pose proof (point_quiet s) as Q. unfold curve_point_from_str in *.
  destruct (verbose_error_to_error (curve_point_parser s)) as [x|e|p]; cbn in *; [left; now exists x|right; now exists e|].
  destruct (rd_point s) as [| |q]; try easy. now elim (Q q).
Qed.
Lemma point_reads s x : curve_point_from_str s = ROk (Some x) <->
  exists a b, two_parts s a b /\ x = mk_pos (decimal_of_str a) (decimal_of_str b).
Proof.
  assert (R : curve_point_from_str s = ROk (Some x) <-> rd_point s = ROk x).
  { pose proof (agree_point s) as H. cbv beta in H. rewrite <- v_unwrap_ok.
    destruct (v_unwrap (curve_point_from_str s)), (rd_point s); try easy. split; congruence. }
  rewrite R. unfold rd_point. split.
  - destruct (cut_at 58 s) as [[a b]|] eqn:C; [|easy]. apply two_cut in C. intros [= <-]. now exists a, b.
  - intros (a & b & C & ->). apply two_cut in C. now rewrite C.
Qed.
Lemma no_colon_in s : no_colon s = true <-> ~ In 58 s.
Proof.
  unfold no_colon. rewrite forallb_forall. split.
  - intros H K. apply H in K. discriminate K.
  - intros H c K. destruct (N.eqb_spec c 58) as [->|]; [now elim H|easy].
Qed.
Lemma point_settles : settles_alone curve_point_from_str curve_point_to_string.
Proof.
  intros s x H. apply point_reads in H as (a & b & [-> K] & ->). apply point_reads.
  exists (print_decimal (decimal_of_str a)), (print_decimal (decimal_of_str b)). split.
  - split; [reflexivity|]. apply no_colon_in. apply dec_no_colon_print.
    unfold decimal_of_str. destruct (parse_rdec a); cbn; [easy|]. now apply no_colon_in.
  - now rewrite !decimal_print_parse by apply decimal_of_str_wf.
Qed.

(** ** an origin *)
Lemma name_iff s x : origin_of_name s = Some x <-> exists t, In (t, x) origin_names /\ s = lit t.
Proof.
  unfold origin_of_name. split.
  - repeat (let K := fresh in let H := fresh in destruct (str_eqb s _) eqn:K; [apply str_eqb_eq in K; intros H; injection H as <-; eexists; split; [|exact K]; cbn; tauto|clear K]). discriminate.
  - intros (t & H & ->). cbv [In origin_names] in H. repeat (destruct H as [H|H]; [apply pair_equal_spec in H as [<- <-]; reflexivity|]). destruct H.
Qed.
Lemma origin_Z_meant z : origin_type_of_Z z = meant origin_numbers no_other z.
Proof. unfold origin_numbers; destruct z as [|p|p]; [reflexivity| |reflexivity]; do 4 (destruct p; try reflexivity). Qed.
Lemma name_no_number s x z : origin_of_name s = Some x -> parse_i32 s <> ROk z.
Proof.
  intros H. apply name_iff in H as (t & H & ->). cbv [In origin_names] in H.
  repeat (destruct H as [H|H]; [apply pair_equal_spec in H as [<- _]; vm_compute; discriminate|]). destruct H.
Qed.
Lemma origin_reads s o : origin_from_str s = ROk (Some o) <-> origin_means s o.
Proof.
  unfold origin_from_str, origin_means. split.
  - destruct (origin_of_name s) as [x|] eqn:E.
    + intros [= <-]. left. apply name_iff in E as (t & Ht & ->). now exists t, x.
    + intros H. apply rmap_inv in H as (z & H & [= ->]). right. exists z. apply i32_accepts in H as [H1 H2]. now rewrite origin_Z_meant.
  - intros [(t & x & Ht & -> & ->)|(z & H1 & H2 & ->)].
    + assert (E : origin_of_name (lit t) = Some x) by (apply name_iff; now exists t). now rewrite E.
    + assert (P : parse_i32 s = ROk z) by now apply i32_accepts.
      destruct (origin_of_name s) as [x|] eqn:E; [now elim (name_no_number s x z E)|]. rewrite P. cbn [rmap rbind]. now rewrite origin_Z_meant.
Qed.
Lemma origin_answers : answers origin_from_str.
Proof.
  intros s. unfold origin_from_str. destruct (origin_of_name s) as [x|]; [left; eexists; reflexivity|].
  destruct (parse_i32 s) as [z|e|p] eqn:E; [left; eexists; reflexivity|right; eexists; reflexivity|]. now apply np_i32 in E.
Qed.
Lemma origin_settles : settles_alone origin_from_str origin_to_string.
Proof.
  intros s o H. apply origin_reads in H as [(t & x & Ht & -> & ->)|(z & H1 & H2 & ->)].
  - apply origin_reads. left. exists t, x. split; [easy|]. split; [|easy]. cbv [In origin_names] in Ht.
    repeat (destruct Ht as [H|Ht]; [apply pair_equal_spec in H as [<- <-]; reflexivity|]). destruct Ht.
  - apply origin_parse. unfold origin_ok. cbn [or_type or_short]. rewrite <- origin_Z_meant.
    destruct (origin_type_of_Z z) eqn:E; [easy|]. cbn [andb]. apply andb_true_iff. split.
    + unfold in_i32, i32_min, i32_max. apply andb_true_iff. split; apply Z.leb_le; lia.
    + destruct (Z.ltb_spec z 0); [easy|]. cbn [orb]. apply Z.ltb_lt. apply Z.nle_gt. intros L.
      assert (Q : (z = 0 \/ z = 1 \/ z = 2 \/ z = 3 \/ z = 4 \/ z = 5 \/ z = 6 \/ z = 7 \/ z = 8 \/ z = 9)%Z) by lia.
      repeat (destruct Q as [->|Q]; [discriminate E|]). subst z. discriminate E.
Qed.

(** ** a variable and a colour *)
Lemma var_text s x : var_from_str s = ROk (Some x) -> var_to_string x = s.
Proof. intros H. apply var_line_iff in H as [-> _]. reflexivity. Qed.
Lemma var_settles : settles_alone var_from_str var_to_string.
Proof. intros s x H. now rewrite (var_text s x H). Qed.
Lemma var_answers : answers var_from_str.
Proof. intros s. destruct (var_cases s) as [(y & Hy & E)|[_ E]]; [left; now exists y|right; eexists; exact E]. Qed.
Lemma rgb_settles v : settles_alone (fun s => rgb_from_str s v) rgb_to_string.
Proof.
  intros s x H. apply rgb_from_print. unfold rgb_from_str, verbose_error_to_error in H.
  destruct (rgb_parser s) as [r y|e|e|] eqn:E; cbn in H; try easy; try (now destruct (e_ctx e)).
  injection H as <-. now apply rgb_parser_ok in E.
Qed.
