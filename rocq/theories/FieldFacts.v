(** Facts about comma separated fields, shared by timing points, hit objects and
    events. *)
From Coq Require Import String List NArith ZArith Bool Lia.
From Verif Require Import Str Num Nom Dec Parsers Spec StrFacts NumFacts NomFacts DecFacts.
Import ListNotations.
Local Open Scope N_scope.


Lemma forallb_no_comma (f : char -> bool) s :
  f 44 = false -> forallb f s = true -> no_comma s = true.
Proof.
  intros Hf. apply forallb_impl. intros c Hc. destruct (N.eqb_spec c 44); [congruence|easy].
Qed.
Lemma forallb_no_nl (f : char -> bool) s : f 10 = false -> forallb f s = true -> no_nl s = true.
Proof.
  intros Hf. apply forallb_impl. intros c Hc. destruct (N.eqb_spec c 10); [subst; congruence|easy].
Qed.
Lemma print_Z_no_comma z : no_comma (print_Z z) = true.
Proof. now apply (forallb_no_comma num_char), print_Z_chars. Qed.
Lemma print_Z_no_nl z : no_nl (print_Z z) = true.
Proof. now apply (forallb_no_nl num_char), print_Z_chars. Qed.
Lemma print_Z_field z : field_text (print_Z z) = true.
Proof. unfold field_text. now rewrite print_Z_no_comma, print_Z_no_nl. Qed.
Lemma print_rdec_field d : field_text (print_rdec d) = true.
Proof.
  unfold field_text. pose proof (print_rdec_chars d) as H.
  rewrite (forallb_no_comma dec_char), (forallb_no_nl dec_char); easy.
Qed.
Lemma dec_field_print d : dec_field d = true -> field_text (print_decimal d) = true.
Proof. destruct d; cbn; [intros _; apply print_rdec_field|easy]. Qed.
Lemma wf_dec_field_no_comma d : wf_dec_field d = true -> no_comma (print_decimal d) = true.
Proof.
  unfold wf_dec_field. intros H. apply andb_true_iff in H as [_ H]. apply dec_field_print in H.
  unfold field_text in H. now apply andb_true_iff in H.
Qed.
Lemma wf_dec_field_no_nl d : wf_dec_field d = true -> no_nl (print_decimal d) = true.
Proof.
  unfold wf_dec_field. intros H. apply andb_true_iff in H as [_ H]. apply dec_field_print in H.
  unfold field_text in H. now apply andb_true_iff in H.
Qed.
Lemma parse_print_decimal {E} d : wf_dec_field d = true -> @parse_decimal E (print_decimal d) = ROk d.
Proof.
  unfold wf_dec_field. intros H. apply andb_true_iff in H as [H _]. unfold parse_decimal.
  now rewrite decimal_print_parse.
Qed.
Lemma no_nl_app a b : no_nl (a ++ b) = no_nl a && no_nl b.
Proof. apply forallb_app. Qed.
Lemma no_comma_app a b : no_comma (a ++ b) = no_comma a && no_comma b.
Proof. apply forallb_app. Qed.

Section Field.
  Context {C : Type}.
  Lemma comma_field_app a b :
    no_comma a = true -> @comma_field C (a ++ lit "," ++ b) = POk (lit "," ++ b) a.
  Proof. intros H. now apply take_while_app. Qed.
  Lemma comma_field_all a : no_comma a = true -> @comma_field C a = POk [] a.
  Proof. intros H. now apply take_while_all. Qed.
  Lemma comma_ok b : @comma C (lit "," ++ b) = POk b (lit ",").
  Proof. apply tag_app. Qed.
  Lemma field_mid {A E} (f : str -> res A E) a b x :
    no_comma a = true -> f a = ROk x ->
    @comma_field_type C A E f (a ++ lit "," ++ b) = POk (lit "," ++ b) x.
  Proof. intros H Hf. eapply map_res_ok; [now apply comma_field_app|easy]. Qed.
  Lemma field_last {A E} (f : str -> res A E) a x :
    no_comma a = true -> f a = ROk x -> @comma_field_type C A E f a = POk [] x.
  Proof. intros H Hf. eapply map_res_ok; [now apply comma_field_all|easy]. Qed.
  Lemma vfield_mid {A E} (f : str -> res (option A) E) a b x :
    no_comma a = true -> f a = ROk (Some x) ->
    @comma_field_versioned_type C A E f (a ++ lit "," ++ b) = POk (lit "," ++ b) x.
  Proof.
    intros H Hf. eapply map_res_ok; [now apply comma_field_app|]. unfold v_unwrap. now rewrite Hf.
  Qed.
  Lemma vfield_last {A E} (f : str -> res (option A) E) a x :
    no_comma a = true -> f a = ROk (Some x) ->
    @comma_field_versioned_type C A E f a = POk [] x.
  Proof.
    intros H Hf. eapply map_res_ok; [now apply comma_field_all|]. unfold v_unwrap. now rewrite Hf.
  Qed.
  Lemma vfield_mid_err {A E} (f : str -> res (option A) E) a b x :
    no_comma a = true -> f a = RErr x ->
    @comma_field_versioned_type C A E f (a ++ lit "," ++ b) = PErr (mkErr KMapRes None).
  Proof.
    intros H Hf. unfold comma_field_versioned_type, map_res. rewrite comma_field_app by easy.
    unfold v_unwrap. now rewrite Hf.
  Qed.
  Lemma vrest {A E} (f : str -> res (option A) E) a x :
    f a = ROk (Some x) -> @consume_rest_versioned_type C A E f a = POk [] x.
  Proof. intros Hf. eapply map_res_ok; [easy|]. unfold v_unwrap. now rewrite Hf. Qed.
  Lemma dfield_mid d b :
    wf_dec_field d = true ->
    @comma_field_type C decimal unit (@parse_decimal unit) (print_decimal d ++ lit "," ++ b)
    = POk (lit "," ++ b) d.
  Proof. intros H. apply field_mid; [now apply wf_dec_field_no_comma|now apply parse_print_decimal]. Qed.
  Lemma dfield_last d :
    wf_dec_field d = true ->
    @comma_field_type C decimal unit (@parse_decimal unit) (print_decimal d) = POk [] d.
  Proof. intros H. apply field_last; [now apply wf_dec_field_no_comma|now apply parse_print_decimal]. Qed.

  Lemma comma_field_inv s r a :
    @comma_field C s = POk r a -> s = a ++ r /\ no_comma a = true /\ (r = [] \/ exists t, r = 44 :: t).
  Proof.
    intros H. apply take_while_inv in H as (H1 & H2 & H3). repeat split; [easy|easy|].
    destruct r as [|c r]; [now left|right]. cbn in H3. rewrite negb_involutive in H3.
    apply N.eqb_eq in H3. subst. eauto.
  Qed.
  Lemma comma_inv s r a : @comma C s = POk r a -> s = lit "," ++ r.
  Proof. intros H. now apply tag_inv in H as [-> _]. Qed.
  (** a decimal field read from a line *)
  Lemma dfield_inv s r d :
    @comma_field_type C decimal unit (@parse_decimal unit) s = POk r d ->
    exists a, s = a ++ r /\ no_comma a = true /\ d = decimal_of_str a.
  Proof.
    intros H. apply map_res_inv in H as (a & H1 & H2). apply comma_field_inv in H1 as (-> & H1 & _).
    injection H2 as <-. eauto.
  Qed.
  Lemma decimal_of_str_field a : no_comma a = true -> no_nl a = true -> wf_dec_field (decimal_of_str a) = true.
  Proof.
    intros Hc Hn. unfold wf_dec_field. rewrite decimal_of_str_wf. cbn.
    unfold decimal_of_str. destruct (parse_rdec a); [easy|]. cbn. unfold field_text. now rewrite Hc, Hn.
  Qed.
  Lemma dfield_wf s r d :
    @comma_field_type C decimal unit (@parse_decimal unit) s = POk r d -> no_nl s = true ->
    wf_dec_field d = true /\ no_nl r = true.
  Proof.
    intros H Hn. apply dfield_inv in H as (a & -> & Ha & ->).
    rewrite no_nl_app in Hn. apply andb_true_iff in Hn as [Hn Hr]. split; [|easy].
    now apply decimal_of_str_field.
  Qed.
  Lemma comma_no_nl s r a : @comma C s = POk r a -> no_nl s = true -> no_nl r = true.
  Proof. intros H. apply comma_inv in H as ->. now rewrite no_nl_app. Qed.
  Lemma comma_field_no_nl s r a : @comma_field C s = POk r a -> no_nl s = true -> no_nl r = true.
  Proof.
    intros H. apply comma_field_inv in H as (-> & _). rewrite no_nl_app.
    intros Hn. now apply andb_true_iff in Hn.
  Qed.
  Lemma v_unwrap_inv {A E} (r : res (option A) E) a : v_unwrap r = ROk a -> r = ROk (Some a).
  Proof. unfold v_unwrap, rbind, unwrap. destruct r as [[x|]| |]; congruence. Qed.
  Lemma vfield_inv {A E} (f : str -> res (option A) E) s r x :
    @comma_field_versioned_type C A E f s = POk r x ->
    exists a, s = a ++ r /\ no_comma a = true /\ f a = ROk (Some x).
  Proof.
    intros H. apply map_res_inv in H as (a & H1 & H2). apply comma_field_inv in H1 as (-> & H1 & _).
    apply v_unwrap_inv in H2. eauto.
  Qed.
  Lemma field_inv {A E} (f : str -> res A E) s r x :
    @comma_field_type C A E f s = POk r x ->
    exists a, s = a ++ r /\ no_comma a = true /\ f a = ROk x.
  Proof.
    intros H. apply map_res_inv in H as (a & H1 & H2). apply comma_field_inv in H1 as (-> & H1 & _). eauto.
  Qed.
  Lemma vrest_inv {A E} (f : str -> res (option A) E) s r x :
    @consume_rest_versioned_type C A E f s = POk r x -> r = [] /\ f s = ROk (Some x).
  Proof.
    intros H. apply map_res_inv in H as (a & [= <- <-] & H2). now apply v_unwrap_inv in H2.
  Qed.
End Field.

(** A line ending in a character other than carriage return, without newline. *)
Lemma plain_last s d : no_nl (s ++ [d]) = true -> d <> 13 -> plain_line (s ++ [d]) = true.
Proof.
  intros H Hd. unfold plain_line. rewrite H. cbn.
  destruct (ends_with_char 13 (s ++ [d])) eqn:Ee; [|easy].
  unfold ends_with_char in Ee. rewrite rev_app_distr in Ee. cbn in Ee. apply N.eqb_eq in Ee. congruence.
Qed.
Lemma print_Z_last z : exists s d, print_Z z = s ++ [d] /\ is_digit d = true.
Proof.
  destruct z as [|p|p]; unfold print_Z.
  - exists [], 48. easy.
  - destruct (@exists_last _ (print_N (N.pos p))) as (t & d & E); [apply print_N_nonempty|].
    exists t, d. split; [easy|]. pose proof (print_N_digits (N.pos p)) as H. rewrite E in H.
    unfold all_digits in H. rewrite forallb_app in H. apply andb_true_iff in H as [_ H].
    cbn in H. now rewrite andb_true_r in H.
  - destruct (@exists_last _ (print_N (N.pos p))) as (t & d & E); [apply print_N_nonempty|].
    exists (45 :: t), d. rewrite E. split; [easy|]. pose proof (print_N_digits (N.pos p)) as H. rewrite E in H.
    unfold all_digits in H. rewrite forallb_app in H. apply andb_true_iff in H as [_ H].
    cbn in H. now rewrite andb_true_r in H.
Qed.
Lemma plain_print_Z a z : no_nl a = true -> plain_line (a ++ print_Z z) = true.
Proof.
  intros H. destruct (print_Z_last z) as (s & d & E & Hd). pose proof (print_Z_no_nl z) as Hn.
  rewrite E in *. rewrite app_assoc. apply plain_last.
  - now rewrite <- app_assoc, no_nl_app, H, Hn.
  - intros ->. easy.
Qed.
Lemma not_blank_comma a b : is_blank (a ++ lit "," ++ b) = false.
Proof. rewrite is_blank_forallb, forallb_app. cbn. apply andb_false_r. Qed.
