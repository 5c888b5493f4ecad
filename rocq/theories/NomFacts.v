(** Facts about the parser combinators.

    - how a combinator steps on an input of the form [printed ++ rest];
    - [safe]: a parser never panics (in particular never runs out of fuel) and never
      returns more text than it got;
    - [safec]: moreover every error it returns carries a context, which is what
      [verbose_error_to_error] needs. *)
From Coq Require Import String List NArith ZArith Bool Lia.
From Verif Require Import Str Num Nom Dec Parsers Spec StrFacts NumFacts.
Import ListNotations.
Local Open Scope N_scope.

(** The head of the remaining input does not satisfy [f]. *)
Definition stops (f : char -> bool) (s : str) : bool :=
  match s with [] => true | c :: _ => negb (f c) end.

(** close a goal [K x <> K y] from [forall z, K x <> K z] *)
Ltac contra :=
  let E := fresh in intros E;
  match type of E with _ = ?k _ => injection E as E end;
  match goal with
  | [ H : forall z, _ <> _ |- _ ] => now destruct (H _ eq_refl)
  end.

Section Step.
  Context {C : Type}.

  Lemma stops_span f s : stops f s = true -> span f s = ([], s).
  Proof.
    destruct s as [|c s]; [easy|]. simpl. intros H. apply negb_true_iff in H. now rewrite H.
  Qed.
  Lemma take_while_app f a b :
    forallb f a = true -> stops f b = true -> @take_while C f (a ++ b) = POk b a.
  Proof.
    intros Ha Hb. unfold take_while. rewrite (span_app f a b Ha (stops_span f b Hb)). easy.
  Qed.
  Lemma take_while_all f a : forallb f a = true -> @take_while C f a = POk [] a.
  Proof. intros H. rewrite <- (app_nil_r a) at 1. now apply take_while_app. Qed.
  Lemma take_while_none f b : stops f b = true -> @take_while C f b = POk b [].
  Proof. intros H. now apply (take_while_app f []). Qed.
  Lemma tag_app t b : @tag C t (t ++ b) = POk b t.
  Proof. unfold tag. now rewrite strip_prefix_app. Qed.
  Lemma pchar_app c b : @pchar C c (c :: b) = POk b c.
  Proof. unfold pchar. now rewrite N.eqb_refl. Qed.

  Lemma pbind_ok {A B} (p : parser C A) (f : A -> parser C B) s r a :
    p s = POk r a -> pbind p f s = f a r.
  Proof. unfold pbind. now intros ->. Qed.
  Lemma preceded_ok {A B} (p : parser C A) (q : parser C B) s r a :
    p s = POk r a -> preceded p q s = q r.
  Proof. unfold preceded. apply pbind_ok. Qed.
  Lemma context_ok {A} c (p : parser C A) s r a : p s = POk r a -> context c p s = POk r a.
  Proof. unfold context. now intros ->. Qed.
  Lemma map_res_ok {A B E} (p : parser C A) (f : A -> res B E) s r a b :
    p s = POk r a -> f a = ROk b -> map_res p f s = POk r b.
  Proof. unfold map_res. now intros -> ->. Qed.
  Lemma alt_l {A} (p q : parser C A) s r a : p s = POk r a -> alt p q s = POk r a.
  Proof. unfold alt. now intros ->. Qed.
  Lemma alt_r {A} (p q : parser C A) s e : p s = PErr e -> alt p q s = q s.
  Proof. unfold alt. now intros ->. Qed.

  Lemma pbind_inv {A B} (p : parser C A) (f : A -> parser C B) s r b :
    pbind p f s = POk r b -> exists r1 a, p s = POk r1 a /\ f a r1 = POk r b.
  Proof. unfold pbind. destruct (p s); try easy. eauto. Qed.
  Lemma pmap_inv {A B} (p : parser C A) (f : A -> B) s r b :
    pmap f p s = POk r b -> exists a, p s = POk r a /\ b = f a.
  Proof. unfold pmap. destruct (p s); try easy. intros [= -> <-]. eauto. Qed.
  Lemma map_res_inv {A B E} (p : parser C A) (f : A -> res B E) s r b :
    map_res p f s = POk r b -> exists a, p s = POk r a /\ f a = ROk b.
  Proof.
    unfold map_res. destruct (p s) as [r0 a| | |]; try easy.
    destruct (f a) eqn:E1; try easy. intros [= -> <-]. eauto.
  Qed.
  Lemma context_inv {A} c (p : parser C A) s r a : context c p s = POk r a -> p s = POk r a.
  Proof. unfold context. now destruct (p s). Qed.
  Lemma alt_inv {A} (p q : parser C A) s r a :
    alt p q s = POk r a -> p s = POk r a \/ q s = POk r a.
  Proof. unfold alt. destruct (p s); auto; try easy. Qed.
  Lemma take_while_inv f s r a :
    @take_while C f s = POk r a ->
    s = a ++ r /\ forallb f a = true /\ stops f r = true.
  Proof.
    unfold take_while. destruct (span f s) as [x y] eqn:E. intros [= <- <-].
    apply span_spec in E as (-> & Hx & Hy). repeat split; try easy.
    destruct y; simpl; [easy|]. now rewrite Hy.
  Qed.
  Lemma tag_inv t s r a : @tag C t s = POk r a -> s = t ++ r /\ a = t.
  Proof.
    unfold tag. destruct (strip_prefix t s) eqn:E; [|easy]. intros [= -> <-].
    now apply strip_prefix_spec in E.
  Qed.
  Lemma pchar_inv c s r a : @pchar C c s = POk r a -> s = c :: r /\ a = c.
  Proof.
    unfold pchar. destruct s as [|d s]; [easy|]. destruct (d =? c) eqn:E; [|easy].
    apply N.eqb_eq in E. intros [= -> <-]. now subst.
  Qed.
  Lemma eof_inv s r a : @eof C s = POk r a -> s = [] /\ r = [] /\ a = [].
  Proof. destruct s; [|easy]. now intros [= <- <-]. Qed.
  Lemma verify_inv {A} (p : parser C A) f s r a :
    verify p f s = POk r a -> p s = POk r a /\ f a = true.
  Proof.
    unfold verify. destruct (p s) as [r0 x| | |]; try easy. destruct (f x) eqn:E; [|easy].
    now intros [= <- <-].
  Qed.
  Lemma terminated_inv {A B} (p : parser C A) (q : parser C B) s r a :
    terminated p q s = POk r a -> exists r1 b, p s = POk r1 a /\ q r1 = POk r b.
  Proof.
    unfold terminated. intros H. apply pbind_inv in H as (r1 & x & H1 & H2).
    apply pmap_inv in H2 as (b & H2 & ->). eauto.
  Qed.
  Lemma cut_inv {A} (p : parser C A) s r a : cut p s = POk r a -> p s = POk r a.
  Proof. unfold cut. now destruct (p s). Qed.
End Step.

(** ** never panics *)
Section Safe.
  Context {C : Type}.

  Definition safe_at {A} (n : nat) (r : pres C A) : Prop :=
    match r with
    | POk r _ => (length r <= n)%nat
    | PErr _ | PFail _ => True
    | PPanic _ => False
    end.
  Definition safec_at {A} (n : nat) (r : pres C A) : Prop :=
    match r with
    | POk r _ => (length r <= n)%nat
    | PErr e | PFail e => e_ctx e <> None
    | PPanic _ => False
    end.
  (** never panics, never grows the input *)
  Definition safe {A} (p : parser C A) : Prop := forall s, safe_at (length s) (p s).
  (** and every error has a context *)
  Definition safec {A} (p : parser C A) : Prop := forall s, safec_at (length s) (p s).
  (** and it never fails *)
  Definition total {A} (p : parser C A) : Prop :=
    forall s, exists r a, p s = POk r a /\ (length r <= length s)%nat.
  (** a reader closure never panics *)
  Definition np {A B E} (f : A -> res B E) : Prop := forall a x, f a <> RPanic x.

  Lemma safec_safe {A} (p : parser C A) : safec p -> safe p.
  Proof. intros H s. specialize (H s). destruct (p s); easy. Qed.
  Lemma total_safe {A} (p : parser C A) : total p -> safe p.
  Proof. intros H s. destruct (H s) as (r & a & E & L). now rewrite E. Qed.
  Lemma total_safec {A} (p : parser C A) : total p -> safec p.
  Proof. intros H s. destruct (H s) as (r & a & E & L). now rewrite E. Qed.

  Lemma take_while_total f : total (@take_while C f).
  Proof.
    intros s. unfold take_while. destruct (span f s) as [a b] eqn:E.
    apply span_spec in E as (-> & _). exists b, a. split; [easy|]. rewrite app_length. lia.
  Qed.
  Lemma prest_total : total (@prest C).
  Proof. intros s. exists [], s. split; [easy|]. simpl. lia. Qed.
  Lemma pret_total {A} (a : A) : total (@pret C A a).
  Proof. intros s. exists s, a. easy. Qed.
  Lemma pmap_total {A B} (f : A -> B) (p : parser C A) : total p -> total (pmap f p).
  Proof. intros H s. destruct (H s) as (r & a & E & L). exists r, (f a). unfold pmap. now rewrite E. Qed.
  Lemma pbind_total {A B} (p : parser C A) (f : A -> parser C B) :
    total p -> (forall a, total (f a)) -> total (pbind p f).
  Proof.
    intros Hp Hf s. destruct (Hp s) as (r & a & E & L). unfold pbind. rewrite E.
    destruct (Hf a r) as (r' & b & E' & L'). exists r', b. split; [easy|lia].
  Qed.
  Lemma opt_total {A} (p : parser C A) :
    safe p -> (forall s e, p s <> PFail e) -> total (opt p).
  Proof.
    intros H Hf s. unfold opt. specialize (H s). specialize (Hf s). destruct (p s).
    - eexists _, _. split; [easy|]. easy.
    - eexists _, _. split; easy.
    - now destruct (Hf e).
    - easy.
  Qed.

  Lemma pbind_safe {A B} (p : parser C A) (f : A -> parser C B) :
    safe p -> (forall a, safe (f a)) -> safe (pbind p f).
  Proof.
    intros Hp Hf s. specialize (Hp s). unfold pbind. destruct (p s) as [r a| | |]; try easy.
    specialize (Hf a r). destruct (f a r); simpl in *; try easy. lia.
  Qed.
  Lemma pbind_safec {A B} (p : parser C A) (f : A -> parser C B) :
    safec p -> (forall a, safec (f a)) -> safec (pbind p f).
  Proof.
    intros Hp Hf s. specialize (Hp s). unfold pbind. destruct (p s) as [r a| | |]; try easy.
    specialize (Hf a r). destruct (f a r); simpl in *; try easy. lia.
  Qed.
  Lemma pmap_safe {A B} (f : A -> B) (p : parser C A) : safe p -> safe (pmap f p).
  Proof. intros H s. specialize (H s). unfold pmap. now destruct (p s). Qed.
  Lemma pmap_safec {A B} (f : A -> B) (p : parser C A) : safec p -> safec (pmap f p).
  Proof. intros H s. specialize (H s). unfold pmap. now destruct (p s). Qed.
  Lemma preceded_safe {A B} (p : parser C A) (q : parser C B) :
    safe p -> safe q -> safe (preceded p q).
  Proof. intros. now apply pbind_safe. Qed.
  Lemma preceded_safec {A B} (p : parser C A) (q : parser C B) :
    safec p -> safec q -> safec (preceded p q).
  Proof. intros. now apply pbind_safec. Qed.
  Lemma terminated_safe {A B} (p : parser C A) (q : parser C B) :
    safe p -> safe q -> safe (terminated p q).
  Proof. intros. apply pbind_safe; [easy|]. intros. now apply pmap_safe. Qed.
  Lemma terminated_safec {A B} (p : parser C A) (q : parser C B) :
    safec p -> safec q -> safec (terminated p q).
  Proof. intros. apply pbind_safec; [easy|]. intros. now apply pmap_safec. Qed.
  Lemma delimited_safe {A B D} (p : parser C A) (q : parser C B) (r : parser C D) :
    safe p -> safe q -> safe r -> safe (delimited p q r).
  Proof. intros. apply preceded_safe; [easy|]. now apply terminated_safe. Qed.
  Lemma pair_safe {A B} (p : parser C A) (q : parser C B) :
    safe p -> safe q -> safe (pair p q).
  Proof. intros. apply pbind_safe; [easy|]. intros. now apply pmap_safe. Qed.
  Lemma pair_safec {A B} (p : parser C A) (q : parser C B) :
    safec p -> safec q -> safec (pair p q).
  Proof. intros. apply pbind_safec; [easy|]. intros. now apply pmap_safec. Qed.
  Lemma tag_safe t : safe (@tag C t).
  Proof.
    intros s. unfold tag. destruct (strip_prefix t s) eqn:E; [|easy].
    apply strip_prefix_spec in E. subst. simpl. rewrite app_length. lia.
  Qed.
  Lemma pchar_safe c : safe (@pchar C c).
  Proof. intros [|d s]; [easy|]. simpl. destruct (d =? c); simpl; [lia|easy]. Qed.
  Lemma take_until_safe t : safe (@take_until C t).
  Proof.
    intros s. unfold take_until. destruct (find_sub t s) as [[a b]|] eqn:E; [|easy].
    apply find_sub_spec in E as [-> _]. simpl. rewrite app_length. lia.
  Qed.
  Lemma eof_safe : safe (@eof C).
  Proof. intros [|d s]; simpl; [lia|easy]. Qed.
  Lemma digit1_safe : safe (@digit1 C).
  Proof.
    intros s. unfold digit1. destruct (span _ s) as [a b] eqn:E.
    apply span_spec in E as (-> & _). destruct a; simpl; [easy|]. rewrite app_length. lia.
  Qed.
  Lemma pfail_safe {A} : safe (@pfail C A).
  Proof. easy. Qed.
  Lemma map_res_safe {A B E} (p : parser C A) (f : A -> res B E) :
    safe p -> np f -> safe (map_res p f).
  Proof.
    intros H Hf s. specialize (H s). unfold map_res. destruct (p s) as [r a| | |]; try easy.
    specialize (Hf a). destruct (f a) as [| |x]; try easy. now destruct (Hf x).
  Qed.
  Lemma map_opt_safe {A B} (p : parser C A) (f : A -> option B) : safe p -> safe (map_opt p f).
  Proof.
    intros H s. specialize (H s). unfold map_opt. destruct (p s) as [r a| | |]; try easy.
    now destruct (f a).
  Qed.
  Lemma map_run_safe {A B} (p : parser C A) (f : A -> run B) :
    safe p -> np f -> safe (map_run p f).
  Proof.
    intros H Hf s. specialize (H s). unfold map_run. destruct (p s) as [r a| | |]; try easy.
    specialize (Hf a). destruct (f a) as [|[]|x]; try easy. now destruct (Hf x).
  Qed.
  Lemma verify_safe {A} (p : parser C A) f : safe p -> safe (verify p f).
  Proof.
    intros H s. specialize (H s). unfold verify. destruct (p s) as [r a| | |]; try easy.
    now destruct (f a).
  Qed.
  Lemma cut_safe {A} (p : parser C A) : safe p -> safe (cut p).
  Proof. intros H s. specialize (H s). unfold cut. now destruct (p s). Qed.
  Lemma cut_safec {A} (p : parser C A) : safec p -> safec (cut p).
  Proof. intros H s. specialize (H s). unfold cut. now destruct (p s). Qed.
  Lemma peek_safe {A} (p : parser C A) : safe p -> safe (peek p).
  Proof. intros H s. specialize (H s). unfold peek. destruct (p s); simpl; try easy. Qed.
  Lemma peek_safec {A} (p : parser C A) : safec p -> safec (peek p).
  Proof. intros H s. specialize (H s). unfold peek. destruct (p s); simpl; try easy. Qed.
  Lemma context_safe {A} c (p : parser C A) : safe p -> safe (context c p).
  Proof. intros H s. specialize (H s). unfold context. now destruct (p s). Qed.
  Lemma context_safec {A} c (p : parser C A) : safe p -> safec (context c p).
  Proof.
    intros H s. specialize (H s). unfold context. destruct (p s) as [|e|e|]; simpl in *; try easy;
      unfold add_ctx; destruct (e_ctx e) eqn:E; simpl; congruence.
  Qed.
  Lemma alt_safe {A} (p q : parser C A) : safe p -> safe q -> safe (alt p q).
  Proof.
    intros Hp Hq s. specialize (Hp s). unfold alt. now destruct (p s).
  Qed.
  (** the first branch must not fail unrecoverably without a context *)
  Definition nofail {A} (p : parser C A) : Prop := forall s e, p s <> PFail e.
  Lemma alt_safec {A} (p q : parser C A) : safe p -> nofail p -> safec q -> safec (alt p q).
  Proof.
    intros Hp Hn Hq s. specialize (Hp s). specialize (Hn s). unfold alt.
    destruct (p s); try easy. now destruct (Hn e).
  Qed.
  Lemma alt_safec2 {A} (p q : parser C A) : safec p -> safec q -> safec (alt p q).
  Proof.
    intros Hp Hq s. specialize (Hp s). unfold alt.
    now destruct (p s).
  Qed.
  Lemma opt_safe {A} (p : parser C A) : safe p -> safe (opt p).
  Proof. intros H s. specialize (H s). unfold opt. destruct (p s); simpl; try easy. Qed.
  Lemma opt_safec {A} (p : parser C A) : safec p -> safec (opt p).
  Proof. intros H s. specialize (H s). unfold opt. destruct (p s); simpl; try easy. Qed.

  Lemma many0_aux_safe {A} (p : parser C A) : safe p ->
    forall f s, (length s < f)%nat -> safe_at (length s) (many0_aux f p s).
  Proof.
    intros Hp f. induction f as [|f IH]; intros s Hf; [lia|]. cbn [many0_aux].
    specialize (Hp s). destruct (p s) as [r a| | |]; simpl in *; try easy.
    destruct (Nat.eqb (length r) (length s)) eqn:E; [easy|]. apply Nat.eqb_neq in E.
    specialize (IH r ltac:(lia)). destruct (many0_aux f p r); simpl in *; try easy. lia.
  Qed.
  Lemma many0_safe {A} (p : parser C A) : safe p -> safe (many0 p).
  Proof. intros H s. apply many0_aux_safe; [easy|lia]. Qed.

  Lemma sep_tail_safe {A B} (sep : parser C B) (p : parser C A) : safe sep -> safe p ->
    forall f s, (length s < f)%nat -> safe_at (length s) (sep_tail f sep p s).
  Proof.
    intros Hs Hp f. induction f as [|f IH]; intros s Hf; [lia|]. cbn [sep_tail].
    specialize (Hs s). destruct (sep s) as [r a| | |]; simpl in *; try easy.
    destruct (Nat.eqb (length r) (length s)) eqn:E; [easy|]. apply Nat.eqb_neq in E.
    specialize (Hp r). destruct (p r) as [r' a'| | |]; simpl in *; try easy.
    specialize (IH r' ltac:(lia)). destruct (sep_tail f sep p r'); simpl in *; try easy. lia.
  Qed.
  Lemma separated_list0_safe {A B} (sep : parser C B) (p : parser C A) :
    safe sep -> safe p -> safe (separated_list0 sep p).
  Proof.
    intros Hs Hp s. unfold separated_list0. pose proof (Hp s) as H.
    destruct (p s) as [r a| | |]; cbn [safe_at] in H |- *; try easy.
    pose proof (sep_tail_safe sep p Hs Hp (S (length r)) r ltac:(lia)) as H2.
    remember (sep_tail (S (length r)) sep p r) as t eqn:Et. clear Et.
    destruct t; unfold safe_at in *; try easy. lia.
  Qed.

  (** ** never fails unrecoverably *)
  Lemma nofail_pbind {A B} (p : parser C A) (f : A -> parser C B) :
    nofail p -> (forall a, nofail (f a)) -> nofail (pbind p f).
  Proof.
    intros Hp Hf s e. specialize (Hp s). unfold pbind. destruct (p s) as [r a| | |] eqn:E; try easy.
    - apply Hf.
    - intros [= ->]. now apply (Hp e).
  Qed.
  Lemma nofail_pmap {A B} (f : A -> B) (p : parser C A) : nofail p -> nofail (pmap f p).
  Proof. intros H s e. specialize (H s). unfold pmap. destruct (p s); try easy. contra. Qed.
  Lemma nofail_total {A} (p : parser C A) : total p -> nofail p.
  Proof. intros H s e. destruct (H s) as (r & a & E & _). congruence. Qed.
  Lemma nofail_tag t : nofail (@tag C t).
  Proof. intros s e. unfold tag. now destruct (strip_prefix t s). Qed.
  Lemma nofail_map_res {A B E} (p : parser C A) (f : A -> res B E) : nofail p -> nofail (map_res p f).
  Proof.
    intros H s e. specialize (H s). unfold map_res. destruct (p s) as [r a| | |]; try easy.
    - now destruct (f a).
    - contra.
  Qed.
  Lemma nofail_context {A} c (p : parser C A) : nofail p -> nofail (context c p).
  Proof.
    intros H s e. specialize (H s). unfold context. destruct (p s) as [r a| |e0|]; try easy.
    now destruct (H e0).
  Qed.
  Lemma nofail_eof : nofail (@eof C).
  Proof. now intros [|]. Qed.
  Lemma nofail_pchar c : nofail (@pchar C c).
  Proof. intros [|d s] e; simpl; [easy|]. now destruct (d =? c). Qed.
  Lemma nofail_verify {A} (p : parser C A) f : nofail p -> nofail (verify p f).
  Proof.
    intros H s e. specialize (H s). unfold verify. destruct (p s) as [r a| |e0|]; try easy.
    now destruct (f a).
  Qed.
  Lemma nofail_alt {A} (p q : parser C A) : nofail p -> nofail q -> nofail (alt p q).
  Proof. intros Hp Hq s e. specialize (Hp s). unfold alt. destruct (p s); try easy. Qed.

  Lemma verbose_np {A} (p : parser C A) s x :
    safec p -> verbose_error_to_error (p s) <> RPanic x.
  Proof.
    intros H. specialize (H s). unfold verbose_error_to_error.
    destruct (p s) as [|e|e|]; simpl in H; try easy; destruct (e_ctx e); easy.
  Qed.
End Safe.

(** ** readers *)
Lemma np_rmap {A B B' E} (g : B -> B') (f : A -> res B E) : np f -> np (fun a => rmap g (f a)).
Proof. intros H a x. specialize (H a). unfold rmap. destruct (f a); try easy. contra. Qed.
Lemma np_rmap_err {A B E F} (g : E -> F) (f : A -> res B E) : np f -> np (fun a => rmap_err g (f a)).
Proof. intros H a x. specialize (H a). unfold rmap_err. destruct (f a); try easy. contra. Qed.
Lemma np_u8 : np parse_u8. Proof. intros s. apply parse_u8_no_panic. Qed.
Lemma np_i32 : np parse_i32. Proof. intros s. apply parse_i32_no_panic. Qed.
Lemma np_u32 : np parse_u32. Proof. intros s. apply parse_u32_no_panic. Qed.
Lemma np_usize : np parse_usize. Proof. intros s. apply parse_usize_no_panic. Qed.
Lemma np_decimal {E} : np (@parse_decimal E). Proof. easy. Qed.
Lemma np_bool : np parse_zero_one_bool.
Proof.
  intros s x. unfold parse_zero_one_bool. pose proof (parse_i32_no_panic s) as H.
  destruct (parse_i32 s) as [z|e|p]; [|easy|now destruct (H p)].
  now destruct z as [|[]|].
Qed.
Lemma np_v_unwrap {A B E} (f : A -> res (option B) E) :
  np f -> (forall a, f a <> ROk None) -> np (fun a => v_unwrap (f a)).
Proof.
  intros H Hn a x. unfold v_unwrap, rbind. specialize (H a). specialize (Hn a).
  destruct (f a) as [[b|]| |]; try easy; contra.
Qed.
Lemma np_v_unwrap_nv {A B E} (f : A -> res B E) :
  np f -> np (fun a => v_unwrap (rmap Some (f a))).
Proof.
  intros H a x. unfold v_unwrap, rbind, rmap. specialize (H a). destruct (f a); easy.
Qed.

Lemma comma_safe {C} : safe (@comma C). Proof. apply tag_safe. Qed.
Lemma comma_field_total {C} : total (@comma_field C). Proof. apply take_while_total. Qed.
Lemma comma_field_type_safe {C A E} (f : str -> res A E) : np f -> safe (@comma_field_type C A E f).
Proof. intros. apply map_res_safe; [apply total_safe, take_while_total|easy]. Qed.
Lemma comma_field_versioned_type_safe {C A E} (f : str -> res (option A) E) :
  np f -> (forall s, f s <> ROk None) -> safe (@comma_field_versioned_type C A E f).
Proof. intros. apply map_res_safe; [apply total_safe, take_while_total|]. now apply np_v_unwrap. Qed.
Lemma consume_rest_type_safe {C A E} (f : str -> res A E) : np f -> safe (@consume_rest_type C A E f).
Proof. intros. apply map_res_safe; [apply total_safe, prest_total|easy]. Qed.
Lemma consume_rest_versioned_type_safe {C A E} (f : str -> res (option A) E) :
  np f -> (forall s, f s <> ROk None) -> safe (@consume_rest_versioned_type C A E f).
Proof. intros. apply map_res_safe; [apply total_safe, prest_total|]. now apply np_v_unwrap. Qed.
Lemma pipe_vec_safe {C A E} (f : str -> res (option A) E) :
  np f -> (forall s, f s <> ROk None) -> safe (@pipe_vec_versioned_map C A E f).
Proof.
  intros. apply separated_list0_safe; [apply tag_safe|].
  apply map_res_safe; [apply total_safe, take_while_total|]. now apply np_v_unwrap.
Qed.
Lemma nothing_safe {C} : safe (@nothing C).
Proof. apply preceded_safe; [apply total_safe, take_while_total|apply eof_safe]. Qed.
Lemma field_line_safe {C} : safe (@field_line C).
Proof.
  apply pbind_safe.
  - apply terminated_safe; [apply total_safe, take_while_total|apply pchar_safe].
  - intros. apply pbind_safe; [apply total_safe, take_while_total|]. intros.
    apply pbind_safe; [apply total_safe, take_while_total|]. intros.
    apply pmap_safe. apply total_safe, take_while_total.
Qed.
Lemma square_section_safe {C} : safe (@square_section C).
Proof.
  apply pbind_safe; [apply total_safe, take_while_total|]. intros.
  apply pbind_safe.
  - apply delimited_safe; [apply tag_safe|apply total_safe, take_while_total|apply tag_safe].
  - intros. apply pbind_safe; [apply total_safe, take_while_total|]. intros.
    apply pmap_safe, alt_safe; [apply take_until_safe|apply total_safe, prest_total].
Qed.

Create HintDb safe.
#[export] Hint Resolve take_while_total prest_total pret_total pmap_total pbind_total
  total_safe total_safec
  pbind_safe pmap_safe preceded_safe terminated_safe delimited_safe pair_safe tag_safe pchar_safe
  take_until_safe eof_safe digit1_safe pfail_safe map_res_safe map_opt_safe verify_safe cut_safe
  peek_safe context_safe alt_safe opt_safe many0_safe separated_list0_safe
  np_rmap np_rmap_err np_u8 np_i32 np_u32 np_usize np_decimal np_bool np_v_unwrap_nv
  comma_safe comma_field_total comma_field_type_safe consume_rest_type_safe nothing_safe : safe.

(** ** [many0] as iteration *)
Lemma many0_aux_nil {C A} (p : parser C A) f s e :
  p s = PErr e -> many0_aux (S f) p s = POk s [].
Proof. intros H. cbn [many0_aux]. now rewrite H. Qed.
Lemma many0_aux_fuel {C A} (p : parser C A) f f' s :
  safe p -> (length s < f)%nat -> (length s < f')%nat -> many0_aux f p s = many0_aux f' p s.
Proof.
  intros Hp. revert f' s. induction f as [|f IH]; intros [|f'] s H H'; try lia.
  cbn [many0_aux]. specialize (Hp s). destruct (p s) as [r a| | |]; simpl in *; try easy.
  destruct (Nat.eqb (length r) (length s)) eqn:E; [easy|]. apply Nat.eqb_neq in E.
  rewrite (IH f' r) by lia. easy.
Qed.
Lemma many0_cons {C A} (p : parser C A) s r a :
  safe p -> p s = POk r a -> length r <> length s ->
  many0 p s = match many0 p r with
              | POk r' l => POk r' (a :: l)
              | x => x
              end.
Proof.
  intros Hp Hs Hl. pose proof (Hp s) as Hlen. rewrite Hs in Hlen. simpl in Hlen.
  unfold many0. cbn [many0_aux]. rewrite Hs.
  apply Nat.eqb_neq in Hl as Hl2. rewrite Hl2.
  rewrite (many0_aux_fuel p (length s) (S (length r)) r Hp) by lia. easy.
Qed.
Lemma many0_stop {C A} (p : parser C A) s e : p s = PErr e -> many0 p s = POk s [].
Proof. apply many0_aux_nil. Qed.

(** ** stepping through a parser on printed text *)
Section Steps.
  Context {C : Type}.
  Lemma pbind_step {A B} (p : parser C A) (f : A -> parser C B) s r a X :
    p s = POk r a -> f a r = X -> pbind p f s = X.
  Proof. unfold pbind. now intros ->. Qed.
  Lemma preceded_step {A B} (p : parser C A) (q : parser C B) s r a X :
    p s = POk r a -> q r = X -> preceded p q s = X.
  Proof. unfold preceded, pbind. now intros ->. Qed.
  Lemma terminated_step {A B} (p : parser C A) (q : parser C B) s r a r' b :
    p s = POk r a -> q r = POk r' b -> terminated p q s = POk r' a.
  Proof. unfold terminated, pbind, pmap. now intros -> ->. Qed.
  Lemma pmap_step {A B} (f : A -> B) (p : parser C A) s r a :
    p s = POk r a -> pmap f p s = POk r (f a).
  Proof. unfold pmap. now intros ->. Qed.
  Lemma cut_ok {A} (p : parser C A) s r a : p s = POk r a -> cut p s = POk r a.
  Proof. unfold cut. now intros ->. Qed.
  Lemma verify_ok {A} (p : parser C A) f s r a :
    p s = POk r a -> f a = true -> verify p f s = POk r a.
  Proof. unfold verify. now intros -> ->. Qed.
  Lemma opt_some {A} (p : parser C A) s r a : p s = POk r a -> opt p s = POk r (Some a).
  Proof. unfold opt. now intros ->. Qed.
  Lemma opt_none {A} (p : parser C A) s e : p s = PErr e -> opt p s = POk s None.
  Proof. unfold opt. now intros ->. Qed.
  Lemma pbind_err {A B} (p : parser C A) (f : A -> parser C B) s e :
    p s = PErr e -> pbind p f s = PErr e.
  Proof. unfold pbind. now intros ->. Qed.
  Lemma pmap_err {A B} (f : A -> B) (p : parser C A) s e :
    p s = PErr e -> pmap f p s = PErr e.
  Proof. unfold pmap. now intros ->. Qed.
  Lemma context_err {A} c (p : parser C A) s e :
    p s = PErr e -> context c p s = PErr (add_ctx c e).
  Proof. unfold context. now intros ->. Qed.
  Lemma map_run_ok {A B} (p : parser C A) (f : A -> run B) s r a b :
    p s = POk r a -> f a = ROk b -> map_run p f s = POk r b.
  Proof. unfold map_run. now intros -> ->. Qed.
  Lemma digit1_app a b :
    a <> [] -> all_digits a = true -> stops is_digit b = true -> @digit1 C (a ++ b) = POk b a.
  Proof.
    intros Hne Ha Hb. unfold digit1.
    change (fun c => (48 <=? c) && (c <=? 57)) with is_digit.
    rewrite (span_app _ a b Ha (stops_span _ b Hb)). now destruct a.
  Qed.
  Lemma prest_ok s : @prest C s = POk [] s.
  Proof. easy. Qed.
  Lemma tag_one c b : @tag C [c] (c :: b) = POk b [c].
  Proof. apply (tag_app [c] b). Qed.

  (** ** errors with their contexts *)
  Definition errs_in {A} (P : option C -> Prop) (p : parser C A) : Prop :=
    forall s, match p s with PErr e | PFail e => P (e_ctx e) | _ => True end.
  Lemma errs_pbind {A B} P (p : parser C A) (f : A -> parser C B) :
    errs_in P p -> (forall a, errs_in P (f a)) -> errs_in P (pbind p f).
  Proof.
    intros Hp Hf s. specialize (Hp s). unfold pbind. destruct (p s) as [r a| | |]; try easy.
    apply (Hf a).
  Qed.
  Lemma errs_pmap {A B} P (f : A -> B) (p : parser C A) : errs_in P p -> errs_in P (pmap f p).
  Proof. intros H s. specialize (H s). unfold pmap. now destruct (p s). Qed.
  Lemma errs_cut {A} P (p : parser C A) : errs_in P p -> errs_in P (cut p).
  Proof. intros H s. specialize (H s). unfold cut. now destruct (p s). Qed.
  Lemma errs_alt {A} P (p q : parser C A) : errs_in P p -> errs_in P q -> errs_in P (alt p q).
  Proof. intros Hp Hq s. specialize (Hp s). unfold alt. destruct (p s); try easy. apply Hq. Qed.
  Lemma errs_total {A} P (p : parser C A) : total p -> errs_in P p.
  Proof. intros H s. destruct (H s) as (r & a & -> & _). easy. Qed.
  Lemma errs_weaken {A} (P Q : option C -> Prop) (p : parser C A) :
    (forall c, P c -> Q c) -> errs_in P p -> errs_in Q p.
  Proof. intros H Hp s. specialize (Hp s). destruct (p s); auto. Qed.
  (** plain parsers: no context at all *)
  Definition is_none {A} (o : option A) : Prop := o = None.
  Lemma errs_context {A} (P Q : option C -> Prop) c (p : parser C A) :
    errs_in P p -> (forall x, P (Some x) -> Q (Some x)) -> Q (Some c) -> errs_in Q (context c p).
  Proof.
    intros Hp HP Hc s. specialize (Hp s). unfold context.
    destruct (p s) as [|e|e|]; try easy; unfold add_ctx; destruct (e_ctx e) eqn:E; cbn [e_ctx];
      rewrite ?E; auto.
  Qed.
  Lemma errs_tag t : errs_in is_none (@tag C t).
  Proof. intros s. unfold tag. now destruct (strip_prefix t s). Qed.
  Lemma errs_pchar c : errs_in is_none (@pchar C c).
  Proof. intros [|d s]; simpl; [easy|]. now destruct (d =? c). Qed.
  Lemma errs_digit1 : errs_in is_none (@digit1 C).
  Proof. intros s. unfold digit1. destruct (span _ s) as [[|] ?]; easy. Qed.
  Lemma errs_map_res {A B E} (p : parser C A) (f : A -> res B E) :
    errs_in is_none p -> errs_in is_none (map_res p f).
  Proof.
    intros H s. specialize (H s). unfold map_res. destruct (p s) as [r a| | |]; try easy.
    now destruct (f a).
  Qed.
End Steps.

Lemma num_chars_stop f s : (forall c, num_char c = true -> f c = true) ->
  forallb num_char s = true -> forallb f s = true.
Proof. apply forallb_impl. Qed.
