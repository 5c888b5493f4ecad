(** Proofs for C58: equal files and their texts. *)
From Coq Require Import String List NArith ZArith QArith Bool Relations Lia.
From Verif Require Import Str Num Dec Parsers General Editor Metadata Difficulty Colours TimingPoints HitObjects
  Storyboard NormalEvents Events Osb OsuFile Equal StrFacts Spec SpecDec SpecEqual SpecSections SpecFile SpecWhole EqualFacts EqualFile
  WholeFacts WholeRead DecExact.
Import ListNotations.
Local Open Scope N_scope.

Lemma equal_equivalence :
  (forall f, osu_eq f f = true) /\ (forall f g, osu_eq f g = true -> osu_eq g f = true)
  /\ (forall f g h, osu_eq f g = true -> osu_eq g h = true -> osu_eq f h = true).
Proof.
  repeat split; intros; rewrite ?(file_R _ _) in *; congruence.
Qed.
Lemma equal_read dbg f g : file_ok f = true -> file_ok g = true -> osu_eq f g = true ->
  exists t u f' g', osu_to_string dbg f = ROk t /\ osu_to_string dbg g = ROk u
  /\ osu_from_str dbg t = ROk f' /\ osu_from_str dbg u = ROk g' /\ osu_eq f' g' = true.
Proof.
  intros Hf Hg E. destruct (whole_file dbg f Hf) as (t & _ & Pt & _ & _ & Rt).
  destruct (whole_file dbg g Hg) as (u & _ & Pu & _ & _ & Ru).
  exists t, u, (file_at f), (file_at g). do 4 (split; [assumption|]).
  apply (file_R _ _) in E. apply (file_R _ _). now rewrite !canon_at, E.
Qed.
Lemma canon_dec_value a b : canon_dec a = canon_dec b <-> (rdec_value a == rdec_value b)%Q.
Proof. now rewrite <- rdec_R, rdec_value_eq. Qed.
Lemma canon_path_same p q : canon_path p = canon_path q <-> same_path p q.
Proof. now rewrite <- path_R, path_same. Qed.
Lemma spelling s t neg m sc neg' m' sc' : number_text s neg m sc -> number_text t neg' m' sc' ->
  (decimal_eq (decimal_of_str s) (decimal_of_str t) = true
   <-> (rdec_value (mkDec neg m sc) == rdec_value (mkDec neg' m' sc'))%Q).
Proof.
  intros Hs Ht.
  assert (Es : decimal_of_str s = DNum (mkDec (neg && negb (m =? 0)) m sc)) by (apply decimal_exact; eauto).
  assert (Et : decimal_of_str t = DNum (mkDec (neg' && negb (m' =? 0)) m' sc')) by (apply decimal_exact; eauto).
  rewrite Es, Et. cbn [decimal_eq]. rewrite rdec_value_eq.
  assert (V : forall n k c, (rdec_value (mkDec (n && negb (k =? 0)) k c) == rdec_value (mkDec n k c))%Q).
  { intros n k c. unfold rdec_value. cbn [d_neg d_mant d_scale]. destruct n; [|reflexivity].
    destruct (N.eqb_spec k 0) as [->|]; [|reflexivity]. cbn [andb negb Z.of_N]. unfold Qdiv. ring. }
  now rewrite !V.
Qed.
