(** C58: what [==] on files decides. *)
From Coq Require Import String List NArith ZArith QArith Bool Relations.
From Verif Require Import Str Num Dec Parsers General Editor Metadata Difficulty Colours TimingPoints HitObjects
  Storyboard NormalEvents Events Osb OsuFile Trimmer Equal Spec SpecDec SpecEqual SpecWhole Samples KvSamples
  EqualFacts EqualFile EqualRead.
Import ListNotations.
Local Open Scope N_scope.

(** Numbers are equal when they are the same number, with whatever zeros behind the point. *)
Theorem C58_numbers : forall a b, rdec_eq a b = true <-> (rdec_value a == rdec_value b)%Q.
Proof. exact rdec_value_eq. Qed.
Print Assumptions C58_numbers.
(** Two texts that are numbers give equal decimals exactly when they are the same number. *)
Theorem C58_spelling : forall s t neg m sc neg' m' sc',
  number_text s neg m sc -> number_text t neg' m' sc' ->
  (decimal_eq (decimal_of_str s) (decimal_of_str t) = true
   <-> (rdec_value (mkDec neg m sc) == rdec_value (mkDec neg' m' sc'))%Q).
Proof. exact spelling. Qed.
Print Assumptions C58_spelling.
(** Paths are equal when one is a respelling of the other. *)
Theorem C58_paths : forall p q, path_eq p q = true <-> same_path p q.
Proof. exact path_same. Qed.
Print Assumptions C58_paths.
(** Files are equal when nothing but the spelling of numbers and paths is different: with
    these in canonical form, they are the same value. *)
Theorem C58_files : forall f g, osu_eq f g = true <-> canon_file f = canon_file g.
Proof. exact file_R. Qed.
Print Assumptions C58_files.
Theorem C58_canonical_numbers : forall a b, canon_dec a = canon_dec b <-> (rdec_value a == rdec_value b)%Q.
Proof. exact canon_dec_value. Qed.
Print Assumptions C58_canonical_numbers.
Theorem C58_canonical_paths : forall p q, canon_path p = canon_path q <-> same_path p q.
Proof. exact canon_path_same. Qed.
Print Assumptions C58_canonical_paths.
(** It is an equivalence, as [Eq] promises. *)
Theorem C58_equivalence :
  (forall f, osu_eq f f = true) /\ (forall f g, osu_eq f g = true -> osu_eq g f = true)
  /\ (forall f g h, osu_eq f g = true -> osu_eq g h = true -> osu_eq f h = true).
Proof. exact equal_equivalence. Qed.
Print Assumptions C58_equivalence.
(** Equal files are still equal after saving and loading. *)
Theorem C58_read_back : forall dbg f g, file_ok f = true -> file_ok g = true -> osu_eq f g = true ->
  exists t u f' g', osu_to_string dbg f = ROk t /\ osu_to_string dbg g = ROk u
  /\ osu_from_str dbg t = ROk f' /\ osu_from_str dbg u = ROk g' /\ osu_eq f' g' = true.
Proof. exact equal_read. Qed.
Print Assumptions C58_read_back.
(** But they need not be saved as the same text, not even for the comparison of texts. *)
Definition C58_with (p : str) (d : decimal) : osu_file :=
  mk_osu 14%Z None None None (Some metadata1) None
    (Some [EBackground (mk_bg 0%Z p None [mk_cmd (Some 5%Z) (PFade EzLinear None d [])])]) (Some [tp1]) None (Some [ho1; ho2]).
Theorem C58_text_refuted : exists f g t u, file_ok f = true /\ file_ok g = true /\ osu_eq f g = true
  /\ osu_to_string true f = ROk t /\ osu_to_string true g = ROk u /\ osu_str_eq t u = false.
Proof.
  exists (C58_with (lit "a/b.png") (DNum (mkDec false 10 1))), (C58_with (lit "a//b.png") (DNum (mkDec false 100 2))).
  do 2 eexists. split; [vm_compute; reflexivity|]. split; [vm_compute; reflexivity|]. split; [vm_compute; reflexivity|].
  split; [vm_compute; reflexivity|]. split; [vm_compute; reflexivity|]. vm_compute. reflexivity.
Qed.
Print Assumptions C58_text_refuted.

Example C58_ex :
  osu_eq (C58_with (lit "a/b.png") (DNum (mkDec true 10 1))) (C58_with (lit "a//./b.png/") (DNum (mkDec true 1000 3))) = true
  /\ osu_eq (C58_with (lit "a/b.png") (DNum (mkDec true 10 1))) (C58_with (lit "a/b.png") (DNum (mkDec false 10 1))) = false
  /\ osu_eq (C58_with (lit "a/b.png") (DRaw (lit "x"))) (C58_with (lit "./a/b.png") (DRaw (lit "x"))) = false
  /\ file_ok (C58_with (lit "a//./b.png/") (DNum (mkDec true 1000 3))) = true
  /\ canon_file (C58_with (lit "a//./b.png/") (DNum (mkDec true 1000 3))) = C58_with (lit "a/b.png") (DNum (mkDec true 1 0)).
Proof. vm_compute. repeat split. Qed.
Example C58_ex_paths :
  path_eq (lit "/") (lit "//.") = true /\ path_eq [] (lit ".") = false /\ path_eq (lit "a/..") [] = false
  /\ path_eq (lit "a") (lit "a/.") = true /\ path_eq (lit "/a") (lit "a") = false.
Proof. vm_compute. repeat split. Qed.
Example C58_ex_spelling :
  number_text (lit "-0.50") true 50 2 /\ number_text (lit "-.5") true 5 1
  /\ decimal_eq (decimal_of_str (lit "-0.50")) (decimal_of_str (lit "-.5")) = true
  /\ decimal_eq (decimal_of_str (lit "-0.50")) (decimal_of_str (lit ".5")) = false.
Proof.
  split; [|split; [|split; vm_compute; reflexivity]].
  - apply (nt_fits _ true true (lit "0") (lit "50")); [|discriminate|reflexivity|repeat constructor].
    apply (num_point [45] true (lit "0") (lit "50")); [constructor|reflexivity|reflexivity].
  - apply (nt_fits _ true true [] (lit "5")); [|discriminate|reflexivity|repeat constructor].
    apply (num_point [45] true [] (lit "5")); [constructor|reflexivity|reflexivity].
Qed.
