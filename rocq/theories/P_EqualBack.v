(** C58, continued: equal files of every version. *)
From Coq Require Import String List NArith ZArith Bool.
From Verif Require Import Str Num Dec Parsers TimingPoints OsuFile Equal SpecEvents SpecWhole SpecBack EqualBack.
Import ListNotations.
Local Open Scope N_scope.

(** Equal files are still equal after saving and loading, also in the versions that do not hold all of them. *)
Theorem C58_read_back_every : forall dbg f g, file_can f = true -> file_can g = true -> osu_eq f g = true ->
  exists t u f' g', osu_to_string dbg f = ROk t /\ osu_to_string dbg g = ROk u
  /\ osu_from_str dbg t = ROk f' /\ osu_from_str dbg u = ROk g' /\ osu_eq f' g' = true.
Proof. exact equal_read_every. Qed.
Print Assumptions C58_read_back_every.

(** In version 4 the times 24.00 and 24.0 are both read back as 24. *)
Example C58_read_back_every_ex :
  let f b := mk_osu 4%Z None None None None None None (Some [mk_tp (DNum b) (DNum (mkDec false 5 0)) 4%Z TsNormal SiDefault 100%Z None None]) None None in
  file_can (f (mkDec false 2400 2)) = true /\ file_can (f (mkDec false 240 1)) = true
  /\ osu_eq (f (mkDec false 2400 2)) (f (mkDec false 240 1)) = true
  /\ match osu_to_string true (f (mkDec false 2400 2)) with ROk t => osu_from_str true t = ROk (f (mkDec false 24 0)) | _ => False end
  /\ match osu_to_string true (f (mkDec false 240 1)) with ROk t => osu_from_str true t = ROk (f (mkDec false 24 0)) | _ => False end.
Proof. vm_compute. repeat split. Qed.

(** Equal files that were read are equal after saving and loading, if no file name gets quotes. *)
Theorem C58_reread : forall dbg s s' f g, osu_from_str dbg s = ROk f -> osu_from_str dbg s' = ROk g ->
  forallb no_cr (lines s) = true -> forallb no_cr (lines s') = true -> dbg = true \/ (5 <= osu_version f)%Z ->
  file_stays f = true -> file_stays g = true -> file_written f = f -> file_written g = g -> osu_eq f g = true ->
  exists t u f' g', osu_to_string dbg f = ROk t /\ osu_to_string dbg g = ROk u
  /\ osu_from_str dbg t = ROk f' /\ osu_from_str dbg u = ROk g' /\ osu_eq f' g' = true.
Proof. exact equal_reread. Qed.
Print Assumptions C58_reread.

(** But files as they are read need not stay equal: saving puts quotes around a file name with a blank in it, and these are then part of the path.  [a b/] is the same path
    as [a b], but ["a b/"] is two components, one of which is a quote. *)
Definition C58_named (p : str) : str :=
  lit "osu file format v14" ++ [10; 10] ++ lit "[Events]" ++ [10] ++ lit "0,0," ++ p ++ lit ",0,0" ++ [10].
Theorem C58_reread_refuted : exists s s' f g t u f' g', osu_from_str true s = ROk f /\ osu_from_str true s' = ROk g /\ osu_eq f g = true
  /\ osu_to_string true f = ROk t /\ osu_to_string true g = ROk u /\ osu_from_str true t = ROk f' /\ osu_from_str true u = ROk g'
  /\ osu_eq f' g' = false.
Proof.
  exists (C58_named (lit "a b/")), (C58_named (lit "a b")).
  do 6 eexists. split; [vm_compute; reflexivity|]. split; [vm_compute; reflexivity|]. split; [vm_compute; reflexivity|].
  split; [vm_compute; reflexivity|]. split; [vm_compute; reflexivity|]. split; [vm_compute; reflexivity|]. split; vm_compute; reflexivity.
Qed.
Print Assumptions C58_reread_refuted.
Example C58_reread_ex :
  let s p := C58_named p in
  forallb no_cr (lines (s (lit "a/"))) = true
  /\ match osu_from_str true (s (lit "a/")), osu_from_str true (s (lit "./a/.")), osu_from_str true (s (lit "a")) with
     | ROk f, ROk g, ROk h => file_stays f = true /\ file_written f = f /\ osu_eq f h = true /\ osu_eq f g = false
     | _, _, _ => False
     end.
Proof. vm_compute. repeat split. Qed.
