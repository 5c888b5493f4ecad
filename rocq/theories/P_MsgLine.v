(** C44, continued: what is shown of an error is one line. *)
From Coq Require Import String List NArith ZArith Bool.
From Verif Require Import Str Num Parsers TimingPoints OsuFile Osb Api Messages MsgLine.
Import ListNotations.
Local Open Scope N_scope.

(** Whatever the error and whatever text it is shown with, there is no line break in it. *)
Theorem C44_one_line : (forall e s, ~ In 10 (osu_error_text e) /\ ~ In 10 (osu_error_with_line e s))
  /\ (forall e s, ~ In 10 (osb_error_text e) /\ ~ In 10 (osb_error_with_line e s)).
Proof. exact one_line. Qed.
Print Assumptions C44_one_line.

Example C44_one_line_ex :
  osu_error_with_line (mk_line_err 1%Z (OsuTimingPoints TpMissingMeter)) (lit "a" ++ [10] ++ lit "b,c" ++ [10] ++ lit "d")
  = lit "Line 2: b,c, Missing `meter` field".
Proof. vm_compute. reflexivity. Qed.
