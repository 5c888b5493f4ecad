(** The [nom] 7 combinators used by the crate (nothing here comes from /repo).

    A parser maps an input to [POk rest value], a recoverable [PErr], an
    unrecoverable [PFail], or a panic raised by a user closure.

    Simplification: [nom]'s error values carry input positions and a list of kinds
    and contexts.  The crate only ever looks at (a) the kind of the innermost error
    (osu_file/mod.rs:187) and (b) the innermost context
    (helper/macros.rs:242-247), so an error is just that pair.  Contexts are the
    variant names of the caller's error enum; the type parameter [C] is that enum
    (the [IntoStaticStr]/[EnumString] round trip on variant names is assumed). *)
From Coq Require Import String List NArith ZArith Bool.
From Verif Require Import Str.
Import ListNotations.
Local Open Scope N_scope.

Inductive ekind :=
| KTag | KChar | KTakeUntil | KEof | KMapRes | KMapOpt | KVerify | KFail
| KMany0 | KSeparatedList | KDigit.

Record perr (C : Type) := mkErr { e_kind : ekind; e_ctx : option C }.
Arguments mkErr {C} e_kind e_ctx.
Arguments e_kind {C} p.
Arguments e_ctx {C} p.

Inductive pres (C A : Type) :=
| POk (rest : str) (a : A)
| PErr (e : perr C)
| PFail (e : perr C)
| PPanic (p : panic).
Arguments POk {C A} rest a.
Arguments PErr {C A} e.
Arguments PFail {C A} e.
Arguments PPanic {C A} p.

Definition parser (C A : Type) := str -> pres C A.

Section Combinators.
  Context {C : Type}.

  Definition kerr {A} (k : ekind) : pres C A := PErr (mkErr k None).

  (** Sequencing ([tuple], [preceded], [terminated], [delimited] are built on it). *)
  Definition pbind {A B} (p : parser C A) (f : A -> parser C B) : parser C B :=
    fun s => match p s with
             | POk r a => f a r
             | PErr e => PErr e
             | PFail e => PFail e
             | PPanic x => PPanic x
             end.
  Definition pret {A} (a : A) : parser C A := fun s => POk s a.   (* [success] *)
  Definition pmap {A B} (f : A -> B) (p : parser C A) : parser C B :=
    fun s => match p s with
             | POk r a => POk r (f a)
             | PErr e => PErr e
             | PFail e => PFail e
             | PPanic x => PPanic x
             end.
  Definition preceded {A B} (p : parser C A) (q : parser C B) : parser C B :=
    pbind p (fun _ => q).
  Definition terminated {A B} (p : parser C A) (q : parser C B) : parser C A :=
    pbind p (fun a => pmap (fun _ => a) q).
  Definition delimited {A B D} (p : parser C A) (q : parser C B) (r : parser C D) : parser C B :=
    preceded p (terminated q r).
  Definition pair {A B} (p : parser C A) (q : parser C B) : parser C (A * B) :=
    pbind p (fun a => pmap (fun b => (a, b)) q).

  Definition tag (t : str) : parser C str :=
    fun s => match strip_prefix t s with
             | Some r => POk r t
             | None => kerr KTag
             end.
  Definition pchar (c : char) : parser C char :=
    fun s => match s with
             | d :: r => if d =? c then POk r c else kerr KChar
             | [] => kerr KChar
             end.
  Definition take_while (f : char -> bool) : parser C str :=
    fun s => let (a, b) := span f s in POk b a.
  Definition take_till (f : char -> bool) : parser C str :=
    take_while (fun c => negb (f c)).
  Definition take_until (t : str) : parser C str :=
    fun s => match find_sub t s with
             | Some (a, b) => POk b a
             | None => kerr KTakeUntil
             end.
  Definition prest : parser C str := fun s => POk [] s.
  Definition eof : parser C str :=
    fun s => match s with [] => POk [] [] | _ => kerr KEof end.
  Definition is_space0 (c : char) : bool := (c =? 32) || (c =? 9).
  Definition is_multispace (c : char) : bool := (c =? 32) || (c =? 9) || (c =? 13) || (c =? 10).
  Definition space0 : parser C str := take_while is_space0.
  Definition multispace0 : parser C str := take_while is_multispace.
  Definition digit1 : parser C str :=
    fun s => let (a, b) := span (fun c => (48 <=? c) && (c <=? 57)) s in
             match a with [] => kerr KDigit | _ => POk b a end.
  Definition pfail {A} : parser C A := fun _ => kerr KFail.

  (** [map_res]: an [Err] of the closure becomes a plain [MapRes] error (the
      external error is dropped by [VerboseError] and by [Error]). *)
  Definition map_res {A B E} (p : parser C A) (f : A -> res B E) : parser C B :=
    fun s => match p s with
             | POk r a => match f a with
                          | ROk b => POk r b
                          | RErr _ => kerr KMapRes
                          | RPanic x => PPanic x
                          end
             | PErr e => PErr e
             | PFail e => PFail e
             | PPanic x => PPanic x
             end.
  Definition map_opt {A B} (p : parser C A) (f : A -> option B) : parser C B :=
    fun s => match p s with
             | POk r a => match f a with
                          | Some b => POk r b
                          | None => kerr KMapOpt
                          end
             | PErr e => PErr e
             | PFail e => PFail e
             | PPanic x => PPanic x
             end.
  (** a closure that can panic but not fail, used through [Parser::map] *)
  Definition map_run {A B} (p : parser C A) (f : A -> run B) : parser C B :=
    fun s => match p s with
             | POk r a => match f a with
                          | ROk b => POk r b
                          | RErr e => match e with end
                          | RPanic x => PPanic x
                          end
             | PErr e => PErr e
             | PFail e => PFail e
             | PPanic x => PPanic x
             end.
  Definition verify {A} (p : parser C A) (f : A -> bool) : parser C A :=
    fun s => match p s with
             | POk r a => if f a then POk r a else kerr KVerify
             | x => x
             end.
  Definition cut {A} (p : parser C A) : parser C A :=
    fun s => match p s with PErr e => PFail e | x => x end.
  Definition peek {A} (p : parser C A) : parser C A :=
    fun s => match p s with POk _ a => POk s a | x => x end.
  (** [context] adds a context behind the ones already there: only the innermost
      one is kept. *)
  Definition add_ctx (c : C) (e : perr C) : perr C :=
    match e_ctx e with Some _ => e | None => mkErr (e_kind e) (Some c) end.
  Definition context {A} (c : C) (p : parser C A) : parser C A :=
    fun s => match p s with
             | PErr e => PErr (add_ctx c e)
             | PFail e => PFail (add_ctx c e)
             | x => x
             end.
  (** [alt] of two branches; longer [alt]s are right-nested.  When every branch
      fails, [VerboseError]'s and [Error]'s [or] keep the last branch's error. *)
  Definition alt {A} (p q : parser C A) : parser C A :=
    fun s => match p s with PErr _ => q s | x => x end.
  (** [opt] *)
  Definition opt {A} (p : parser C A) : parser C (option A) :=
    fun s => match p s with
             | POk r a => POk r (Some a)
             | PErr _ => POk s None
             | PFail e => PFail e
             | PPanic x => PPanic x
             end.

  (** [many0]: stops at the first recoverable error; a parser that consumes nothing
      is an error.  The fuel [S (length s)] always suffices ([NomFacts]). *)
  Fixpoint many0_aux {A} (fuel : nat) (p : parser C A) (s : str) : pres C (list A) :=
    match fuel with
    | O => PPanic PFuel
    | S f =>
        match p s with
        | POk r a =>
            if Nat.eqb (length r) (length s) then kerr KMany0
            else match many0_aux f p r with
                 | POk r' l => POk r' (a :: l)
                 | x => x
                 end
        | PErr _ => POk s []
        | PFail e => PFail e
        | PPanic x => PPanic x
        end
    end.
  Definition many0 {A} (p : parser C A) : parser C (list A) :=
    fun s => many0_aux (S (length s)) p s.

  (** [separated_list0]. *)
  Fixpoint sep_tail {A B} (fuel : nat) (sep : parser C B) (p : parser C A) (s : str)
    : pres C (list A) :=
    match fuel with
    | O => PPanic PFuel
    | S f =>
        match sep s with
        | PErr _ => POk s []
        | PFail e => PFail e
        | PPanic x => PPanic x
        | POk r _ =>
            if Nat.eqb (length r) (length s) then kerr KSeparatedList
            else match p r with
                 | PErr _ => POk s []
                 | PFail e => PFail e
                 | PPanic x => PPanic x
                 | POk r' a =>
                     match sep_tail f sep p r' with
                     | POk r'' l => POk r'' (a :: l)
                     | x => x
                     end
                 end
        end
    end.
  Definition separated_list0 {A B} (sep : parser C B) (p : parser C A) : parser C (list A) :=
    fun s => match p s with
             | PErr _ => POk s []
             | PFail e => PFail e
             | PPanic x => PPanic x
             | POk r a => match sep_tail (S (length r)) sep p r with
                          | POk r' l => POk r' (a :: l)
                          | x => x
                          end
             end.
End Combinators.

(** The crate's conversion of a [nom] error into its own error enum
    (helper/macros.rs:236-257): the innermost context names the variant; without a
    context it is [unreachable!]. *)
Definition verbose_error_to_error {C A} (r : pres C A) : res A C :=
  match r with
  | POk _ a => ROk a
  | PErr e | PFail e => match e_ctx e with
                        | Some c => RErr c
                        | None => RPanic PUnreachable
                        end
  | PPanic x => RPanic x
  end.
