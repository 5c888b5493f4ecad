(** How the whole [Events] section is read, line by line. *)
From Coq Require Import String List NArith ZArith Bool.
From Verif Require Import Str Num Dec Parsers Unicode Storyboard NormalEvents Events SpecWf SpecText SpecLine
  SpecEvents SpecEvLine.
Import ListNotations.
Local Open Scope N_scope.

(** number of spaces and underscores in front *)
Fixpoint depth (s : str) : nat :=
  match s with
  | c :: s' => if (c =? 32) || (c =? 95) then S (depth s') else 0
  | [] => 0
  end.
(** [c] put at the end of the commands [cs], [k] levels down: every level is entered by its last
    command, a loop or a trigger.  [d] is the level of [cs], from 1; [ind] the indentation. *)
Fixpoint place (k d ind : nat) (c : command) (cs : list command) : res (list command) push_err :=
  match k, rev cs with
  | O, _ => ROk (cs ++ [c])
  | S _, [] => RErr (InvalidIndentation (match d with 1 => 1 | S (S d') => d' | O => 0 end)%nat ind)
  | S k', x :: before =>
      let put subs (mk : list command -> cmd_properties) :=
        rmap (fun subs' => rev before ++ [mk_cmd (cmd_start x) (mk subs')]) (place k' (S d) ind c subs) in
      match cmd_props x with
      | PLoop n subs => put subs (PLoop n)
      | PTrigger t e g subs => put subs (PTrigger t e g)
      | _ => RErr (InvalidIndentation 1 ind)
      end
  end.
(** the event with the commands [cs] *)
Definition with_commands (cs : list command) (e : event) : event :=
  match e with
  | EBackground (mk_bg t f p _) => EBackground (mk_bg t f p cs)
  | EVideo (mk_vid t f p _ s) => EVideo (mk_vid t f p cs s)
  | ESpriteLegacy (mk_leg l o f p _) => ESpriteLegacy (mk_leg l o f p cs)
  | EAnimationLegacy (mk_leg l o f p _) => EAnimationLegacy (mk_leg l o f p cs)
  | ESampleLegacy (mk_sl t l f v _) => ESampleLegacy (mk_sl t l f v cs)
  | EObject (mk_obj l o p t _) => EObject (mk_obj l o p t cs)
  | e => e
  end.

(** [swapped a b s t]: [t] is [s] with every occurrence of [a], taken from the left and
    without overlaps, replaced by [b]; the empty text occurs around every character. *)
Inductive swapped (a b : str) : str -> str -> Prop :=
| sw_end : a <> [] -> swapped a b [] []
| sw_hit s t : a <> [] -> swapped a b s t -> swapped a b (a ++ s) (b ++ t)
| sw_miss c s t : (forall s', c :: s <> a ++ s') -> swapped a b s t -> swapped a b (c :: s) (c :: t)
| sw_blank s : a = [] -> swapped a b s (b ++ concat (map (fun c => c :: b) s)).
(** The part of a line that is searched for names of variables: what is behind the first comma,
    or all of it if there is none.  The comma is counted in characters but the cut is made in
    bytes, so that more is left of a line with wide characters in front of the comma. *)
Definition searched (l q : str) : Prop :=
  (no_comma l = true /\ q = l)
  \/ exists a b p, l = a ++ 44 :: b /\ no_comma a = true /\ l = p ++ q /\ utf8_length p = S (length a).
(** [with_values q vs l l']: [l'] is [l] with the values of the variables [vs], one after another,
    in place of their names; [q] is searched for the names. *)
Inductive with_values (q : str) : list variable -> str -> str -> Prop :=
| wv_end l : with_values q [] l l
| wv_used x vs l l1 l2 a b : q = a ++ (36 :: var_name x) ++ b -> swapped (36 :: var_name x) (var_value x) l l1 ->
    with_values q vs l1 l2 -> with_values q (x :: vs) l l2
| wv_unused x vs l l2 : (forall a b, q <> a ++ (36 :: var_name x) ++ b) -> with_values q vs l l2 ->
    with_values q (x :: vs) l l2.

Section Lines.
  Variable dbg : bool.
  Variable v : version.
  Variable vs : list variable.
  (** [ev_next evs l r]: the line [l] behind the events [evs] gives [r]. *)
  Inductive ev_next (evs : list event) : str -> res (list event) ev_err -> Prop :=
  | next_comment c : ev_next evs (lit "//" ++ c) (ROk (evs ++ [EComment c]))
  | next_event l h fs : (forall c, l <> lit "//" ++ c) -> depth l = 0%nat -> fields_of l (h :: fs) ->
      ev_next evs l (rmap (fun e => evs ++ [e]) (ev_line dbg v h fs))
  | next_nowhere l : depth l <> 0%nat -> ~ takes_commands evs -> ev_next evs l (RErr EvStoryboardCmdWithNoSprite)
  | next_offset l : depth l <> 0%nat -> takes_commands evs -> bad_offset l -> ev_next evs l (RPanic PSlice)
  | next_command l q l' es e : depth l <> 0%nat -> takes_commands evs -> searched l q -> with_values q vs l l' ->
      evs = es ++ [e] ->
      ev_next evs l
        (rbind (rmap_err EvCommand (rd_command l')) (fun c =>
         rmap (fun cs => es ++ [with_commands cs e])
              (rmap_err EvPush (place (pred (depth l)) 1 (depth l) c (commands_of e))))).
  (** [ev_section i evs ls r]: the lines [ls], from number [i] on, behind the events [evs] give [r]. *)
  Inductive ev_section : Z -> list event -> list str -> res (list event) (line_err ev_err) -> Prop :=
  | sec_end i evs : ev_section i evs [] (ROk evs)
  | sec_blank i evs l ls r : is_blank l = true -> ev_section (i + 1) evs ls r -> ev_section i evs (l :: ls) r
  | sec_line i evs l evs' ls r : is_blank l = false -> ev_next evs l (ROk evs') -> ev_section (i + 1) evs' ls r ->
      ev_section i evs (l :: ls) r
  | sec_error i evs l e ls : is_blank l = false -> ev_next evs l (RErr e) ->
      ev_section i evs (l :: ls) (RErr (mk_line_err i e))
  | sec_panic i evs l p ls : is_blank l = false -> ev_next evs l (RPanic p) -> ev_section i evs (l :: ls) (RPanic p).
End Lines.

(** [list_section rd i ls r]: the lines [ls], from number [i] on, each read by [rd], give [r]. *)
Inductive list_section {A E} (rd : str -> res A E) : Z -> list str -> res (list A) (line_err E) -> Prop :=
| ls_end i : list_section rd i [] (ROk [])
| ls_blank i l ls r : is_blank l = true -> list_section rd (i + 1) ls r -> list_section rd i (l :: ls) r
| ls_line i l a ls r : is_blank l = false -> rd l = ROk a -> list_section rd (i + 1) ls r ->
    list_section rd i (l :: ls) (rmap (cons a) r)
| ls_error i l e ls : is_blank l = false -> rd l = RErr e -> list_section rd i (l :: ls) (RErr (mk_line_err i e))
| ls_panic i l p ls : is_blank l = false -> rd l = RPanic p -> list_section rd i (l :: ls) (RPanic p).
