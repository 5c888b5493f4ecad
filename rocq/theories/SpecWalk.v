(** What the [Events] section holds, item by item, and what one line gives. *)
From Coq Require Import String List NArith ZArith Bool.
From Verif Require Import Str Num Dec Parsers Unicode Storyboard NormalEvents Events SpecWf SpecText SpecLine SpecCmd
  SpecEvents SpecEvLine SpecEvSection.
Import ListNotations.
Local Open Scope N_scope.

(** an event without its commands, or a command with its nesting level and without those inside it *)
Inductive item : Type :=
| ItEvent (e : event)
| ItCommand (d : nat) (c : command).
(** an event, then its commands, each before the commands inside it *)
Definition event_items (e : event) : list item :=
  ItEvent (with_commands [] e) :: map (fun x => ItCommand (fst x) (snd x)) (preorders 1 (commands_of e)).
Definition items (evs : list event) : list item := concat (map event_items evs).

(** [line_item dbg v vs l x]: the line [l] on its own is the item [x], [vs] the variables *)
Inductive line_item (dbg : bool) (v : version) (vs : list variable) : str -> item -> Prop :=
| li_comment c : line_item dbg v vs (lit "//" ++ c) (ItEvent (EComment c))
| li_event l h fs e : (forall c, l <> lit "//" ++ c) -> depth l = 0%nat -> fields_of l (h :: fs) ->
    ev_line dbg v h fs = ROk e -> line_item dbg v vs l (ItEvent e)
| li_command l q l' c : depth l <> 0%nat -> searched l q -> with_values q vs l l' -> rd_command l' = ROk c ->
    line_item dbg v vs l (ItCommand (depth l) c).
(** the lines that are not blank *)
Definition full_lines (s : str) : list str := filter (fun l => negb (is_blank l)) (lines s).
(** how many commands there are in a command, itself included *)
Fixpoint commands_in (c : command) : nat :=
  S match c with
    | mk_cmd _ (PLoop _ cs) | mk_cmd _ (PTrigger _ _ _ cs) => list_sum (map commands_in cs)
    | _ => 0
    end.
(** how many items an event has *)
Definition event_weight (e : event) : nat := S (list_sum (map commands_in (commands_of e))).
