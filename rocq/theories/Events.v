(** src/osu_file/events/mod.rs: the [Events] section. *)
From Coq Require Import String List NArith ZArith Bool.
From Verif Require Import Str Num Nom Dec Parsers Unicode Storyboard NormalEvents.
From Verif Require TimingPoints.
Import ListNotations.
Local Open Scope N_scope.

(** [CommandPushError] (storyboard/error.rs:10-13). *)
Inductive push_err := InvalidIndentation (a b : nat).
(** [events::ParseError] (events/error.rs:8-47); the variants never produced are
    left out. *)
Inductive ev_err :=
| EvStoryboardCmdWithNoSprite
| EvBackground (e : bg_err) | EvVideo (e : vid_err) | EvBreak (e : brk_err)
| EvColourTransformation (e : ct_err) | EvSpriteLegacy (e : leg_err)
| EvAnimationLegacy (e : leg_err) | EvSampleLegacy (e : sl_err)
| EvPush (e : push_err) | EvCommand (e : cmd_err) | EvObject (e : ob_err)
| EvAudioSample (e : au_err) | EvUnknownEventType.

(** [Event] (events/mod.rs:323-335). *)
Inductive event :=
| EComment (s : str)
| EBackground (x : background)
| EVideo (x : video)
| EBreak (x : break_t)
| EColourTransformation (x : colour_tr)
| ESpriteLegacy (x : legacy)
| EAnimationLegacy (x : legacy)
| ESampleLegacy (x : sample_legacy)
| EObject (x : object)
| EAudioSample (x : audio_sample).

(** [EventWithCommands::commands], [commands_mut] (normal_event/mod.rs, sprites.rs):
    [None] for the events without commands. *)
Definition ev_cmds (e : event) : option (list command) :=
  match e with
  | EBackground x => Some (bg_cmds x)
  | EVideo x => Some (vi_cmds x)
  | ESpriteLegacy x | EAnimationLegacy x => Some (lg_cmds x)
  | ESampleLegacy x => Some (sl_cmds x)
  | EObject x => Some (ob_cmds x)
  | _ => None
  end.
Definition ev_set_cmds (cs : list command) (e : event) : event :=
  match e with
  | EBackground x => EBackground (mk_bg (bg_start x) (bg_file x) (bg_pos x) cs)
  | EVideo x => EVideo (mk_vid (vi_start x) (vi_file x) (vi_pos x) cs (vi_short x))
  | ESpriteLegacy x =>
      ESpriteLegacy (mk_leg (lg_layer x) (lg_origin x) (lg_file x) (lg_pos x) cs)
  | EAnimationLegacy x =>
      EAnimationLegacy (mk_leg (lg_layer x) (lg_origin x) (lg_file x) (lg_pos x) cs)
  | ESampleLegacy x =>
      ESampleLegacy (mk_sl (sl_time x) (sl_layer x) (sl_file x) (sl_volume x) cs)
  | EObject x => EObject (mk_obj (ob_layer x) (ob_origin x) (ob_pos x) (ob_type x) cs)
  | _ => e
  end.

(** [try_push_cmd] (events/mod.rs:446-486).  The Rust loop walks down the last
    commands with [i] from 1; here [push_at n i] is the body for the remaining
    [n = indentation - i] iterations, applied to the command list whose last
    element is [last_cmd]. *)
Fixpoint push_at (n : nat) (i ind : nat) (cmd : command) (cs : list command)
  : res (list command) push_err :=
  match n with
  | O => RPanic PUnreachable
  | S n' =>
      match last_opt cs with
      | None => RErr (InvalidIndentation (if Nat.eqb i 1 then 1 else (i - 1) - 1) ind)
      | Some last =>
          match cmd_subs last with
          | None => RErr (InvalidIndentation 1 ind)
          | Some subs =>
              if Nat.eqb (i + 1) ind
              then ROk (set_last (cmd_set_subs (subs ++ [cmd])) cs)
              else rmap (fun subs' => set_last (cmd_set_subs subs') cs)
                        (push_at n' (i + 1) ind cmd subs)
          end
      end
  end.
Definition try_push_cmd (cs : list command) (cmd : command) (ind : nat)
  : res (list command) push_err :=
  if Nat.eqb ind 1 then ROk (cs ++ [cmd])
  else match last_opt cs with
       | None => RErr (InvalidIndentation 1 ind)
       | Some _ => push_at (ind - 1) 1 ind cmd cs
       end.

(** [cmd_parse] (events/mod.rs:132-164), the variables put in for their names. *)
Definition line_without_header (line : str) : res str cmd_err :=
  match position (fun c => c =? 44) line with
  | Some i => match slice_from_byte (S i) line with
              | Some t => ROk t
              | None => RPanic PSlice
              end
  | None => ROk line
  end.
Fixpoint expand_vars (vars : list variable) (tail : str) (line : str) : str :=
  match vars with
  | [] => line
  | x :: vars' =>
      expand_vars vars' tail
        (if contains (var_ref x) tail then replace (var_ref x) (var_value x) line else line)
  end.
Definition cmd_parse (vars : list variable) (line : str) : res (option command) cmd_err :=
  rbind (line_without_header line) (fun tail => cmd_from_str (expand_vars vars tail line)).

(** [NormalEventType] and its detection (events/mod.rs:49-117, 223-234). *)
Inductive ev_kind := NkBackground | NkVideo | NkBreak | NkColourTransformation
  | NkSpriteLegacy | NkAnimationLegacy | NkSampleLegacy | NkOther.
Definition nk (k : ev_kind) (header : parser unit str) : parser unit ev_kind :=
  pmap (fun _ => k) (peek (pair header (cut (alt eof comma)))).
Definition ev_kind_parser : parser unit ev_kind :=
  alt (nk NkBackground (tag (lit "0")))
 (alt (nk NkVideo (alt (tag (lit "1")) (tag (lit "Video"))))
 (alt (nk NkBreak (alt (tag (lit "2")) (tag (lit "Break"))))
 (alt (nk NkColourTransformation (tag (lit "3")))
 (alt (nk NkSpriteLegacy (tag (lit "4")))
 (alt (nk NkAnimationLegacy (tag (lit "5")))
 (alt (nk NkSampleLegacy (tag (lit "6")))
      (pret NkOther))))))).

Definition rmap2 {A B E F} (f : A -> B) (g : E -> F) (r : res (option A) E) : res (option B) F :=
  rmap_err g (rmap (option_map f) r).
(** The event on a line that is not a command (events/mod.rs:236-285). *)
Definition ev_from_line (dbg : bool) (v : version) (line : str) : res (option event) ev_err :=
  match ev_kind_parser line with
  | POk _ k =>
      match k with
      | NkBackground => rmap2 EBackground EvBackground (bg_from_str line)
      | NkVideo => rmap2 EVideo EvVideo (vid_from_str dbg v line)
      | NkBreak => rmap2 EBreak EvBreak (brk_from_str dbg v line)
      | NkColourTransformation =>
          rmap2 EColourTransformation EvColourTransformation (ctr_from_str dbg v line)
      | NkSpriteLegacy => rmap2 ESpriteLegacy EvSpriteLegacy (leg_from_str (lit "4") line)
      | NkAnimationLegacy =>
          rmap2 EAnimationLegacy EvAnimationLegacy (leg_from_str (lit "5") line)
      | NkSampleLegacy => rmap2 ESampleLegacy EvSampleLegacy (sl_from_str line)
      | NkOther =>
          match ob_from_str line with
          | ROk o => ROk (option_map EObject o)
          | RErr ObUnknownObjectType =>
              match rmap2 EAudioSample EvAudioSample (au_from_str line) with
              | RErr (EvAudioSample AuWrongEvent) => RErr EvUnknownEventType
              | r => r
              end
          | RErr e => RErr (EvObject e)
          | RPanic p => RPanic p
          end
      end
  | PErr _ | PFail _ => RPanic PUnwrap
  | PPanic p => RPanic p
  end.

(** Number of leading spaces and underscores (events/mod.rs:128). *)
Definition indent_of (line : str) : nat := length (fst (span is_indent line)).

(** One non-blank line (events/mod.rs:123-294), given the events so far. *)
Definition ev_step (dbg : bool) (v : version) (vars : list variable)
  (evs : list event) (line : str) : res (list event) ev_err :=
  match strip_prefix (lit "//") line with
  | Some c => ROk (evs ++ [EComment c])
  | None =>
      let ind := indent_of line in
      if Nat.ltb 0 ind then
        match last_opt evs with
        | None => RErr EvStoryboardCmdWithNoSprite
        | Some e =>
            match ev_cmds e with
            | None => RErr EvStoryboardCmdWithNoSprite
            | Some cs =>
                rbind (rmap_err EvCommand (cmd_parse vars line)) (fun oc =>
                match oc with
                | None => ROk evs
                | Some c =>
                    rmap (fun cs' => set_last (ev_set_cmds cs') evs)
                         (rmap_err EvPush (try_push_cmd cs c ind))
                end)
            end
        end
      else
        rmap (fun oe => match oe with Some e => evs ++ [e] | None => evs end)
             (ev_from_line dbg v line)
  end.
(** The loop over the lines (events/mod.rs:119-295). *)
Fixpoint ev_loop (dbg : bool) (v : version) (vars : list variable) (i : Z)
  (evs : list event) (ls : list str) : res (list event) (line_err ev_err) :=
  match ls with
  | [] => ROk evs
  | l :: ls' =>
      if is_blank l then ev_loop dbg v vars (i + 1) evs ls'
      else match ev_step dbg v vars evs l with
           | ROk evs' => ev_loop dbg v vars (i + 1) evs' ls'
           | RErr e => RErr (mk_line_err i e)
           | RPanic p => RPanic p
           end
  end.
(** [Events::from_str_variables] (events/mod.rs:42-298) and [from_str] (34-38). *)
Definition events_from_str_vars (dbg : bool) (vars : list variable) (s : str) (v : version)
  : res (option (list event)) (line_err ev_err) :=
  rmap Some (ev_loop dbg v vars 0 [] (lines s)).
Definition events_from_str (dbg : bool) := events_from_str_vars dbg [].

(** [commands_to_string_variables] (events/mod.rs:368-443).  [cmd_line] is the
    [format!] of one line. *)
Definition cmd_line (vars : list variable) (ind : nat) (c : command) : str :=
  repeat c_sp ind ++ cmd_to_string vars c.
(** The inner [loop] (events/mod.rs:397-436): the current commands, the index, the
    indentation and the stack; the [fuel] given below always suffices
    ([CmdFacts]). *)
Fixpoint cts_loop (fuel : nat) (vars : list variable) (cur : list command) (idx : nat)
  (ind : nat) (stack : list (list command * nat * nat)) : run (list str) :=
  match fuel with
  | O => RPanic PFuel
  | S f =>
      match nth_error cur idx with
      | None => RPanic PSlice
      | Some c =>
          let idx := S idx in
          let line := cmd_line vars ind c in
          let pop :=
            if Nat.leb (length cur) idx then
              match stack with
              | (cur', idx', ind') :: st => rmap (cons line) (cts_loop f vars cur' idx' ind' st)
              | [] => ROk [line]
              end
            else rmap (cons line) (cts_loop f vars cur idx ind stack) in
          match cmd_subs c with
          | Some (x :: xs) =>
              rmap (cons line)
                (cts_loop f vars (x :: xs) 0 (S ind)
                   (if Nat.ltb idx (length cur) then (cur, idx, ind) :: stack else stack))
          | _ => pop
          end
      end
  end.
(** Number of commands in a list, nested ones included: the fuel. *)
Fixpoint cmd_size (c : command) : nat :=
  match c with
  | mk_cmd _ (PLoop _ cs) => S (fold_right (fun c n => cmd_size c + n)%nat 0%nat cs)
  | mk_cmd _ (PTrigger _ _ _ cs) => S (fold_right (fun c n => cmd_size c + n)%nat 0%nat cs)
  | _ => 1%nat
  end.
Definition cmds_size (cs : list command) : nat :=
  fold_right (fun c n => cmd_size c + n)%nat 0%nat cs.
(** The outer loop (events/mod.rs:376-440): the indentation is back at 1 at every
    iteration. *)
Fixpoint cts_outer (vars : list variable) (cs : list command) : run (list str) :=
  match cs with
  | [] => ROk []
  | c :: cs' =>
      rbind (match cmd_subs c with
             | Some (x :: xs) => cts_loop (S (cmds_size (x :: xs))) vars (x :: xs) 0 2 []
             | _ => ROk []
             end) (fun inner =>
      rmap (fun rest => cmd_line vars 1 c :: inner ++ rest) (cts_outer vars cs'))
  end.
Definition commands_to_string (vars : list variable) (cs : list command) : run str :=
  rmap (join [c_nl]) (cts_outer vars cs).

(** [EventWithCommands::to_string_variables] (events/mod.rs:499-517). *)
Definition with_cmds (vars : list variable) (s : str) (cs : list command) : run (option str) :=
  rmap (fun t => Some (s ++ match t with [] => [] | _ => c_nl :: t end))
       (commands_to_string vars cs).

(** [Event::to_string_variables] (events/mod.rs:343-358). *)
Definition ev_to_string (dbg : bool) (v : version) (vars : list variable) (e : event)
  : run (option str) :=
  match e with
  | EComment c => ROk (Some (lit "//" ++ c))
  | EBackground x => with_cmds [] (bg_to_string_cmd x) (bg_cmds x)
  | EVideo x => rbind (vid_to_string_cmd dbg v x) (fun s => with_cmds [] s (vi_cmds x))
  | EBreak x => rmap Some (brk_to_string dbg v x)
  | EColourTransformation x => ctr_to_string dbg v x
  | ESpriteLegacy x => with_cmds vars (leg_to_string (lit "4") x) (lg_cmds x)
  | EAnimationLegacy x => with_cmds vars (leg_to_string (lit "5") x) (lg_cmds x)
  | ESampleLegacy x => with_cmds vars (sl_to_string x) (sl_cmds x)
  | EObject x => with_cmds vars (ob_to_string_cmd x) (ob_cmds x)
  | EAudioSample x => ROk (Some (au_to_string x))
  end.
(** [Events::to_string_variables] (events/mod.rs:300-307), [to_string] (310-314). *)
Definition events_to_string_vars (dbg : bool) (vars : list variable) (l : list event) (v : version)
  : run (option str) :=
  rmap (fun ls => Some (map_string_new_line ls))
       (TimingPoints.run_list (map (ev_to_string dbg v vars) l)).
Definition events_to_string (dbg : bool) := events_to_string_vars dbg [].
