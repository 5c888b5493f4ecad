(** Property theorems C68: one line, one item, in order. *)
From Coq Require Import String List NArith ZArith Bool.
From Verif Require Import Str Num Nom Dec Parsers Unicode Colours TimingPoints HitObjects Storyboard NormalEvents Events
  Spec SpecWf SpecText SpecLine SpecColLine SpecCmd SpecEvents SpecEvLine SpecEvSection SpecWalk WalkFacts.
Import ListNotations.
Local Open Scope N_scope.

(** A text is read as the events [evs] exactly when its lines, blank ones apart, are one after another
    the items of [evs], every line taken on its own. *)
Theorem C68_events : forall dbg s v evs, events_from_str dbg s v = ROk (Some evs) <->
  Forall2 (line_item dbg v []) (full_lines s) (items evs).
Proof. exact (fun dbg s v evs => lines_items0 dbg v s evs). Qed.
Print Assumptions C68_events.
(** Likewise with variables. *)
Theorem C68_events_with_variables : forall dbg vs s v evs, events_from_str_vars dbg vs s v = ROk (Some evs) <->
  Forall2 (line_item dbg v vs) (full_lines s) (items evs).
Proof. exact (fun dbg vs s v evs => lines_items dbg v vs s evs). Qed.
Print Assumptions C68_events_with_variables.
(** The items determine the events. *)
Theorem C68_items : forall a b, items a = items b -> a = b.
Proof. exact items_inj. Qed.
Print Assumptions C68_items.
(** None is lost and none is added: as many events and commands, however deep, as lines. *)
Theorem C68_count : forall dbg vs s v evs, events_from_str_vars dbg vs s v = ROk (Some evs) ->
  list_sum (map event_weight evs) = length (full_lines s).
Proof. exact lines_counted. Qed.
Print Assumptions C68_count.
Definition C68_text : str := join [10] (map lit
  ["// a"; "0,0,bg.png"; " M,0,5,,1,2"; ""; "_L,3,4"; "__F,0,1,2,0.5"; " _T,Passing,0,9"; "   P,0,1,,H"; " S,0,7,,1"; "2,10,20"]%string).
Example C68_text_ex :
  match events_from_str true C68_text 14%Z with
  | ROk (Some evs) => map event_weight evs = [1; 7; 1]%nat
  | _ => False
  end /\ length (full_lines C68_text) = 9%nat /\ length (lines C68_text) = 10%nat.
Proof. vm_compute. auto. Qed.
Example C68_items_ex :
  match events_from_str true C68_text 14%Z with
  | ROk (Some evs) =>
      map (fun x => match x with ItEvent _ => 0%nat | ItCommand d _ => d end) (items evs) = [0; 0; 1; 1; 2; 2; 3; 1; 0]%nat
      /\ nth_error (items evs) 6 = Some (ItCommand 3 (mk_cmd (Some 1%Z) (PParameter EzLinear None PaFlipH [])))
      /\ Forall2 (line_item true 14%Z []) (full_lines C68_text) (items evs)
  | _ => False
  end.
Proof.
  destruct (events_from_str true C68_text 14%Z) as [[evs|]| |] eqn:E; try (vm_compute in E; discriminate E).
  split; [|split; [|now apply C68_events]]; vm_compute in E; injection E as <-; vm_compute; reflexivity.
Qed.

(** The other lists: *)
Theorem C68_colours : forall s v l, old_version v = false ->
  (colours_from_str s v = ROk (Some l) <-> Forall2 (fun line x => col_line line = ROk x) (full_lines s) l).
Proof. exact colours_items. Qed.
Print Assumptions C68_colours.
Theorem C68_timing_points : forall s v l, timing_points_from_str s v = ROk (Some l) <->
  Forall2 (fun line x => tp_line v (pieces 44 line) = ROk x) (full_lines s) l.
Proof. exact timing_points_items. Qed.
Print Assumptions C68_timing_points.
Theorem C68_hit_objects : forall s v l, hit_objects_from_str s v = ROk (Some l) <->
  Forall2 (fun line x => ho_line v (pieces 44 line) = ROk x) (full_lines s) l.
Proof. exact hit_objects_items. Qed.
Print Assumptions C68_hit_objects.
Definition C68_lists (l : list string) : str := join [10] (map lit l).
Example C68_lists_ex :
  match timing_points_from_str (C68_lists ["0,500,4,2,0,60,1,0"; "  "; "7,-50,4,2,0,60,0,0"]%string) 14%Z,
        hit_objects_from_str (C68_lists ["256,192,5,1,0,0:0:0:0:"; ""; "0,0,9,1,2"]%string) 14%Z,
        colours_from_str (C68_lists [""; "Combo1 : 1,2,3"; "SliderBorder : 4,5,6"]%string) 14%Z with
  | ROk (Some a), ROk (Some b), ROk (Some c) => (length a, length b, length c) = (2, 2, 2)%nat
  | _, _, _ => False
  end.
Proof. vm_compute. reflexivity. Qed.
