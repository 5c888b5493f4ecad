(** Functions of the API that compute something from a value: the names of the frames of an
    animation, and the speed of a timing point. *)
From Coq Require Import String List NArith ZArith Bool.
From Verif Require Import Str Num Nom Dec Parsers TimingPoints NormalEvents.
Import ListNotations.
Local Open Scope N_scope.

(** ** Paths
    [std::path::Path] on Unix: the separator is the slash, there are no prefixes.  Paths are
    texts here, so [to_string_lossy] is the identity. *)
(** The components that [Components] yields from the back: empty ones and [.] are left out
    (a leading [.] is yielded as [CurDir], which is no file name either). *)
Definition path_comps (p : str) : list str :=
  filter (fun c => negb (is_empty c) && negb (str_eqb c (lit "."))) (split_on 47 p).
(** [Path::file_name]: the last component unless it is [..] (or there is none). *)
Definition path_file_name (p : str) : option str :=
  match rev (path_comps p) with
  | c :: _ => if str_eqb c (lit "..") then None else Some c
  | [] => None
  end.
(** [rsplitn(2, '.')]: the text after the last dot and, when there is a dot, the text before. *)
Fixpoint rsplit_dot (s : str) : option str * str :=
  match s with
  | [] => (None, [])
  | c :: s' =>
      match rsplit_dot s' with
      | (Some b, a) => (Some (c :: b), a)
      | (None, a) => if c =? 46 then (Some [], a) else (None, c :: a)
      end
  end.
(** [Path::extension]. *)
Definition path_extension (p : str) : option str :=
  match path_file_name p with
  | None => None
  | Some n => match rsplit_dot n with
              | (Some (_ :: _), a) => Some a
              | _ => None
              end
  end.
(** [Path::is_absolute], which on Unix is [has_root]. *)
Definition path_is_absolute (p : str) : bool := starts_with_char 47 p.
(** [str::strip_suffix]. *)
Definition strip_suffix (p s : str) : option str :=
  match strip_prefix (rev p) (rev s) with Some r => Some (rev r) | None => None end.

(** [Animation::frame_file_names] (storyboard/sprites.rs:244-265). *)
Definition frame_file_names (frame_count : Z) (filepath : file_path) : run (list str) :=
  rbind (unwrap (path_file_name filepath)) (fun file_name =>
  rbind (match path_extension filepath with
         | Some e => let ext := lit "." ++ e in
                     rbind (unwrap (strip_suffix ext file_name)) (fun n => ROk (n, ext))
         | None => ROk (file_name, [])
         end) (fun '(name, ext) =>
  ROk (map (fun i => name ++ print_Z (Z.of_nat i) ++ ext) (seq 0 (Z.to_nat frame_count))))).
(** [Sprite::new] (storyboard/sprites.rs:272-283). *)
Definition sprite_new (filepath : str) : res file_path unit :=
  if path_is_absolute filepath then RErr tt else ROk filepath.

(** ** Timing points
    The functions take division and multiplication of [rust_decimal] as arguments; [DecOps]
    has the two that are meant. *)
Section Arith.
  Variables div mul : rdec -> rdec -> run rdec.
  Definition d_one : rdec := rdec_of_Z 1.
  (** [beat_duration_ms_to_bpm], [bpm_to_beat_duration_ms] (timingpoints/mod.rs:95-105). *)
  Definition beat_duration_ms_to_bpm (b : rdec) : run rdec :=
    rbind (div d_one b) (fun x => mul x (rdec_of_Z 60000)).
  Definition bpm_to_beat_duration_ms (b : rdec) : run rdec :=
    rbind (div b (rdec_of_Z 60000)) (fun x => div d_one x).
  (** [TimingPoint::new_inherited] (timingpoints/mod.rs:108-129). *)
  Definition tp_new_inherited (time : Z) (velocity : rdec) (meter : Z) (set : tp_sample_set)
    (index : sample_index) (volume : Z) (e : effects) : run timing_point :=
    rbind (div d_one velocity) (fun x => rbind (mul x (rdec_of_Z (-100))) (fun b =>
    ROk (mk_tp (decimal_of_Z time) (DNum b) meter set index volume (Some false) (Some e)))).
  (** [calc_bpm] (timingpoints/mod.rs:152-168). *)
  Definition calc_bpm (t : timing_point) : run (option rdec) :=
    match tp_uninherited t with
    | Some true => match tp_beat_length t with
                   | DNum b => rmap Some (beat_duration_ms_to_bpm b)
                   | DRaw _ => ROk None
                   end
    | _ => ROk None
    end.
  (** [calc_slider_velocity_multiplier] (timingpoints/mod.rs:169-187). *)
  Definition calc_slider_velocity_multiplier (t : timing_point) : run (option rdec) :=
    match tp_uninherited t with
    | Some false => match tp_beat_length t with
                    | DNum b => rmap Some (rbind (div b (rdec_of_Z (-100))) (fun x => div d_one x))
                    | DRaw _ => ROk None
                    end
    | _ => ROk None
    end.
End Arith.
