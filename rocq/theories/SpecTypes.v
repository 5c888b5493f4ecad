(** What the small value types are allowed to contain and what can be done with them:
    the vocabulary of C27-C30 and C36. *)
From Coq Require Import String List NArith ZArith Bool.
From Verif Require Import Str Num Nom Dec Parsers TimingPoints HitObjects Storyboard NormalEvents Api.
Import ListNotations.
Local Open Scope N_scope.

(** ** values obtainable through the API, whatever the sequence of calls (C28) *)
(** The arguments are [u8]s; a value after a failed call counts too. *)
Inductive combo_value : Z -> Prop :=
| cv_default : combo_value combo_default
| cv_new n c : (0 <= n <= 255)%Z -> combo_new n = ROk (Some c) -> combo_value c
| cv_set c n : combo_value c -> (0 <= n <= 255)%Z -> combo_value (fst (combo_set c n))
| cv_read v s o : ho_from_str v s = ROk (Some o) -> combo_value (ho_combo_skip_count o).
Inductive sample_volume : ho_volume -> Prop :=
| sv_default : sample_volume ho_volume_default
| sv_new n x : match n with Some z => (0 <= z <= 255)%Z | None => True end ->
               ho_volume_new n = ROk x -> sample_volume x
| sv_set x n : sample_volume x -> (0 <= n <= 255)%Z -> sample_volume (fst (ho_volume_set x n))
| sv_timing x : sample_volume x -> sample_volume (ho_volume_use_timing_point x)
| sv_text s x : ho_volume_from_str s = ROk (Some x) -> sample_volume x
| sv_sample s h : hit_sample_from_str s = ROk (Some h) -> sample_volume (hs_volume h)
| sv_object v s o h : ho_from_str v s = ROk (Some o) -> ho_hitsample o = Some h ->
                      sample_volume (hs_volume h).
Inductive audio_volume : Z -> Prop :=
| av_default : audio_volume au_volume_default
| av_new n x : (0 <= n <= 255)%Z -> au_volume_new n = ROk x -> audio_volume x
| av_set x n : audio_volume x -> (0 <= n <= 255)%Z -> audio_volume (fst (au_volume_set x n))
| av_text s x : au_volume_from_str s = ROk (Some x) -> audio_volume x
| av_sample s a : au_from_str s = ROk (Some a) -> audio_volume (au_volume a)
| av_legacy s a x : sl_from_str s = ROk (Some a) -> sl_volume a = Some x -> audio_volume x.

(** ** lists in which only the last entry may be cut short (C29) *)
Definition full_pair {T} (x : T * option T) : Prop := snd x <> None.
Definition full_rgb (x : u8x3) : Prop := let '(_, g, b) := x in g <> None /\ b <> None.
(** a colour may miss its blue part, or its green and blue parts *)
Definition rgb_prefix (x : u8x3) : Prop := let '(_, g, b) := x in g = None -> b = None.
Definition only_last_cut {A} (full : A -> Prop) (l : list A) : Prop :=
  forall a x b, l = a ++ x :: b -> b <> [] -> full x.

(** The length of a [Vec] always fits an [isize]. *)
Definition len_ok {A} (l : list A) : Prop := (Z.of_nat (length l) < 2 ^ 63)%Z.
Definition last_index {A} (l : list A) (i : Z) : Prop := (i = Z.of_nat (length l) - 1)%Z.

(** The values obtainable through the API; the index is a [usize]. *)
Inductive cont_value {T} (dbg : bool) : continuing T -> Prop :=
| ctv_new start rest c : cont_new start rest = ROk c -> cont_value dbg c
| ctv_start c s : cont_value dbg c -> cont_value dbg (mk_cont s (ct_rest c))
| ctv_push c f c' : cont_value dbg c -> len_ok (ct_rest c) -> cont_push dbg c f = ROk c' -> cont_value dbg c'
| ctv_set c i f c' : cont_value dbg c -> len_ok (ct_rest c) -> (0 <= i < 2 ^ 64)%Z ->
                     cont_set dbg c i f = ROk c' -> cont_value dbg c'.
Inductive rgbs_value (dbg : bool) : sb_colours -> Prop :=
| rgv_new start rest c : sbc_new start rest = ROk c -> rgbs_value dbg c
| rgv_set c i f c' : rgbs_value dbg c -> len_ok (sbc_rest c) -> (0 <= i < 2 ^ 64)%Z ->
                     sbc_set dbg c i f = ROk c' -> rgbs_value dbg c'.

(** What the entries stand for: a missing second value is the one before it. *)
Fixpoint meaning {T} (prev : T) (l : list (T * option T)) : list (T * T) :=
  match l with
  | [] => []
  | (x, Some y) :: l' => (x, y) :: meaning y l'
  | (x, None) :: l' => (x, prev) :: meaning prev l'
  end.

(** ** the type number of a hit object line (C27) *)
Inductive kind := KCircle | KSlider | KSpinner | KHold.
Definition kind_of (p : ho_params) : kind :=
  match p with HitCircle => KCircle | Slider _ => KSlider | Spinner _ => KSpinner | OsuManiaHold _ => KHold end.
(** the lowest set bit of 0, 1, 3, 7 names the kind *)
Definition kind_bits (ty : Z) : option kind :=
  if Z.odd ty then Some KCircle
  else if Z.odd (ty / 2) then Some KSlider
  else if Z.odd (ty / 8) then Some KSpinner
  else if Z.odd (ty / 128) then Some KHold
  else None.
(** nothing, or a further field *)
Definition starts_comma (s : str) : Prop := s = [] \/ exists t, s = 44 :: t.

(** ** trigger types (C30) *)
(** What the notation can express: a second sample set only after a first one, and a
    custom sample index of one digit. *)
Definition trigger_ok (t : trigger_type) : bool :=
  match t with
  | TtHitSound ss ass _ n =>
      match ss, ass with None, Some _ => false | _, _ => true end
      && match n with Some z => (0 <=? z) && (z <=? 9) | None => true end%Z
  | _ => true
  end.
(** the number of names a trigger writes before the custom sample index *)
Definition trigger_names (t : trigger_type) : nat :=
  match t with
  | TtHitSound ss ass ad _ =>
      match ss with Some _ => 1 | None => 0 end + match ass with Some _ => 1 | None => 0 end
      + match ad with Some _ => 1 | None => 0 end
  | _ => 0
  end%nat.
