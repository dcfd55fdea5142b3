(** * Limiter: the peak limiter

    Models impeghd_peak_limiter.c in binary32 arithmetic (F32.v; every operation rounded to
    FLOAT32, no fused operations).  fmax, fmin and fabs of the C library work on doubles;
    converting a FLOAT32 there and back is exact, so they are modelled on binary32 directly.
    The two results of pow in impeghd_peak_limiter_init (166-168) are parameters.

    The delay line is a list of rows, one per delayed sample, each with one value per
    channel; in the C code the rows are laid out one after the other (delayed_input).  The
    number of channels does not change between the frames of the model. *)

From Coq Require Import ZArith List Lia Bool SpecFloat.
From Verif Require Import F32.
Import ListNotations.
Open Scope Z_scope.

(** fabs, fmax, fmin and unary minus (impeghd_intrinsics_flt.h:42, 49-50, 56): a NaN operand
    of fmax and fmin is ignored. *)
Definition f_abs : f32 -> f32 := SFabs.
Definition f_neg : f32 -> f32 := SFopp.
Definition is_nan (x : f32) : bool := match x with S754_nan => true | _ => false end.
Definition f_max (a b : f32) : f32 := if is_nan a then b else if is_nan b then a else if f_lt a b then b else a.
Definition f_min (a b : f32) : f32 := if is_nan a then b else if is_nan b then a else if f_lt b a then b else a.

Definition f_zero := S754_zero false.
Definition f_one := of_int 1.

(** ia_peak_limiter_struct, impeghd_peak_limiter_struct_def.h:38-58, the members the
    processing uses. *)
Record lim := mkLim {
  l_ac : f32;             (* attack_constant *)
  l_rc : f32;             (* release_constant *)
  l_thr : f32;            (* limit_threshold *)
  l_gm : f32;             (* gain_modified *)
  l_pre : f32;            (* pre_smoothed_gain *)
  l_max : list f32;       (* max_buf, attack_time_samples + 1 entries *)
  l_del : list (list f32);(* delayed_input, attack_time_samples rows *)
  l_didx : nat;           (* delayed_input_index *)
  l_midx : nat;           (* max_idx *)
  l_cir : nat             (* cir_buf_pnt *)
}.

Definition att (l : lim) : nat := length (l_del l).

(** LIM_DEFAULT_THRESHOLD * 32768.0f, ia_core_coder_cnst.h:94 and peak_limiter.c:158: the
    literal 0.89125094f is 14952710 * 2^-24. *)
Definition THRESHOLD : f32 := f_mul (S754_finite false 14952710 (-24)) (of_int 32768).

(** impeghd_peak_limiter_init, peak_limiter.c:138-172, on a cleared structure
    (impeghd_api.c:1168) and for attack_time >= 1; attack is attack_time_samples, 240 at
    48000 Hz, the only rate at which the limiter runs (decode_main.c:1508-1510). *)
Definition lim_init (attack nch : nat) (ac rc : f32) : lim :=
  mkLim ac rc THRESHOLD f_one f_one (repeat f_zero (attack + 1)) (repeat (repeat f_zero nch) attack) 0 0 0.
(** Largest magnitude of one sample over the channels, 219-223. *)
Definition level (x : list f32) : f32 := fold_left (fun t v => f_max t (f_abs v)) x f_zero.

Definition upd {A} (l : list A) (i : nat) (v : A) : list A := firstn i l ++ v :: skipn (S i) l.
Definition ix (l : list f32) (i : nat) : f32 := nth i l S754_nan.

(** The search of lines 227-232. *)
Definition rescan (b : list f32) : nat :=
  fold_left (fun m j => if f_lt (ix b m) (ix b j) then j else m) (seq 1 (length b - 1)) 0%nat.

(** Lines 224-244: the new entry, its place, the index of the maximum. *)
Definition track (b : list f32) (midx cir : nat) (t : f32) : list f32 * nat * nat :=
  let b := upd b cir t in
  let m := if Nat.eqb midx cir then rescan b
           else if f_le (ix b midx) t then cir else midx in
  let c := S cir in
  (b, m, if Nat.eqb c (length b) then 0%nat else c).

(** Lines 246-255. *)
Definition target_gain (thr m : f32) : f32 := if f_le m thr then f_one else f_div thr m.

(** Lines 256-276: gain_modified and pre_smoothed_gain. *)
Definition POINT1 := S754_finite false 13421773 (-27). (* 0.1f *)
Definition ONE11 := S754_finite false 9320676 (-23).   (* 1.11111111f *)
Definition smooth (ac rc gain gm pre : f32) : f32 * f32 :=
  let gm := if f_lt gain pre
            then f_min gm (f_mul (f_sub gain (f_mul POINT1 pre)) ONE11)
            else gain in
  if f_le pre gm
  then (gm, f_add gm (f_mul rc (f_sub pre gm)))
  else (gm, f_max (f_add gm (f_mul ac (f_sub pre gm))) gain).

(** impeghd_cpy_delay_samples_with_gain, 104-132, one value. *)
Definition limit1 (thr gain x : f32) : f32 :=
  let t := f_mul x gain in
  if f_lt thr t then thr else if f_lt t (f_neg thr) then f_neg thr else t.

(** One pass of the loop 217-283: the output row and the new state. *)
Definition lim_step (l : lim) (x : list f32) : list f32 * lim :=
  let '(b, m, c) := track (l_max l) (l_midx l) (l_cir l) (level x) in
  let gain := target_gain (l_thr l) (ix b m) in
  let '(gm, pre) := smooth (l_ac l) (l_rc l) gain (l_gm l) (l_pre l) in
  let out := map (limit1 (l_thr l) pre) (nth (l_didx l) (l_del l) []) in
  let d := S (l_didx l) in
  (out, mkLim (l_ac l) (l_rc l) (l_thr l) gm pre b (upd (l_del l) (l_didx l) x)
          (if Nat.leb (att l) d then 0%nat else d) m c).

(** impeghd_peak_limiter_process, 198-291, on a frame (a list of rows).  limiter_on is set
    by init and never cleared, so the first branch (210-214) is not taken. *)
Fixpoint lim_frame (l : lim) (xs : list (list f32)) : list (list f32) * lim :=
  match xs with
  | [] => ([], l)
  | x :: xs =>
    let '(y, l) := lim_step l x in
    let '(ys, l) := lim_frame l xs in
    (y :: ys, l)
  end.

(** A sequence of calls. *)
Fixpoint lim_frames (l : lim) (fs : list (list (list f32))) : list (list f32) * lim :=
  match fs with
  | [] => ([], l)
  | f :: fs =>
    let '(y, l) := lim_frame l f in
    let '(ys, l) := lim_frames l fs in
    (y ++ ys, l)
  end.
