(** * Spec_MctFill: the downmix of the frame before

    Written from ISO/IEC 23008-3, stereo filling in the multichannel coding tool: the
    residual of a pair is filled from the downmix of the two channels of the frame before,
    found by undoing the upmix: half the sum (or difference) of the channels for
    prediction, the rotation back by the angle of the band for rotation; where a band is
    not processed the downmix is the first channel (angle 0, index 32). *)

From Coq Require Import ZArith List Lia Bool SpecFloat.
From Verif Require Import F32 Spec_Mct Spec_MctProc.
Import ListNotations.
Open Scope Z_scope.

Definition turn_back (cs sn : list f32) (idx : Z) (x y : f32) : f32 :=
  f_add (f_add (S754_zero false) (f_mul x (nth (Z.to_nat idx) cs S754_nan))) (f_mul y (nth (Z.to_nat idx) sn S754_nan)).
Definition half (reversed : bool) (x y : f32) : f32 := f_mul (lit 1 2) (if reversed then f_sub x y else f_add x y).

(** The index of the angle for line [k]: one for all lines, or one for each band. *)
Definition angle_at (whole : option Z) (row : list (option Z)) (ends : list Z) (k : Z) : option Z :=
  match whole with
  | Some q => Some q
  | None => match sfb_at ends k with
            | Some j => Some (match nth (j / 2) row None with Some q => q | None => 32 end)
            | None => None
            end
  end.
