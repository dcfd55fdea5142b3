(** * F32: single precision numbers

    FLOAT32 is the IEEE 754 binary32 format of the C compiler.  It is represented by
    [spec_float] of the standard library (Coq.Floats.SpecFloat), whose operations with
    24 bits of precision and maximal exponent 128 round to nearest, ties to even.
    Assumed: every operation of the C code on FLOAT32 operands is carried out in binary32
    (FLT_EVAL_METHOD = 0), round to nearest. *)

From Coq Require Import ZArith List Lia Bool SpecFloat.
Import ListNotations.
Open Scope Z_scope.

Definition f32 := spec_float.

(** C operators on FLOAT32 and conversion from WORD32. *)
Definition f_mul : f32 -> f32 -> f32 := SFmul 24 128.
Definition f_add : f32 -> f32 -> f32 := SFadd 24 128.
Definition f_sub : f32 -> f32 -> f32 := SFsub 24 128.
Definition f_div : f32 -> f32 -> f32 := SFdiv 24 128.
Definition of_int (z : Z) : f32 := binary_normalize 24 128 z 0 false.
(** A decimal literal [n / 10^k] with suffix f: correctly rounded. *)
Definition lit (n d : Z) : f32 := SFdiv 24 128 (of_int n) (of_int d).
Definition f_lt : f32 -> f32 -> bool := SFltb.
Definition f_le : f32 -> f32 -> bool := SFleb.
Definition f_gt (a b : f32) : bool := SFltb b a.

(** ia_max_int and ia_min_int, impeghd_intrinsics_flt.h:46-52 (both variants compare the
    arguments with > and <). *)
Definition ia_max (a b : f32) : f32 := if f_gt a b then a else b.
Definition ia_min (a b : f32) : f32 := if f_lt a b then a else b.

(** The clamp used all over the decoder: ia_min(ia_max(x, lo), hi). *)
Definition clamp (lo hi x : f32) : f32 := ia_min (ia_max x lo) hi.

(** ** Specification of ranges: IEEE comparison. *)
Definition between (lo hi x : f32) : Prop := f_le lo x = true /\ f_le x hi = true.

Lemma lt_le a b : f_lt a b = true -> f_le a b = true.
Proof. unfold f_lt, f_le, SFltb, SFleb. destruct (SFcompare a b) as [[]|]; congruence. Qed.

(** The clamp returns a value in range whatever its argument is, NaN and infinities
    included. *)
Theorem clamp_between lo hi x :
  f_lt lo hi = true -> f_le lo lo = true -> f_le hi hi = true -> between lo hi (clamp lo hi x).
Proof.
  intros H L R. unfold between, clamp, ia_min, ia_max, f_gt.
  change (SFltb lo x) with (f_lt lo x).
  destruct (f_lt lo x) eqn:E.
  - destruct (f_lt x hi) eqn:F; split; auto using lt_le.
  - rewrite H. split; auto using lt_le.
Qed.

(** A value strictly inside is not changed. *)
Lemma clamp_id lo hi x : f_lt lo x = true -> f_lt x hi = true -> clamp lo hi x = x.
Proof. intros H1 H2. unfold clamp, ia_min, ia_max, f_gt. fold f_lt. 
  change (SFltb lo x) with (f_lt lo x). rewrite H1, H2. reflexivity. Qed.

Example clamp_ex : clamp (lit (-180) 1) (lit 180 1) (of_int 200) = of_int 180 /\
  clamp (lit (-180) 1) (lit 180 1) S754_nan = of_int (-180) /\
  between (lit (-180) 1) (lit 180 1) (f_mul (of_int (-37)) (lit 15 10)).
Proof. repeat split. Qed.
