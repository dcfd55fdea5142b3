(** * Spec_Lim: what the peak limiter should do

    Written without the limiter's own definitions: only the binary32 comparisons. *)

From Coq Require Import ZArith List SpecFloat.
From Verif Require Import F32.
Import ListNotations.
Open Scope Z_scope.

(** A well-formed binary32 number (any: zero, subnormal, infinite, NaN). *)
Definition float32 (x : f32) : Prop := valid_binary 24 128 x = true.

(** Neither infinite nor NaN. *)
Definition finite (x : f32) : bool := match x with S754_zero _ | S754_finite _ _ _ => true | _ => false end.

(** -1 dBFS relative to 32768: 0.89125094f * 32768 = 14952710 / 512. *)
Definition limit_level : f32 := S754_finite false 14952710 (-9).

Definition magnitude_le (x y : f32) : Prop := f_le (SFabs x) y = true.

(** A coefficient of a smoothing filter: a binary32 number from 0 to 1. *)
Definition coefficient (x : f32) : Prop :=
  float32 x /\ f_le (S754_zero false) x = true /\ f_le x (of_int 1) = true.

(** A signal: a list of samples, each with one value per channel. *)
Definition signal (nch : nat) (xs : list (list f32)) : Prop :=
  Forall (fun r => length r = nch /\ Forall float32 r) xs.

(** The signal a pure delay of n samples would produce while xs comes in. *)
Definition silence (n nch : nat) : list (list f32) := repeat (repeat (S754_zero false) nch) n.
Definition delayed (n nch : nat) (xs : list (list f32)) : list (list f32) :=
  firstn (length xs) (silence n nch ++ xs).

(** The last n + 1 samples of a signal that was preceded by silence. *)
Definition window (n nch : nat) (xs : list (list f32)) : list (list f32) :=
  skipn (length xs) (silence (n + 1) nch ++ xs).

(** L is the largest magnitude in a window (zero when the window has no number). *)
Definition largest_magnitude (w : list (list f32)) (L : f32) : Prop :=
  (forall r v, In r w -> In v r -> v <> S754_nan -> magnitude_le v L) /\
  (L = S754_zero false \/ exists r v, In r w /\ In v r /\ v <> S754_nan /\ L = SFabs v).
