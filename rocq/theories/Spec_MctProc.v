(** * Spec_MctProc: what the multichannel coding tool does to two spectra

    Written from ISO/IEC 23008-3: a band of the tool is two scale factor bands; in each
    processed band the two channels are rotated by the angle, or one is predicted from the
    other. *)

From Coq Require Import ZArith List Lia Bool SpecFloat.
From Verif Require Import F32 Spec_Mct.
Import ListNotations.
Open Scope Z_scope.

(** The scale factor band of line [k], given the ends of the bands. *)
Fixpoint sfb_at (ends : list Z) (k : Z) : option nat :=
  match ends with
  | [] => None
  | e :: r => if k <? e then Some 0%nat else option_map S (sfb_at r k)
  end.

(** The coefficient for line [k] of window [w]. *)
Definition coefficient (s : sbox) (ends : list Z) (w : nat) (k : Z) : option Z :=
  match s_cont s with
  | Whole q => Some q
  | c => match sfb_at ends k with
         | Some j => nth (j / 2) (nth w (effect (s_short s) c) []) None
         | None => None
         end
  end.

(** The two channels from the two transmitted spectra: rotation with the cosine and sine of
    the angle; prediction with a tenth of the coefficient [a], of the side signal from the
    middle one, or (reversed) of the middle signal from the side one. *)
Definition rotation (c s x y : f32) : f32 * f32 :=
  (f_sub (f_mul x c) (f_mul y s), f_add (f_mul x s) (f_mul y c)).
Definition prediction (reversed : bool) (a x y : f32) : f32 * f32 :=
  let p := f_mul a x in
  (f_add (f_add x p) y, if reversed then f_add (f_add (SFopp x) p) y else f_sub (f_sub x p) y).

Definition upmix (cs sn : list f32) (k : kind) (reversed : bool) (c : option Z) (xy : f32 * f32) : f32 * f32 :=
  match c with
  | None => xy
  | Some q =>
    match k with
    | Rotation => rotation (nth (Z.to_nat q) cs S754_nan) (nth (Z.to_nat q) sn S754_nan) (fst xy) (snd xy)
    | Prediction => prediction reversed (f_mul (of_int q) (lit 1 10)) (fst xy) (snd xy)
    end
  end.

(** Ends of the scale factor bands of a window with [bins] lines. *)
Fixpoint rising (lo : Z) (ends : list Z) : Prop :=
  match ends with [] => True | e :: r => lo <= e /\ rising e r end.
Definition ends_ok (bins : Z) (ends : list Z) : Prop :=
  ends <> [] /\ rising 0 ends /\ Forall (fun e => e <= bins) ends.
