(** * Spec_Pcm: what the output samples should be

    A sample of the decoder is a binary32 number whose full scale is 32768.  At word size b
    it stands for the integer nearest toward zero to sample * 2^(b-16), limited to b bits. *)

From Coq Require Import ZArith List Lia SpecFloat.
From Verif Require Import F32.
Import ListNotations.
Open Scope Z_scope.

(** The value of a finite binary32 number as a multiple of 2^-149. *)
Definition value149 (x : f32) : option Z :=
  match x with
  | S754_zero _ => Some 0
  | S754_finite s m e => Some ((if s then -1 else 1) * Zpos m * 2 ^ (e + 149))
  | _ => None
  end.

(** The integer of b bits for a number. *)
Definition word_of (b : Z) (x : f32) (n : Z) : Prop :=
  let lo := - 2 ^ (b - 1) in let hi := 2 ^ (b - 1) - 1 in
  match x with
  | S754_nan => False
  | S754_infinity s => n = if s then lo else hi
  | _ => exists v, value149 x = Some v /\
     n = Z.max lo (Z.min hi (Z.quot (v * 2 ^ (b - 16)) (2 ^ 149)))
  end.

(** Its b/8 bytes, least significant first (two's complement). *)
Fixpoint le_bytes (k : nat) (n : Z) : list Z :=
  match k with O => [] | S k => n mod 256 :: le_bytes k (n / 256) end.

(** Interleaving: for every sample of [d, n) and every output position in order the bytes of
    the word [w position sample]. *)
Definition interleaved (b nch : Z) (w : Z -> Z -> Z) (d n : Z) : list Z :=
  flat_map (fun s => flat_map (fun j => le_bytes (Z.to_nat (b / 8)) (w (Z.of_nat j) (d + Z.of_nat s)))
                              (seq 0 (Z.to_nat nch)))
           (seq 0 (Z.to_nat (n - d))).

(** Every FLOAT32 object holds such a value. *)
Definition float32 (x : f32) : Prop := valid_binary 24 128 x = true.

(** The output position of channel c: the channel map says it, -1 stands for c itself. *)
Definition dest (map : list Z) (c : Z) : Z :=
  let v := nth (Z.to_nat c) map (-1) in if v =? -1 then c else v.

(** [p] says which channel goes to which position: the inverse of [dest]. *)
Definition inverse_map (map : list Z) (nch : Z) (p : Z -> Z) : Prop :=
  forall i, 0 <= i < nch ->
    (0 <= dest map i < nch /\ p (dest map i) = i) /\ (0 <= p i < nch /\ dest map (p i) = i).
