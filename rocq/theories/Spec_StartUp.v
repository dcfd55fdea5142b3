(** * Spec_StartUp: what is heard of a stream *)
From Coq Require Import ZArith List SpecFloat.
From Verif Require Import F32 Spec_Lim Spec_Pcm.
Import ListNotations.
Open Scope Z_scope.

(** The bytes of a signal of rows: for every row the words of its channels, in the order of
    the output positions ([p] says which channel goes to which position). *)
Definition row_bytes (b nch : Z) (p : Z -> Z) (word : f32 -> Z) (r : list f32) : list Z :=
  flat_map (fun j => le_bytes (Z.to_nat (b / 8)) (word (nth (Z.to_nat (p (Z.of_nat j))) r S754_nan))) (seq 0 (Z.to_nat nch)).
Definition signal_bytes (b nch : Z) (p : Z -> Z) (word : f32 -> Z) (xs : list (list f32)) : list Z :=
  flat_map (row_bytes b nch p word) xs.

(** The word of every sample. *)
Definition words (b : Z) (word : f32 -> Z) : Prop := forall x, finite x = true -> word_of b x (word x).

(** A signal that does not exceed the limit of the limiter. *)
Definition quiet (nch : nat) (xs : list (list f32)) : Prop :=
  signal nch xs /\ Forall (Forall (fun x => magnitude_le x limit_level)) xs.
