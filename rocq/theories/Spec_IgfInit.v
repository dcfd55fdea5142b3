(** * Spec_IgfInit: what the bands and tiles of the gap filling have to be *)

From Coq Require Import ZArith List.
Import ListNotations.
Open Scope Z_scope.

(** Tiles of these sizes from line [from] on. *)
Fixpoint pieces (from : Z) (sizes : list Z) : list (Z * Z) :=
  match sizes with [] => [] | t :: r => (from, from + t) :: pieces (from + t) r end.
(** They follow each other from line b to line e, none is empty, and each ends where a band
    ends. *)
Definition divides (b e : Z) (ends sizes : list Z) : Prop :=
  fold_right Z.add 0 sizes = e - b /\ Forall (fun p => fst p < snd p /\ In (snd p) ends) (pieces b sizes).

(** The first even line at or above 1125 Hz, in a spectrum of [lines] lines up to half the
    sampling rate. *)
Definition lowest (lines fs : Z) : Z := let m := (lines * 1125) / (fs / 2) in if Z.even m then m else m + 1.

(** The number of the first band and of the band after the last, for the indices sent. *)
Definition first_band (n idx : Z) : Z := Z.min (11 + idx) (n - 5).
Definition end_band (n s idx : Z) : Z := if idx =? 15 then n else Z.min n (Z.max (s + (n - s - 1) * (idx + 2) / 16) (s + 1)).
(** Where the first k bands end. *)
Definition line (ends : list Z) (k : Z) : Z := nth (Z.to_nat (k - 1)) ends 0.
(** k is the least number of bands that reach line x. *)
Definition least (ends : list Z) (x k : Z) : Prop :=
  1 <= k <= Z.of_nat (length ends) /\ x <= line ends k /\ forall j, 1 <= j < k -> line ends j < x.
