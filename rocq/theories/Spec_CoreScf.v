(** * Spec_CoreScf: the scale factors of a channel, as sent

    Independent of the decoder. *)

From Coq Require Import ZArith List Lia Bool String.
From Verif Require Import Bits Spec_Mct.
Import ListNotations.
Open Scope list_scope.
Open Scope Z_scope.

(** A scale factor is sent as its difference from the one before, with the scale factor book. *)
Definition step_code (last v : Z) : list bool := word (nth (Z.to_nat (60 + (v - last))) book_scf EmptyString).
Fixpoint enc_steps (last : Z) (vs : list Z) : list bool :=
  match vs with [] => [] | v :: r => step_code last v ++ enc_steps v r end.
Fixpoint valid_steps (last : Z) (vs : list Z) : Prop :=
  match vs with [] => True | v :: r => -60 <= v - last <= 60 /\ 0 <= v <= 255 /\ valid_steps v r end.

(** What is sent for a channel: the global gain, which is the very first factor, and for
    every group of windows a row of factors, one for each of the bands in use.  Only the
    other factors are coded; each row goes on from the end of the row before. *)
Definition enc_factors (gain : Z) (rows : list (list Z)) : list bool := enc_steps gain (tl (List.concat rows)).
Definition valid_factors (max : nat) (gain : Z) (rows : list (list Z)) : Prop :=
  0 <= gain <= 255 /\ Forall (fun r => List.length r = max) rows /\
  (0 < max -> hd gain (List.concat rows) = gain)%nat /\ valid_steps gain (tl (List.concat rows)).

(** What the factors of all windows are then, window after window, [nsb] bands each, bands
    not in use with factor 0; [sizes] are the numbers of windows of the groups. *)
Definition pad (nsb : nat) (r : list Z) : list Z := r ++ repeat 0 (nsb - List.length r).
Fixpoint spread (nsb : nat) (sizes : list nat) (rows : list (list Z)) : list Z :=
  match sizes, rows with
  | n :: sizes', r :: rows' => List.concat (repeat (pad nsb r) n) ++ spread nsb sizes' rows'
  | _, _ => []
  end.
(** Without bands in use the gain still is the first factor, in all windows of the first group. *)
Definition rows_of (gain : Z) (max : nat) (rows : list (list Z)) : list (list Z) :=
  match max with O => [gain] :: tl rows | S _ => rows end.
Definition all_factors (nsb max : nat) (sizes : list nat) (gain : Z) (rows : list (list Z)) : list Z :=
  spread nsb sizes (rows_of gain max rows).

(** Where the groups end. *)
Fixpoint ends (from : Z) (sizes : list nat) : list Z :=
  match sizes with [] => [] | n :: r => (from + Z.of_nat n) :: ends (from + Z.of_nat n) r end.
