(** * Spec_IgfData: how tiles and whitening are written

    Each tile names one of four sources (0..3); each has a whitening of 0 (middle), 1 (none) or
    2 (strong) in the numbering of the decoder.  Written without the decoder's definitions. *)

From Coq Require Import ZArith List Bool.
From Verif Require Import Bits.
Import ListNotations.
Open Scope Z_scope.

(** Either what the frame before used, or new values; whitenings also as one for all. *)
Inductive sources := KeepTiles | NewTiles (l : list Z).
Inductive whitenings := KeepWhite | OneWhite (w : Z) | EachWhite (l : list Z).
Record fill := mkFill { f_tiles : sources; f_white : whitenings; f_flat : bool }.

Definition white_code (w : Z) : list bool := if w =? 0 then [false] else if w =? 1 then [true; false] else [true; true].
Definition is_white (w : Z) : Prop := w = 0 \/ w = 1 \/ w = 2.

(** [indep]: the frame does not refer to others; [white], [flat]: these are sent at all. *)
Definition enc_fill (indep white flat : bool) (f : fill) : list bool :=
  match f_tiles f with
  | KeepTiles => [true]
  | NewTiles l => (if indep then [] else [false]) ++ flat_map (bits_of 2) l
  end ++
  (if white then
     match f_white f with
     | KeepWhite => [true]
     | OneWhite w => (if indep then [] else [false]) ++ white_code w ++ [false]
     | EachWhite l => (if indep then [] else [false]) ++ white_code (hd 0 l) ++ [true] ++ flat_map white_code (tl l)
     end
   else []) ++
  (if flat then [f_flat f] else []).

Definition valid_fill (indep : bool) (nt : nat) (f : fill) : Prop :=
  match f_tiles f with KeepTiles => indep = false | NewTiles l => length l = nt /\ Forall (fun t => 0 <= t <= 3) l end /\
  match f_white f with
  | KeepWhite => indep = false
  | OneWhite w => is_white w
  | EachWhite l => length l = nt /\ Forall is_white l
  end.

(** What is in force after the frame, given what was before. *)
Definition tiles_used (f : fill) (nt : nat) (before : list Z) : list Z :=
  match f_tiles f with KeepTiles => firstn nt before | NewTiles l => l end.
Definition whites_used (white : bool) (f : fill) (nt : nat) (before : list Z) : list Z :=
  if white then match f_white f with KeepWhite => firstn nt before | OneWhite w => repeat w nt | EachWhite l => l end
  else repeat 0 nt.
(** Four cells, unused ones with a fixed value. *)
Definition four (x : Z) (l : list Z) : list Z := l ++ repeat x (4 - length l).
