(** * Spec_Mp4Desc: how MP4 boxes write descriptions, as the decoder takes them
    Of every description the number of what it describes, then a length and one bit. *)
From Coq Require Import ZArith List.
From Verif Require Import Bits Asi Mp4 Spec_Asi Spec_Mp4.
Import ListNotations.
Open Scope Z_scope.

Record descr := { d_id : Z; d_len : Z; d_bit : Z }.
Definition box_text (x : descr) : list bool := bits_of 8 (d_len x) ++ bits_of 1 (d_bit x).
Definition box_gdescr (x : descr) : list bool := pad 1 ++ bits_of 7 (d_id x) ++ box_text x.
Definition box_sdescr (x : descr) : list bool := pad 3 ++ bits_of 5 (d_id x) ++ box_text x.
Definition box_pdescr (x : descr) : list bool := bits_of 5 (d_id x) ++ box_text x.
(** The number of languages, the language, then the descriptions of groups, switch groups
    and presets.  All counts are written less one. *)
Definition box_descrs (langs code : Z) (gs ss ps : list descr) : list bool :=
  pad 4 ++ bits_of 4 (langs - 1) ++ bits_of 24 code ++
  pad 1 ++ bits_of 7 (Z.of_nat (length gs) - 1) ++ concat (map box_gdescr gs) ++
  pad 3 ++ bits_of 5 (Z.of_nat (length ss) - 1) ++ concat (map box_sdescr ss) ++
  pad 3 ++ bits_of 5 (Z.of_nat (length ps) - 1) ++ concat (map box_pdescr ps).
Definition valid_descr (n : Z) (x : descr) : Prop := fits n (d_id x) /\ fits 8 (d_len x) /\ fits 1 (d_bit x).

(** What is held for a list of descriptions: the numbers in order. *)
Definition holds_descrs (l : list descr) (d : desc) : Prop :=
  firstn (length l) (ds_id d) = map d_id l /\ firstn (length l) (ds_len d) = repeat 1 (length l).

(** A description of a group with a text of one character of eight bits; the length is
    written less one. *)
Definition lettered (id c : Z) : list bool := pad 1 ++ bits_of 7 id ++ bits_of 8 0 ++ bits_of 8 c.
