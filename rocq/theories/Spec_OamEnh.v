(** * Spec_OamEnh: enhanced object metadata frames as values, and their bit layout in
    ISO/IEC 23008-3.  Independent of the parser. *)

From Coq Require Import ZArith List Lia Bool SpecFloat.
From Verif Require Import Bits F32.
Import ListNotations.
Open Scope Z_scope.

(** A value is either kept from the previous frame or sent anew; in independent frames
    nothing can be kept and the keep flag is not sent. *)
Inductive upd (A : Type) := Keep | New (a : A).
Arguments Keep {A}. Arguments New {A} _.

Definition enc_upd {A} (indep : bool) (enc : A -> list bool) (u : upd A) : list bool :=
  (if indep then [] else [match u with Keep => true | New _ => false end]) ++
  match u with Keep => [] | New a => enc a end.
Definition legal_upd {A} (indep : bool) (P : A -> Prop) (u : upd A) : Prop :=
  match u with Keep => indep = false | New a => P a end.

(** An excluded sector: one of the predefined ones, or a box given by azimuths in steps of
    3 degrees from -189 and elevations in steps of 6 degrees from -90. *)
Inductive sect := Predef (i : Z) | Box (az0 az1 el0 el1 : Z).

Definition legal_sect (only : bool) (s : sect) : Prop :=
  match s with
  | Predef i => 0 <= i < 16
  | Box a b e f => only = false /\ 0 <= a < 128 /\ 0 <= b < 128 /\ 0 <= e < 32 /\ 0 <= f < 32
  end.
Definition enc_sect (only : bool) (s : sect) : list bool :=
  match s with
  | Predef i => (if only then [] else [true]) ++ bits_of 4 i
  | Box a b e f => false :: bits_of 7 a ++ bits_of 7 b ++ bits_of 5 e ++ bits_of 5 f
  end.
Definition enc_sects (only : bool) (ss : list sect) : list bool :=
  bits_of 4 (Z.of_nat (length ss)) ++ concat (map (enc_sect only) ss).
Definition legal_sects (only : bool) (ss : list sect) : Prop :=
  (length ss <= 15)%nat /\ Forall (legal_sect only) ss.

Definition box_az (v : Z) : spec_float := of_int (Z.min 180 (Z.max (-180) (3 * v - 189))).
Definition box_el (v : Z) : spec_float := of_int (Z.min 90 (6 * v - 90)).

(** What an enhanced frame says about one object; which of the last three are present in
    the frame depends on the configuration. *)
Record eobj := mkEobj { x_close : Z; x_div : upd Z; x_diff : upd Z; x_exc : upd (list sect) }.

(** The configuration: diffuseness sent per object or common to the group, exclusions per
    object or common to the group, divergence per object, and per object whether only
    predefined sectors occur. *)
Record ecfg := mkEcfg { k_diff : bool; k_cdiff : bool; k_cexc : bool; k_div : nat -> bool; k_only : nat -> bool }.

Definition enc_eobj (c : ecfg) (indep : bool) (k : nat) (x : eobj) : list bool :=
  bits_of 1 (x_close x) ++
  (if k_div c k then enc_upd indep (bits_of 7) (x_div x) else []) ++
  (if k_diff c && negb (k_cdiff c) then enc_upd indep (bits_of 7) (x_diff x) else []) ++
  (if k_cexc c then [] else enc_upd indep (enc_sects (k_only c k)) (x_exc x)).
Fixpoint enc_eobjs (c : ecfg) (indep : bool) (k : nat) (xs : list eobj) : list bool :=
  match xs with [] => [] | x :: xs => enc_eobj c indep k x ++ enc_eobjs c indep (S k) xs end.

(** A frame: the exclusion and diffuseness of the group, and the objects. *)
Definition enc_enh (c : ecfg) (indep : bool) (gx : upd (list sect)) (gd : upd Z) (xs : list eobj) : list bool :=
  (if k_cexc c then enc_upd indep (enc_sects (k_only c 0)) gx else []) ++
  (if k_diff c && k_cdiff c then enc_upd indep (bits_of 7) gd else []) ++
  enc_eobjs c indep 0 xs.

Definition seven_bits (v : Z) : Prop := 0 <= v < 128.
Definition legal_eobj (c : ecfg) (indep : bool) (k : nat) (x : eobj) : Prop :=
  0 <= x_close x < 2 /\ legal_upd indep seven_bits (x_div x) /\ legal_upd indep seven_bits (x_diff x) /\
  legal_upd indep (legal_sects (k_only c k)) (x_exc x).
