(** * Spec_Oam: object metadata as values, and its bit layout in ISO/IEC 23008-3
    (low-delay object metadata: intra frames, absolute and differential dynamic frames).
    Independent of the parser. *)

From Coq Require Import ZArith List Lia Bool SpecFloat.
From Verif Require Import Bits F32.
Import ListNotations.
Open Scope Z_scope.

(** One object: azimuth, elevation, radius, gain, spread width, height, depth, priority, as
    the integers carried in the stream. *)
Record obj := mkObj {
  b_az : Z; b_el : Z; b_rad : Z; b_gain : Z; b_sw : Z; b_sh : Z; b_sd : Z; b_pri : Z }.

Definition legal_obj (b : obj) : Prop :=
  - 128 <= b_az b < 128 /\ - 32 <= b_el b < 32 /\ 0 <= b_rad b < 16 /\ - 64 <= b_gain b < 64 /\
  0 <= b_sw b < 128 /\ 0 <= b_sh b < 32 /\ 0 <= b_sd b < 16 /\ 0 <= b_pri b < 8.

(** Signed fields are two's complement. *)
Definition enc_s (n : nat) (v : Z) : list bool := bits_of n (v mod 2 ^ Z.of_nat n).

(** How a parameter is sent in an intra frame: one value for all objects that also holds
    for the following dynamic frames, one common value, or one value per object. *)
Inductive how := Fixed | Common | Each.

Definition enc_how {A} (h : how) (enc : A -> list bool) (d : A) (vs : list A) : list bool :=
  match h with
  | Fixed => true :: enc (hd d vs)
  | Common => false :: true :: enc (hd d vs)
  | Each => false :: false :: concat (map enc vs)
  end.

(** One value can only be sent for all objects if they share it. *)
Definition fair {A} (h : how) (vs : list A) : Prop :=
  match h with Each => True | _ => forall x y, In x vs -> In y vs -> x = y end.

Record modes := mkModes { m_az : how; m_el : how; m_rad : how; m_gain : how; m_sp : how; m_pri : how }.

(** Spread: only the width when the configuration says uniform. *)
Definition spread_of (uni : bool) (b : obj) : Z * Z * Z := if uni then (b_sw b, 0, 0) else (b_sw b, b_sh b, b_sd b).
Definition enc_spread (uni : bool) (t : Z * Z * Z) : list bool :=
  let '(w, h, d) := t in if uni then bits_of 7 w else bits_of 7 w ++ bits_of 5 h ++ bits_of 4 d.

(** The intra frame: with one object there are no mode flags. *)
Definition enc_intra (uni dyn : bool) (m : modes) (os : list obj) : list bool :=
  if (length os <=? 1)%nat then
    concat (map (fun b => enc_s 8 (b_az b) ++ enc_s 6 (b_el b) ++ bits_of 4 (b_rad b) ++ enc_s 7 (b_gain b) ++
      enc_spread uni (spread_of uni b) ++ (if dyn then bits_of 3 (b_pri b) else [])) os)
  else
    enc_how (m_az m) (enc_s 8) 0 (map b_az os) ++
    enc_how (m_el m) (enc_s 6) 0 (map b_el os) ++
    enc_how (m_rad m) (bits_of 4) 0 (map b_rad os) ++
    enc_how (m_gain m) (enc_s 7) 0 (map b_gain os) ++
    enc_how (m_sp m) (enc_spread uni) (0, 0, 0) (map (spread_of uni) os) ++
    (if dyn then enc_how (m_pri m) (bits_of 3) 0 (map b_pri os) else []).

Definition fair_modes (uni dyn : bool) (m : modes) (os : list obj) : Prop :=
  fair (m_az m) (map b_az os) /\ fair (m_el m) (map b_el os) /\ fair (m_rad m) (map b_rad os) /\
  fair (m_gain m) (map b_gain os) /\ fair (m_sp m) (map (spread_of uni) os) /\
  (dyn = true -> fair (m_pri m) (map b_pri os)).

(** ** Dynamic frames *)

(** A dynamic frame says for every object whether it changes. *)
Definition enc_dynamic {A} (absolute : bool) (enc : A -> list bool) (us : list (option A)) : list bool :=
  absolute :: concat (map (fun u => match u with None => [false] | Some a => true :: enc a end) us).

(** An absolute update, for parameters that are not fixed, as in the standard: the spread
    depth has 4 bits and the priority is sent when it is not fixed. *)
Definition enc_absolute (uni dyn : bool) (b : obj) : list bool :=
  enc_s 8 (b_az b) ++ enc_s 6 (b_el b) ++ bits_of 4 (b_rad b) ++ enc_s 7 (b_gain b) ++
  enc_spread uni (spread_of uni b) ++ (if dyn then bits_of 3 (b_pri b) else []).

(** A differential update: the number of bits [nb] (2 .. 9) and, per parameter, an optional
    difference that fits the announced number of bits. *)
Record delta := mkDelta {
  t_nb : Z; t_az : option Z; t_el : option Z; t_rad : option Z; t_gain : option Z;
  t_sw : option Z; t_sh : option Z; t_sd : option Z; t_pri : option Z }.

Definition enc_diff (n : Z) (o : option Z) : list bool :=
  match o with None => [false] | Some v => true :: enc_s (Z.to_nat n) v end.
Definition fits_diff (n : Z) (o : option Z) : Prop :=
  match o with None => True | Some v => - 2 ^ (n - 1) <= v < 2 ^ (n - 1) end.

Definition enc_delta (uni dyn : bool) (t : delta) : list bool :=
  let nb := t_nb t in
  bits_of 3 (nb - 2) ++ enc_diff nb (t_az t) ++ enc_diff (Z.min 7 nb) (t_el t) ++
  enc_diff (Z.min 5 nb) (t_rad t) ++ enc_diff (Z.min 8 nb) (t_gain t) ++
  enc_diff (Z.min 8 nb) (t_sw t) ++
  (if uni then [] else enc_diff (Z.min 6 nb) (t_sh t) ++ enc_diff (Z.min 5 nb) (t_sd t)) ++
  (if dyn then enc_diff (Z.min 4 nb) (t_pri t) else []).

Definition legal_delta (t : delta) : Prop :=
  let nb := t_nb t in
  2 <= nb <= 9 /\ fits_diff nb (t_az t) /\ fits_diff (Z.min 7 nb) (t_el t) /\
  fits_diff (Z.min 5 nb) (t_rad t) /\ fits_diff (Z.min 8 nb) (t_gain t) /\
  fits_diff (Z.min 8 nb) (t_sw t) /\ fits_diff (Z.min 6 nb) (t_sh t) /\
  fits_diff (Z.min 5 nb) (t_sd t) /\ fits_diff (Z.min 4 nb) (t_pri t).

Definition plus (v : Z) (o : option Z) : Z := match o with None => v | Some d => v + d end.

(** ** What the decoder tells the renderer about an object: azimuth 1.5 degrees per step in
    [-180, 180], elevation 3 degrees per step in [-90, 90], spread width 1.5 degrees per step
    in [0, 180], spread height 3 degrees per step in [0, 90], the priority itself, all as
    binary32 numbers (correctly rounded quotients). *)
Definition az_degrees (v : Z) : spec_float := lit (Z.min 360 (Z.max (-360) (3 * v))) 2.
Definition el_degrees (v : Z) : spec_float := lit (Z.min 90 (Z.max (-90) (3 * v))) 1.
Definition width_degrees (v : Z) : spec_float := lit (Z.min 360 (3 * v)) 2.
Definition height_degrees (v : Z) : spec_float := lit (Z.min 90 (3 * v)) 1.
