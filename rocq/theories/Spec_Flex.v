(** * Spec_Flex: flexible loudspeaker layouts as values
    ISO/IEC 23008-3, mpegh3daFlexibleSpeakerConfig and mpegh3daSpeakerDescription: each
    loudspeaker is one of the 43 loudspeakers of ISO/IEC 23091-3, or a direction; one that
    is not in the middle may stand for a pair. *)

From Coq Require Import ZArith List Lia Bool.
From Verif Require Import Bits BitBuf BitWrite Escape Spec_Asi Cicp Config.
Import ListNotations.
Open Scope Z_scope.

(** A loudspeaker by number, or by direction: class of the elevation (0 ear height, 1 above,
    2 below, 3 given), the elevation, the azimuth (positive to the left), whether it is an
    LFE.  Angles are in steps: of one degree if the layout is fine, of five if not. *)
Inductive flexpos := ByIndex (i : Z) | ByAngles (class el az : Z) (lfe : bool).
Definition step (fine : bool) : Z := if fine then 1 else 5.
(** Azimuth in degrees. *)
Definition azimuth (fine : bool) (p : flexpos) : Z :=
  match p with
  | ByIndex i => fst (fst (nth (Z.to_nat i) ls_geo_tbl (0, 0, 0)))
  | ByAngles _ _ az _ => step fine * az
  end.
Definition middle (az : Z) : bool := (az =? 0) || (az =? 180).

(** An entry of the layout, with the flag that it stands for a pair. *)
Definition flexspk : Type := flexpos * bool.
Definition sign (v : Z) : list bool := flag (v <? 0).
Definition enc_pos (fine : bool) (p : flexpos) : list bool :=
  match p with
  | ByIndex i => flag true ++ bits_of 7 i
  | ByAngles class el az lfe =>
    flag false ++ bits_of 2 class ++
    (if class =? 3 then bits_of (if fine then 7 else 5) (Z.abs el) ++ (if el =? 0 then [] else sign el) else []) ++
    bits_of (if fine then 8 else 6) (Z.abs az) ++ (if middle (step fine * az) then [] else sign az) ++
    flag lfe
  end.
Definition enc_flexspk (fine : bool) (x : flexspk) : list bool :=
  enc_pos fine (fst x) ++ if middle (azimuth fine (fst x)) then [] else flag (snd x).
Definition enc_flex (fine : bool) (l : list flexspk) : list bool :=
  flag fine ++ concat (map (enc_flexspk fine) l).

Definition valid_pos (fine : bool) (p : flexpos) : Prop :=
  match p with
  | ByIndex i => 0 <= i <= 42
  | ByAngles class el az _ =>
    0 <= class <= 3 /\ -90 <= step fine * el <= 90 /\ -180 < step fine * az <= 180
  end.
Definition valid_flexspk (fine : bool) (x : flexspk) : Prop :=
  valid_pos fine (fst x) /\ (middle (azimuth fine (fst x)) = true -> snd x = false).

(** The loudspeakers one after the other; the flag marks the second of a pair. *)
Definition speakers (l : list flexspk) : list (flexpos * bool) :=
  flat_map (fun x : flexspk => (fst x, false) :: if snd x then [(fst x, true)] else []) l.

(** What is stored for a loudspeaker: its number, or its direction - the azimuth in degrees
    with its sign, and on which side. *)
Definition holds_spk (fine : bool) (x : flexpos * bool) (f : flex) : Prop :=
  match fst x with
  | ByIndex i => f_cicp f = 1 /\ f_idx f = i
  | ByAngles class el az lfe =>
    f_cicp f = 0 /\ f_elc f = class /\
    (class = 3 -> f_el f = el /\ (el <> 0 -> f_eldir f = b2z (el <? 0))) /\
    f_az f = step fine * az /\
    (middle (step fine * az) = false -> f_azdir f = b2z (xorb (az <? 0) (snd x))) /\
    f_lfe f = b2z lfe
  end.
Definition holds_flex (fine : bool) (l : list flexspk) (y : layout) : Prop :=
  l_prec y = b2z fine /\ Forall2 (holds_spk fine) (speakers l) (firstn (length (speakers l)) (l_flex y)).

(** The loudspeakers by number for which a decoder finds out that a pair flag follows. *)
Definition seen_aside (i : Z) : Prop := 1 <= i <= 19 /\ i <> 8.
Definition plain_pos (p : flexpos) : Prop :=
  match p with ByIndex i => seen_aside i \/ middle (azimuth true (ByIndex i)) = true | _ => True end.
(** No direction to the right has been left in the entries. *)
Definition unused (y : layout) : Prop := Forall (fun f => f_azdir f <> 1) (l_flex y).

(** The reference layout and the layout of a group of channels. *)
Definition enc_flex_layout (fine : bool) (l : list flexspk) : list bool :=
  bits_of 2 2 ++ esc_enc 5 8 16 (Z.of_nat (length (speakers l)) - 1) ++ enc_flex fine l.
