(** * Spec_CoreBands: the scale factor bands of the standard

    ISO/IEC 14496-3, Table 4.129 and following, which MPEG-H uses for frames of 1024 lines:
    how many bands of which width follow each other.  Independent of the decoder. *)

From Coq Require Import ZArith List Lia.
Import ListNotations.
Open Scope Z_scope.

Definition rle (l : list (Z * Z)) : list Z := flat_map (fun p => repeat (snd p) (Z.to_nat (fst p))) l.

(** The sampling rate whose bands are used for a given one (ISO/IEC 14496-3, Table 4.82). *)
Definition nominal (rate : Z) : Z :=
  if 92017 <=? rate then 96000 else if 75132 <=? rate then 88200 else if 55426 <=? rate then 64000
  else if 46009 <=? rate then 48000 else if 37566 <=? rate then 44100 else if 27713 <=? rate then 32000
  else if 23004 <=? rate then 24000 else if 18783 <=? rate then 22050 else if 13856 <=? rate then 16000
  else if 11502 <=? rate then 12000 else if 9391 <=? rate then 11025 else 8000.

Definition long_widths (nominal : Z) : list Z :=
  rle (if 88200 <=? nominal then [(14, 4); (5, 8); (5, 12); (2, 16); (1, 24); (1, 28); (1, 36); (1, 44); (11, 64)]
  else if 64000 <=? nominal then [(14, 4); (4, 8); (3, 12); (3, 16); (1, 20); (2, 24); (1, 28); (1, 36); (18, 40)]
  else if 44100 <=? nominal then [(10, 4); (7, 8); (4, 12); (2, 16); (2, 20); (2, 24); (2, 28); (19, 32); (1, 96)]
  else if 32000 <=? nominal then [(10, 4); (7, 8); (4, 12); (2, 16); (2, 20); (2, 24); (2, 28); (22, 32)]
  else if 22050 <=? nominal then
    [(11, 4); (10, 8); (4, 12); (3, 16); (2, 20); (2, 24); (2, 28); (1, 32); (2, 36); (1, 40); (1, 44); (1, 48); (2, 52); (5, 64)]
  else if 11025 <=? nominal then
    [(11, 8); (9, 12); (4, 16); (3, 20); (2, 24); (2, 28); (1, 32); (1, 36); (2, 40); (1, 44); (1, 48); (1, 52); (1, 56); (1, 60); (3, 64)]
  else
    [(13, 12); (7, 16); (4, 20); (3, 24); (2, 28); (1, 32); (2, 36); (1, 40); (1, 44); (1, 48); (1, 52); (1, 56); (1, 60); (1, 64); (1, 80)]).
Definition short_widths (nominal : Z) : list Z :=
  rle (if 64000 <=? nominal then [(6, 4); (3, 8); (1, 16); (1, 28); (1, 36)]
  else if 32000 <=? nominal then [(5, 4); (3, 8); (3, 12); (3, 16)]
  else if 22050 <=? nominal then [(7, 4); (3, 8); (2, 12); (2, 16); (1, 20)]
  else if 11025 <=? nominal then [(8, 4); (2, 8); (2, 12); (1, 16); (2, 20)]
  else [(7, 4); (4, 8); (1, 12); (1, 16); (2, 20)]).

(** Where bands of these widths end, from [from] on. *)
Fixpoint tops (from : Z) (ws : list Z) : list Z :=
  match ws with [] => [] | w :: r => (from + w) :: tops (from + w) r end.
(** The same widths in [n] windows. *)
Definition windows (n : nat) (ws : list Z) : list Z := List.concat (repeat ws n).

(** Line [x] belongs to band [b]. *)
Definition in_band (ends : list Z) (b : nat) (x : Z) : Prop :=
  (b < length ends)%nat /\ (match b with O => 0 | S b' => nth b' ends 0 end) <= x < nth b ends 0.
