(** * Specification of audio pre-roll: the element as an encoder writes it, and which access
    units should be decoded. *)
From Coq Require Import ZArith List Lia Bool.
From Verif Require Import Bits BitBuf BitWrite Spec_Mhas.
Import ListNotations.
Open Scope Z_scope.

(** Length of the element payload, escaped at 255. *)
Definition enc_plen (v : Z) : list bool :=
  if v <? 255 then bits_of 8 v else bits_of 8 255 ++ bits_of 16 (v - 253).
(** escapedValue(2, 4, 0) *)
Definition enc_count (n : Z) : list bool :=
  if n <? 3 then bits_of 2 n else bits_of 2 3 ++ bits_of 4 (n - 3).
(** An access unit: escapedValue(16, 16, 0) and its bytes. *)
Definition enc_unit (bs : list Z) : list bool :=
  let n := Z.of_nat (length bs) in
  (if n <? 65535 then bits_of 16 n else bits_of 16 65535 ++ bits_of 16 (n - 65535)) ++ enc_bytes bs.

(** The first three bits of the access unit (independence flag, element present, default
    length) and the element. *)
Definition enc_preroll (indep : bool) (plen : Z) (conf : list Z) (r1 r2 : bool) (units : list (list Z)) : list bool :=
  [indep; true; false] ++ enc_plen plen ++ esc_enc 4 4 8 (Z.of_nat (length conf)) ++ enc_bytes conf ++ [r1; r2] ++
  enc_count (Z.of_nat (length units)) ++ concat (map enc_unit units).

Definition valid_unit (bs : list Z) : Prop := are_bytes bs /\ Z.of_nat (length bs) <= 65535 + 65535.
Definition valid_preroll (plen : Z) (conf : list Z) : Prop :=
  0 <= plen < 253 + 65536 /\ are_bytes conf /\ Z.of_nat (length conf) <= 15 + 15 + 255.
