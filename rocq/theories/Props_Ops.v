(** * Fixed-point primitives: properties C39 and C77 *)
From Coq Require Import ZArith List Bool Lia.
From Verif Require Import Ops Spec_Ops Lem_Ops.
Open Scope Z_scope.

(** C39: sums, differences, negation and magnitude. *)
Theorem C39_sums : forall a b c, int32 a -> int32 b -> int32 c ->
  add32_sat a b = clamp32 (a + b) /\ sub32_sat a b = clamp32 (a - b) /\
  add32_sat3 a b c = clamp32 (a + b + c) /\
  negate32_sat a = clamp32 (- a) /\ abs32_sat a = clamp32 (Z.abs a).
Proof. exact sums_ok. Qed.
Print Assumptions C39_sums.
(** C39: product shifted right, for every defined shift amount. *)
Theorem C39_product : forall a b s, 0 <= s < 64 -> mul32_sh_sat a b s = Some (clamp32 (a * b / 2 ^ s)).
Proof. exact mulsh_ok. Qed.
Print Assumptions C39_product.
(** C39: shifts in both directions, for every shift amount of the type's width (left) and
    every amount below 256 (right). *)
Theorem C39_shift : forall a b, int32 a -> -256 < b < 32 -> shl32_dir_sat a b = Some (clamp32 (scaled a b)).
Proof. exact shl_dir_ok. Qed.
Print Assumptions C39_shift.
Theorem C39_shift_right : forall a b, int32 a -> -32 < b < 256 -> shr32_dir_sat a b = Some (clamp32 (scaled a (- b))).
Proof. exact shr_dir_ok. Qed.
Print Assumptions C39_shift_right.
Theorem C39_shift_left : forall a b, int32 a -> 0 <= b < 32 -> shl32_sat a b = Some (clamp32 (a * 2 ^ b)).
Proof. exact shl_ok. Qed.
Print Assumptions C39_shift_left.
(** C39: fractional products; the 32-bit ones are exact up to the lowest bit, which the
    code always clears. *)
Theorem C39_products16 : forall a b c, int32 a -> int16 b -> int16 c ->
  mult16x16in32_shl_sat b c = clamp32 (2 * (b * c)) /\
  mac16x16in32_sat a b c = clamp32 (a + b * c) /\
  mac16x16in32_shl_sat a b c = clamp32 (a + clamp32 (2 * (b * c))) /\
  msu16x16in32_shl_sat a b c = clamp32 (a - clamp32 (2 * (b * c))).
Proof. exact products16_ok. Qed.
Print Assumptions C39_products16.
Theorem C39_products32 : forall a b c d, int32 a -> int32 b -> int16 c -> int32 d ->
  mult32x16in32_shl_sat b c = clamp32 (2 * (b * c / 2 ^ 16)) /\
  mult32_shl_sat a b = clamp32 (2 * (a * b / 2 ^ 32)) /\
  mac32x16in32_shl_sat a b c = clamp32 (a + clamp32 (2 * (b * c / 2 ^ 16))) /\
  mac32_shl_sat a b d = clamp32 (a + clamp32 (2 * (b * d / 2 ^ 32))) /\
  msu32x16in32_shl_sat a b c = clamp32 (a - clamp32 (2 * (b * c / 2 ^ 16))) /\
  msu32_shl_sat a b d = clamp32 (a - clamp32 (2 * (b * d / 2 ^ 32))).
Proof. exact products_ok. Qed.
Print Assumptions C39_products32.
(** C39: 64-bit operands, and narrowing. *)
Theorem C39_add64 : forall a b, int64 a -> int64 b -> add64_sat a b = Some (clamp64 (a + b)).
Proof. exact add64_ok. Qed.
Print Assumptions C39_add64.
Theorem C39_mul64 : forall a b, int64 a -> int64 b -> mult64_sat a b = Some (clamp64 (a * b)).
Proof. exact mul64_ok. Qed.
Print Assumptions C39_mul64.
Theorem C39_narrow : forall a, sat64_32 a = clamp32 a.
Proof. exact sat64_ok. Qed.
Print Assumptions C39_narrow.
(** C39 is false for the 64-bit subtraction, which overflows before it saturates (the
    decoder does not use it); it is right when nothing overflows. *)
Theorem C39_sub64_refuted : int64 9223372036854775807 /\ int64 (-1) /\ sub64_sat 9223372036854775807 (-1) = None.
Proof. exact sub64_undefined. Qed.
Print Assumptions C39_sub64_refuted.
Theorem C39_sub64_partial : forall a b, int64 a -> int64 b ->
  (int64 (a - b) -> sub64_sat a b = Some (clamp64 (a - b))) /\ (~ int64 (a - b) -> sub64_sat a b = None).
Proof. exact sub64_ok. Qed.
Print Assumptions C39_sub64_partial.
Example C39_case : add32_sat 2147483647 5 = 2147483647 /\ shl32_sat (-3) 30 = Some (-2147483648) /\
  mult64_sat (-9223372036854775808) (-1) = Some 9223372036854775807 /\ int32 (-3).
Proof. unfold int32. repeat split; try reflexivity; lia. Qed.

(** C77 for arguments whose successor root has a 64-bit square: the result is the integer
    nearest to the root, since v² - v < x <= v² + v says |v - sqrt x| < 1/2. *)
Theorem C77_sqrt_partial : forall x, 0 <= x < 3037000499 * 3037000499 ->
  exists v, rounded_sqrt64 x = Some v /\ 0 <= v /\ v * v - v < x + (if x =? 0 then 1 else 0) /\ x <= v * v + v.
Proof. exact sqrt_ok. Qed.
Print Assumptions C77_sqrt_partial.
(** C77 is false for negative arguments: the search for the first digit never ends. *)
Theorem C77_sqrt_refuted : forall x, - 2 ^ 63 <= x < 0 -> rounded_sqrt64 x = None.
Proof. exact sqrt_negative. Qed.
Print Assumptions C77_sqrt_refuted.
(** Its only argument in the decoder is 41 + 16 g with a gain code g. *)
Example C77_case : rounded_sqrt64 (41 + 16 * 100) = Some 41 /\ rounded_sqrt64 0 = Some 0.
Proof. split; reflexivity. Qed.
