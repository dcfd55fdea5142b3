(** * The fixed-point primitives

    decoder/ia_core_coder_basic_ops32.h and ia_core_coder_basic_ops40.h.  WORD is the
    32-bit int.  [None] is undefined behaviour: a shift amount outside the width of the
    type, or an overflowing signed operation.  A left shift of a negative value, which the
    compilers in use define as multiplication modulo 2^32, is modelled as such; a right
    shift of a negative value is arithmetic. *)
From Coq Require Import ZArith List Bool Lia.
From Verif Require Import Bits.
Import ListNotations.
Open Scope Z_scope.

Definition MAX_32 := 2147483647.                      (* ia_core_coder_constants.h:82 *)
Definition MIN_32 := -2147483648.                     (* ia_core_coder_constants.h:83 *)
Definition MAX_64 := 9223372036854775807.             (* ia_core_coder_constants.h:79 *)
Definition MIN_64 := -9223372036854775808.            (* ia_core_coder_constants.h:80 *)

(** basic_ops32.h:38-51; a shift of a WORD64 by 64 and more (or less than 0) is undefined. *)
Definition mul32_sh_sat (a b shift : Z) : option Z :=
  if (0 <=? shift) && (shift <? 64) then
    let t := a * b in
    Some (if MAX_32 <=? Z.shiftr t shift then MAX_32
          else if Z.shiftr t shift <=? MIN_32 then MIN_32
          else s32 (Z.shiftr t shift))
  else None.

(** basic_ops32.h:71-82: [(UWORD32)(b << 24) >> 24] is b modulo 256. *)
Definition shl32 (a b : Z) : Z :=
  let b := to_u 8 b in if 31 <? b then 0 else s32 (a * 2 ^ b).

(** basic_ops32.h:84-102 *)
Definition shr32 (a b : Z) : Z :=
  let b := to_u 8 b in
  if 31 <=? b then if a <? 0 then -1 else 0 else Z.shiftr a b.

(** basic_ops32.h:104-114 *)
Definition shl32_sat (a b : Z) : option Z :=
  if (0 <=? b) && (b <? 32) then
    Some (if Z.shiftr MAX_32 b <? a then MAX_32
          else if a <? Z.shiftr MIN_32 b then MIN_32
          else s32 (a * 2 ^ b))
  else None.

(** basic_ops32.h:147-161 *)
Definition shl32_dir_sat (a b : Z) : option Z :=
  if b <? 0 then Some (shr32 a (- b)) else shl32_sat a b.
(** basic_ops32.h:179-193 *)
Definition shr32_dir_sat (a b : Z) : option Z :=
  if b <? 0 then shl32_sat a (- b) else Some (shr32 a b).

(** basic_ops32.h:195-202 *)
Definition mult16x16in32 (a b : Z) : Z := a * b.
(** basic_ops32.h:222-237 *)
Definition mult16x16in32_shl_sat (a b : Z) : Z :=
  let p := a * b in if negb (p =? 0x40000000) then shl32 p 1 else MAX_32.

(** basic_ops32.h:255-267 *)
Definition add32_sat (a b : Z) : Z :=
  let s := a + b in if MAX_32 <=? s then MAX_32 else if s <=? MIN_32 then MIN_32 else s32 s.
(** basic_ops32.h:269-287 *)
Definition add32_sat3 (a b c : Z) : Z :=
  let s := a + b + c in
  let s := if MAX_32 <? s then MAX_32 else s in
  let s := if s <? MIN_32 then MIN_32 else s in s32 s.
(** basic_ops32.h:289-301 *)
Definition sub32_sat (a b : Z) : Z :=
  let s := a - b in if MAX_32 <=? s then MAX_32 else if s <=? MIN_32 then MIN_32 else s32 s.

(** basic_ops32.h:303-331 and 333-352; the loop doubles [a] until it reaches 2^30. *)
Fixpoint norm_loop (fuel : nat) (a n : Z) : option Z :=
  match fuel with
  | O => None
  | S f => if a <? 0x40000000 then norm_loop f (s32 (a * 2)) (n + 1) else Some n
  end.
Definition norm32 (a : Z) : option Z :=
  if a =? 0 then Some 31
  else if a =? -1 then Some 31
  else norm_loop 64 (if a <? 0 then - a - 1 else a) 0.

(** basic_ops32.h:389-405 *)
Definition abs32_sat (a : Z) : Z := if a =? MIN_32 then MAX_32 else if a <? 0 then - a else a.
(** basic_ops32.h:416-429 *)
Definition negate32_sat (a : Z) : Z := if a =? MIN_32 then MAX_32 else - a.

(** basic_ops32.h:494-500, 527-533, 560-566 *)
Definition mac16x16in32_sat (a b c : Z) : Z := add32_sat a (mult16x16in32 b c).
Definition mac16x16in32_shl_sat (a b c : Z) : Z := add32_sat a (mult16x16in32_shl_sat b c).
Definition msu16x16in32_shl_sat (a b c : Z) : Z := sub32_sat a (mult16x16in32_shl_sat b c).

(** basic_ops40.h:84-92 and 119-133 *)
Definition mult32x16in32_shl (a b : Z) : Z := s32 (s32 (Z.shiftr (a * b) 16) * 2).
Definition mult32x16in32_shl_sat (a b : Z) : Z :=
  if (a =? MIN_32) && (b =? -32768) then MAX_32 else mult32x16in32_shl a b.
(** basic_ops40.h:135-143 and 157-171 *)
Definition mult32_shl (a b : Z) : Z := s32 (s32 (Z.shiftr (a * b) 32) * 2).
Definition mult32_shl_sat (a b : Z) : Z :=
  if (a =? MIN_32) && (b =? MIN_32) then MAX_32 else mult32_shl a b.
(** basic_ops40.h:191-194, 214-217, 237-240, 260-263 *)
Definition mac32x16in32_shl_sat (a b c : Z) : Z := add32_sat a (mult32x16in32_shl_sat b c).
Definition mac32_shl_sat (a b c : Z) : Z := add32_sat a (mult32_shl_sat b c).
Definition msu32x16in32_shl_sat (a b c : Z) : Z := sub32_sat a (mult32x16in32_shl_sat b c).
Definition msu32_shl_sat (a b c : Z) : Z := sub32_sat a (mult32_shl_sat b c).

(** basic_ops40.h:380-395; the quotients truncate. *)
Definition mult64_sat (a b : Z) : option Z :=
  if (0 <? a) && (0 <? b) && (Z.quot MAX_64 b <? a) then Some MAX_64
  else if (a <? 0) && (0 <? b) && (a <? Z.quot MIN_64 b) then Some MIN_64
  else if (0 <? a) && (b <? 0) && (b <? Z.quot MIN_64 a) then Some MIN_64
  else if (a <? 0) && (b <? 0) && (a <? Z.quot MAX_64 b) then Some MAX_64
  else if (MIN_64 <=? a * b) && (a * b <=? MAX_64) then Some (a * b) else None.

(** basic_ops40.h:397-406 *)
Definition add64_sat (a b : Z) : option Z :=
  let r := if a <? 0 then MIN_64 else MAX_64 in
  let comp := r - a in
  if Bool.eqb (a <? 0) (comp <? b) then
    if (MIN_64 <=? a + b) && (a + b <=? MAX_64) then Some (a + b) else None
  else Some r.

(** basic_ops40.h:408-423 *)
Definition sat64_32 (a : Z) : Z :=
  if MAX_32 <=? a then MAX_32 else if a <=? MIN_32 then MIN_32 else s32 a.

(** basic_ops40.h:432-456: the subtraction itself overflows before the test. *)
Definition sub64_sat (a b : Z) : option Z :=
  if (MIN_64 <=? a - b) && (a - b <=? MAX_64) then Some (a - b) else None.

(** basic_ops40.h:469-495.  The first loop looks for the largest power of 4; on a negative
    argument it never ends ([None] when the fuel is used up).  The products of the last
    test must not overflow. *)
Fixpoint sqrt_start (fuel : nat) (bit num : Z) : option Z :=
  match fuel with
  | O => None
  | S f => if num <? bit then sqrt_start f (Z.shiftr bit 2) num else Some bit
  end.
Fixpoint sqrt_loop (fuel : nat) (bit num value : Z) : option Z :=
  match fuel with
  | O => None
  | S f =>
    if bit =? 0 then Some value
    else
      let '(num, value) :=
        if value + bit <=? num then (num - (value + bit), value + bit * 2) else (num, value) in
      sqrt_loop f (Z.shiftr bit 2) num (Z.shiftr value 1)
  end.
Definition rounded_sqrt64 (x : Z) : option Z :=
  match sqrt_start 64 (2 ^ 62) x with
  | None => None
  | Some bit =>
    match sqrt_loop 64 bit x 0 with
    | None => None
    | Some v =>
      let n := v + 1 in
      if n * n <=? MAX_64 then Some (if n * n - x <? x - v * v then n else v) else None
    end
  end.
