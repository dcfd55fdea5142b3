(** * What the primitives are to compute *)
From Coq Require Import ZArith Lia.
Open Scope Z_scope.

Definition int16 (x : Z) : Prop := - 2 ^ 15 <= x < 2 ^ 15.
Definition int32 (x : Z) : Prop := - 2 ^ 31 <= x < 2 ^ 31.
Definition int64 (x : Z) : Prop := - 2 ^ 63 <= x < 2 ^ 63.

(** The number of the range nearest to an exact result. *)
Definition clamp32 (x : Z) : Z := Z.max (- 2 ^ 31) (Z.min (2 ^ 31 - 1) x).
Definition clamp64 (x : Z) : Z := Z.max (- 2 ^ 63) (Z.min (2 ^ 63 - 1) x).

(** The exact result of shifting by [b] places, rounded towards minus infinity. *)
Definition scaled (a b : Z) : Z := if b <? 0 then a / 2 ^ (- b) else a * 2 ^ b.
