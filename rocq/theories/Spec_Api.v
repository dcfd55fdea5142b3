(** * What a caller relies on when creating and deleting a decoder

    Small specifications, independent of the model. *)
From Coq Require Import ZArith List Bool Lia.
From Verif Require Import Api.
Import ListNotations.
Open Scope Z_scope.

(** The documented settings: word size 16, 24 or 32 bits; effect type 0 to 8; a loudness,
    when one is requested (first word 1), of 0 to 255 quarter decibels below full scale;
    a layout index of the decoder's layout table (0 for "not set"); a preset id, -1 for
    "not set". *)
Definition pcm_ok (v : Z) : Prop := v = 16 \/ v = 24 \/ v = 32.
Definition effect_ok (v : Z) : Prop := 0 <= v <= 8.
Definition loud_ok (requested v : Z) : Prop := requested <> 1 \/ 0 <= v <= 255.
Definition layout_ok (v : Z) : Prop := 0 <= v <= 19.
Definition preset_ok (v : Z) : Prop := -1 <= v <= 31.

Definition valid (i : incfg) : Prop :=
  pcm_ok (i_wdsz i) /\ effect_ok (i_effect i) /\ loud_ok (i_tl0 i) (i_tl1 i) /\
  layout_ok (i_cicp i) /\ preset_ok (i_preset i).

(** What the C types of the caller's structure allow. *)
Definition typed (i : incfg) : Prop :=
  0 <= i_wdsz i < 2 ^ 32 /\ - 2 ^ 31 <= i_effect i < 2 ^ 31 /\ - 2 ^ 31 <= i_tl0 i < 2 ^ 31 /\
  - 2 ^ 31 <= i_tl1 i < 2 ^ 31 /\ - 2 ^ 31 <= i_cicp i < 2 ^ 31 /\ -128 <= i_preset i < 128.

(** The result code of create. *)
Definition code {A B C} (r : Z * A * B * C) : Z := let '(e, _, _, _) := r in e.
Definition conf {A B C} (r : Z * A * B * C) : A := let '(_, c, _, _) := r in c.
Definition input {A B C} (r : Z * A * B * C) : B := let '(_, _, i, _) := r in i.
Definition memory {A B C} (r : Z * A * B * C) : C := let '(_, _, _, m) := r in m.

(** The six blocks create asks for: size and alignment. *)
Definition requests (z : sizes) : list (Z * Z) :=
  (z_api z, 4) :: (tabs_size z, 4) :: mem_tables z.

(** Half-open address ranges. *)
Definition apart (a la b lb : Z) : Prop := a + la <= b \/ b + lb <= a.
Definition within (a la b lb : Z) : Prop := b <= a /\ a + la <= b + lb.

(** The allocator reserved size+alignment bytes for each block, in disjoint places. *)
Definition reserved (bs : list block) : Prop :=
  forall i j b c, i <> j -> nth_error bs i = Some b -> nth_error bs j = Some c ->
    apart (b_base b) (b_size b + b_align b) (b_base c) (b_size c + b_align c).

(** Sizes a compiler can choose: positive, and small enough for a 32-bit sum. *)
Definition sane (z : sizes) : Prop :=
  0 < z_api z /\ 0 < z_state z /\ 0 < z_dec z /\ 0 < z_ptr z /\
  z_state z + z_dec z + IN_BUF_SIZE < 2 ^ 32.
