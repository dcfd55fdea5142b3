(** * Spec_Arith: frequency tables and the matching arithmetic encoder

    Written without the decoder's definitions. *)

From Coq Require Import ZArith List Lia Bool.
From Verif Require Import Bits.
Import ListNotations.
Open Scope Z_scope.

Definition entry (cf : list Z) (i : Z) : Z := nth (Z.to_nat i) cf 0.

(** Cumulative frequencies out of 16384, strictly decreasing, ending in 0: symbol s has the
    share from entry s to entry s - 1 (16384 for symbol 0). *)
Definition freq_table (cf : list Z) : Prop :=
  (2 <= length cf <= 32)%nat /\ entry cf 0 < 16384 /\ entry cf (Z.of_nat (length cf) - 1) = 0 /\
  (forall i j, 0 <= i -> i < j -> j < Z.of_nat (length cf) -> entry cf j < entry cf i).

Definition is_symbol (cf : list Z) (s : Z) : Prop := 0 <= s < Z.of_nat (length cf).

(** The interval of the encoder: base + lo .. base + hi, in units of 2^-(16 + cnt). *)
Record enc := mkEnc { e_base : Z; e_lo : Z; e_hi : Z; e_cnt : nat }.

Definition enc0 : enc := mkEnc 0 0 65535 0.

(** Narrow the interval to the share of a symbol. *)
Definition narrow (e : enc) (cf : list Z) (s : Z) : enc :=
  let r := e_hi e - e_lo e + 1 in
  mkEnc (e_base e) (e_lo e + r * entry cf s / 16384)
    (if s =? 0 then e_hi e else e_lo e + r * entry cf (s - 1) / 16384 - 1) (e_cnt e).

(** Move c into the base and double the resolution. *)
Definition double (e : enc) (c : Z) : enc :=
  mkEnc (2 * (e_base e + c)) (2 * (e_lo e - c)) (2 * (e_hi e - c) + 1) (S (e_cnt e)).
Definition scale (e : enc) : enc :=
  if e_hi e <? 32768 then double e 0
  else if 32768 <=? e_lo e then double e 32768
  else if (16384 <=? e_lo e) && (e_hi e <? 49152) then double e 16384
  else e.

Definition enc_step (e : enc) (x : list Z * Z) : enc := Nat.iter 17 scale (narrow e (fst x) (snd x)).
Definition enc_all (l : list (list Z * Z)) (e : enc) : enc := fold_left enc_step l e.

(** The final code word: two bits more than the number of doublings, chosen so that the
    interval holds every continuation. *)
Definition code_word (e : enc) : list bool :=
  bits_of (e_cnt e + 2) (e_base e / 16384 + (if e_lo e <? 16384 then 1 else 2)).
Definition encode (l : list (list Z * Z)) : list bool := code_word (enc_all l enc0).

(** An array of pair sizes (contexts): 516 entries from 0 to 15. *)
Definition ctx (l : list Z) : Prop := length l = 516%nat /\ Forall (fun v => 0 <= v <= 15) l.
