(** * Spec_Lines: how a quantised spectrum is written with the arithmetic coder

    ISO/IEC 23003-3, 7.4: pairs of magnitudes with a context made of the neighbouring pairs,
    escape symbols, low bits, then one sign bit per line that is not 0.  Only the tables of
    the decoder (ArithRom.v) are used, not its functions. *)

From Coq Require Import ZArith List Lia Bool.
From Verif Require Import Bits ArithRom Spec_Arith.
Import ListNotations.
Open Scope Z_scope.

(** Context arrays hold the sizes of the pairs, pair i at index i + 2. *)
Definition context (prev cur : list Z) (i : Z) : Z :=
  4096 * entry prev (i + 3) + 256 * entry prev (i + 2) + 16 * (if i =? 0 then 0 else entry prev (i + 1))
  + entry cur (i + 1)
  + (if (3 <? i) && (entry cur (i + 1) + entry cur i + entry cur (i - 1) <? 5) then 65536 else 0).

(** Probability model of a context: the sorted list of special contexts, or the gap. *)
Definition model_no (c : Z) : Z :=
  let l := firstn 741 ari_hash_m in
  let k := Z.of_nat (length (filter (fun e => e <? c) l)) in
  if (k <? 741) && (entry l k =? c) then entry ari_hash_m_1 k else entry ari_lookup_m k.
Definition model (c : Z) (escs : Z) : list Z :=
  nth (Z.to_nat (model_no (c + entry esc_nb_offset (Z.min escs 7)))) ari_cf_m [].
Definition low_model (a b : Z) : list Z :=
  nth (if a =? 0 then 1%nat else if b =? 0 then 0%nat else 2%nat) ari_cf_r [].

(** Number of low bits: the two top bits of the larger magnitude stay. *)
Definition lows_of (a b : Z) : nat := Z.to_nat (Z.log2 (Z.max a b) - 1).

Fixpoint esc_syms (c : Z) (j : Z) (k : nat) : list (list Z * Z) :=
  match k with O => [] | S k => (model c j, 16) :: esc_syms c (j + 1) k end.
Fixpoint low_syms (j : nat) (a b : Z) : list (list Z * Z) :=
  match j with
  | O => []
  | S j => (low_model (a / 2 ^ Z.of_nat (S j)) (b / 2 ^ Z.of_nat (S j)),
            (a / 2 ^ Z.of_nat j) mod 2 + 2 * ((b / 2 ^ Z.of_nat j) mod 2)) :: low_syms j a b
  end.
Definition pair_syms (c a b : Z) : list (list Z * Z) :=
  let k := lows_of a b in
  esc_syms c 0 k ++ (model c (Z.of_nat k), a / 2 ^ Z.of_nat k + 4 * (b / 2 ^ Z.of_nat k)) :: low_syms k a b.

Definition size_of (a b : Z) : Z := Z.min (a + b + 1) 15.
Definition set_at (l : list Z) (i v : Z) : list Z :=
  firstn (Z.to_nat i) l ++ v :: skipn (S (Z.to_nat i)) l.

(** Symbols and contexts of the pairs l, from pair i on, of n pairs in all; a shorter list is
    ended by an escape and symbol 0. *)
Fixpoint line_syms (prev cur : list Z) (i : Z) (l : list (Z * Z)) (n : nat) {struct n} : list (list Z * Z) :=
  match n with
  | O => []
  | S n =>
    match l with
    | [] => [(model (context prev cur i) 0, 16); (model (context prev cur i) 1, 0)]
    | (a, b) :: l =>
      pair_syms (context prev cur i) a b ++ line_syms prev (set_at cur (i + 2) (size_of a b)) (i + 1) l n
    end
  end.
Fixpoint line_ctx (cur : list Z) (i : Z) (l : list (Z * Z)) : list Z :=
  match l with [] => cur | (a, b) :: l => line_ctx (set_at cur (i + 2) (size_of a b)) (i + 1) l end.

(** Before a window of m pairs the sizes of the present window become the previous ones. *)
Definition aged (m : nat) (prev pres : list Z) : list Z :=
  firstn 2 prev ++ firstn m (skipn 2 pres) ++ skipn (2 + m) prev.
Definition blank (m : nat) (pres : list Z) : list Z :=
  firstn 2 pres ++ repeat 1 m ++ skipn (2 + m) pres.

Definition mags (l : list (Z * Z)) : list (Z * Z) := map (fun p => (Z.abs (fst p), Z.abs (snd p))) l.
Definition flat (l : list (Z * Z)) : list Z := flat_map (fun p => [fst p; snd p]) l.
Definition sign_bits (l : list Z) : list bool :=
  flat_map (fun x => if x =? 0 then [] else [0 <? x]) l.

(** The bits of the signed pairs l. *)
Definition line_bits (prev pres : list Z) (l : list (Z * Z)) (n m : nat) : list bool :=
  encode (line_syms (aged m prev pres) (blank m pres) 0 (mags l) n) ++ sign_bits (flat l).

(** Lines whose magnitude has at most 30 bits. *)
Definition small (p : Z * Z) : Prop := Z.abs (fst p) < 2 ^ 30 /\ Z.abs (snd p) < 2 ^ 30.
