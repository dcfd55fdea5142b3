(** * Spec_HoaVec: what is sent for the vectors of an HOA frame (specification) *)

From Coq Require Import ZArith List Bool.
From Verif Require Import Bits Hoa HoaFrm HoaVec Spec_HoaFrm.
Import ListNotations.
Open Scope Z_scope.

(** The elements of the vector of channel [ch] that are not sent: those of coefficients that
    the ambience carries, and of those fading in if the vector is new. *)
Definition unsent (s : hfs) (ch : nat) (c : nat) : bool :=
  negb (nth c (f_nontr s) 0 =? 0) || ((nth ch (f_new s) 0 =? 1) && (nth c (f_fade s) 0 =? 1)).

(** A vector of 8-bit words: 128 stands for zero and for elements not sent. *)
Definition word_bits (h : hoac) (s : hfs) (ch : nat) (ws : list Z) : list bool :=
  concat (map (fun j => if unsent s ch (Z.to_nat (h_off h) + j) then [] else wbits 8 (nth j ws 0)) (seq 0 (Z.to_nat (h_vvl h)))).
Definition words_ok (h : hoac) (s : hfs) (ch : nat) (ws : list Z) : Prop :=
  length ws = Z.to_nat (h_vvl h) /\
  forall j, (j < length ws)%nat -> 0 <= nth j ws 0 < 256 /\
    (unsent s ch (Z.to_nat (h_off h) + j) = true -> nth j ws 0 = 128).

(** Codebooks: number of bits of an index and largest index, counted from 1. *)
Definition book_width (h : hoac) (book : Z) : Z :=
  match book with 0 => 10 | 1 | 2 | 3 => 6 | _ => Z.log2_up (h_coef h) end.
Definition book_max (h : hoac) (book : Z) : option Z :=
  match book with
  | 0 => Some 900 | 1 => Some 34 | 2 => Some 34 | 3 => Some 64
  | 7 => Some (if h_order h =? 4 then 32 else (h_order h + 1) ^ 2)
  | _ => None
  end.
Definition within (m : option Z) (i : Z) : Prop := match m with Some m => i <= m | None => True end.
(** A vector as weighted entries of a codebook, each with its sign; one entry has no weight. *)
Definition book_vec_bits (h : hoac) (book w : Z) (l : list (Z * Z)) : list bool :=
  (if Z.of_nat (length l) =? 1 then [] else wbits 8 w) ++
  concat (map (fun '(i, g) => wbits (book_width h book) (i - 1) ++ wbits 1 g) l).
Definition book_vec_ok (h : hoac) (book w : Z) (l : list (Z * Z)) : Prop :=
  0 <= book <= 7 /\ 0 <= w < 256 /\
  forall i g, In (i, g) l -> 1 <= i <= 2 ^ book_width h book /\ within (book_max h book) i /\ 0 <= g <= 1.

Definition rows {A} (n m : nat) (l : list (list A)) : Prop := length l = n /\ forall r, In r l -> length r = m.
Definition vstate_ok (v : hvs) : Prop :=
  length (v_idx v) = 128%nat /\ rows 16 128 (v_sgn v) /\ length (v_w v) = 49%nat /\ rows 16 49 (v_word v) /\ rows 16 49 (v_add v).
Definition marks_ok (s : hfs) : Prop :=
  length (f_new s) = 49%nat /\ length (f_fade s) = 49%nat /\ length (f_nontr s) = 50%nat.
