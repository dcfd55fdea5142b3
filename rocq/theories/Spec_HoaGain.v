(** * Spec_HoaGain: the gains of an HOA rendering matrix (specification)

    One gain and one sign for every coefficient and loudspeaker.  [E i j] is what the encoder
    sends for coefficient [i] and loudspeaker [j]: nothing (a zero gain), or the number of a step
    below the upper limit of the order and a sign (true: positive); the step after the last is zero. *)

From Coq Require Import ZArith List Bool.
From Verif Require Import Bits Cicp Hoa Spec_Config Spec_HoaSym.
Import ListNotations.
Open Scope Z_scope.

Definition choice := nat -> nat -> option (Z * bool).
(** Order and degree of coefficient [i]. *)
Definition ord (i : nat) : Z := Z.sqrt (Z.of_nat i).
Definition deg (i : nat) : Z := Z.of_nat i - ord i * ord i - ord i.
Definition upright (i : nat) : bool := negb (Z.abs (deg i) =? ord i).
(** The sign by which a coefficient changes from left to right. *)
Definition flip (i : nat) : Z := if 0 <=? deg i then 1 else -1.
Definition partner (spks : list spk) (j : nat) : nat :=
  match find (fun q => mirrored (nth j spks spk0) (nth q spks spk0)) (seq (S j) (length spks - S j)) with Some q => q | None => 0 end.

Section matrix.
Variables (spks : list spk) (h : mhead) (E : choice).
Definition dropped (i : nat) : bool := upright i && negb (hd_vert h).
Definition sym_at (j : nat) : sym := sym_of spks (hd_lfer h) (hd_syms h) j.
Definition sent (i j : nat) : bool :=
  negb (dropped i) && negb (is_value (sym_at j)) && ((s_lfe (nth j spks spk0) =? 0) || hd_lfer h).
Definition top (i : nat) : Z := fst (lim_of (hd_lim h) (Z.to_nat (ord i))).
Definition steps (i : nat) : Z := (top i - snd (lim_of (hd_lim h) (Z.to_nat (ord i)))) * 2 ^ hd_prec h.
Definition flagged (i : nat) : bool := match hd_dense h with None => false | Some o => negb (Z.of_nat i <? o * o) end.
Definition gain_of (i : nat) (x : Z) : hgain := if x <=? steps i then GdB (top i * 2 ^ hd_prec h - x) (hd_prec h) else GZ.
Definition signed (i : nat) (x : Z) : bool := (x <=? steps i) && (negb (ord i =? 0) || negb (hd_zop h)).

Definition cell_ok (i j : nat) : Prop :=
  sent i j = true -> match E i j with None => flagged i = true | Some (x, _) => 0 <= x <= steps i + 1 end.
Definition cell_bits (i j : nat) : list bool :=
  if sent i j then
    match E i j with
    | None => [false]
    | Some (x, s) => (if flagged i then [true] else []) ++ enc_trunc (steps i + 2) x ++
        (if is_sign (sym_at j) then [] else if signed i x then [s] else [])
    end
  else [].
(** The rows by increasing coefficient, in every row the loudspeakers from the last to the first. *)
Definition gains_bits (k : Z) : list bool :=
  concat (map (fun i => concat (map (cell_bits i) (rev (seq 0 (length spks))))) (seq 0 (Z.to_nat (k * k)))).

(** The gain and the sign the decoder has to use. *)
Definition plain (i j : nat) : hgain * Z :=
  if sent i j then match E i j with None => (GZ, 1) | Some (x, s) => (gain_of i x, if signed i x && negb s then -1 else 1) end
  else (GZ, 1).
Definition want (i j : nat) : hgain * Z :=
  if dropped i then (GZ, 1) else
  let p := plain i (partner spks j) in
  match sym_at j with
  | SValue => (fst p, flip i * snd p)
  | SSign => match E i j with None => (GZ, 1) | Some (x, _) => (gain_of i x, flip i * snd p) end
  | SNone => plain i j
  end.
End matrix.

(** What the decoder holds: the matrix is stored by rows. *)
Definition gains_held (k : Z) (spks : list spk) (h : mhead) (E : choice) (m : hmat) : Prop :=
  forall i j, (i < Z.to_nat (k * k))%nat -> (j < length spks)%nat ->
    nth_error (m_mat m) (i * length spks + j) = Some (fst (want spks h E i j)) /\ nth_error (m_sgn m) (i * length spks + j) = Some (snd (want spks h E i j)).
