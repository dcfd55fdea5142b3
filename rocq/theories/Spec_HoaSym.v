(** * Spec_HoaSym: the symmetry of the loudspeaker pairs of an HOA rendering matrix (specification)

    Every pair is symmetric in its values, in its signs only, or not at all. *)

From Coq Require Import ZArith List Bool.
From Verif Require Import Bits BitWrite Cicp Escape Hoa.
Import ListNotations.
Open Scope Z_scope.

Inductive sym := SValue | SSign | SNone.
Definition is_value k := match k with SValue => true | _ => false end.
Definition is_sign k := match k with SSign => true | _ => false end.

(** The ways to send the list; the two general ones send one flag for each pair. *)
Inductive how := AllValue | AllSign | Signs | Nothing | ValuesAndSigns | Values.
Definition fits (f : how) (K : list sym) : Prop :=
  match f with
  | AllValue => Forall (fun k => k = SValue) K
  | AllSign => Forall (fun k => k = SSign) K
  | Signs => Forall (fun k => k <> SValue) K
  | Nothing => Forall (fun k => k = SNone) K
  | ValuesAndSigns => True
  | Values => Forall (fun k => k <> SSign) K
  end.
Definition sym_bits (f : how) (K : list sym) : list bool :=
  match f with
  | AllValue => [true]
  | AllSign => [false; false; true]
  | Signs => [false; false; false; true] ++ map is_sign K
  | Nothing => [false; false; false; false]
  | ValuesAndSigns => [false; true] ++ map is_value K ++ true :: concat (map (fun k => if is_value k then [] else [is_sign k]) K)
  | Values => [false; true] ++ map is_value K ++ [false]
  end.

(** Loudspeaker [i] stands for a pair: it is not in the middle, and a later one of the same kind is
    at the mirrored place; an LFE counts only when the LFE is rendered ([lfer]). *)
Definition mirrored (a b : spk) : bool := (s_az a =? - s_az b) && (s_el a =? s_el b) && (s_lfe a =? s_lfe b).
Definition leads (spks : list spk) (lfer : bool) (i : nat) : bool :=
  let a := nth i spks spk0 in
  negb (s_az a =? 0) && negb (Z.abs (s_az a) =? 180) && ((s_lfe a =? 0) || lfer) && existsb (mirrored a) (skipn (S i) spks).
(** The pairs are numbered by increasing loudspeaker. *)
Definition pair_no (spks : list spk) (lfer : bool) (i : nat) : nat := length (filter (leads spks lfer) (seq 0 i)).
Definition pair_count (spks : list spk) (lfer : bool) : nat := pair_no spks lfer (length spks).
(** What holds for loudspeaker [i]. *)
Definition sym_of (spks : list spk) (lfer : bool) (K : list sym) (i : nat) : sym :=
  if leads spks lfer i then nth (pair_no spks lfer i) K SNone else SNone.

(** What is sent in front of the gains of a matrix.  The gains of every order lie between two limits. *)
Inductive limits := One (mx mn : Z) | PerOrder (l : list (Z * Z)).
Definition lim_of (L : limits) (o : nat) : Z * Z := match L with One mx mn => (mx, mn) | PerOrder l => nth o l (0, 0) end.
Definition lim_legal (x : Z * Z) : Prop := 0 <= - fst x <= 101 /\ 1 <= fst x - snd x <= 110.
Definition lim_bits (x : Z * Z) : list bool := esc_enc 3 5 6 (- fst x) ++ esc_enc 4 5 6 (fst x - snd x - 1).

(** [hd_dense]: from which order on zero gains are marked by a flag; None: not at all. *)
Record mhead := mkHead { hd_prec : Z; hd_norm : bool; hd_lim : limits; hd_dense : option Z; hd_lfer : bool; hd_zop : bool;
  hd_how : how; hd_syms : list sym; hd_vert : bool }.
Definition has_lfe (spks : list spk) : bool := existsb (fun s => negb (s_lfe s =? 0)) spks.
Definition head_legal (k : Z) (spks : list spk) (h : mhead) : Prop :=
  0 <= hd_prec h <= 3 /\
  match hd_lim h with One mx mn => lim_legal (mx, mn) | PerOrder l => length l = Z.to_nat k /\ Forall lim_legal l end /\
  match hd_dense h with None => True | Some o => 0 <= o < k end /\
  (hd_lfer h = true -> has_lfe spks = true) /\
  length (hd_syms h) = pair_count spks (hd_lfer h) /\ fits (hd_how h) (hd_syms h).
Definition head_bits (k : Z) (spks : list spk) (h : mhead) : list bool :=
  bits_of 2 (hd_prec h) ++ [hd_norm h] ++
  match hd_lim h with One mx mn => false :: lim_bits (mx, mn) | PerOrder l => true :: concat (map lim_bits l) end ++
  match hd_dense h with None => [true] | Some o => false :: bits_of (Z.to_nat (Z.log2_up k)) o end ++
  (if has_lfe spks then [hd_lfer h] else []) ++
  [hd_zop h] ++ sym_bits (hd_how h) (hd_syms h) ++ [hd_vert h].

(** What the decoder holds for a matrix with this header. *)
Definition head_held (k : Z) (spks : list spk) (h : mhead) (m : hmat) : Prop :=
  m_prec m = hd_prec h /\ m_norm m = Z.b2z (hd_norm h) /\ m_lfer m = Z.b2z (hd_lfer h) /\ m_zop m = Z.b2z (hd_zop h) /\ m_vert m = Z.b2z (hd_vert h) /\
  (forall o, (o < Z.to_nat k)%nat -> (nth o (m_max m) 0, nth o (m_min m) 0) = lim_of (hd_lim h) o) /\
  (forall i, 0 <= i < k * k -> nth (Z.to_nat i) (m_sparse m) 0 = match hd_dense h with None => 0 | Some o => if i <? o * o then 0 else 1 end) /\
  (forall i, (i < length spks)%nat -> nth i (m_isv m) 0 = Z.b2z (is_value (sym_of spks (hd_lfer h) (hd_syms h) i)) /\
     nth i (m_iss m) 0 = Z.b2z (is_sign (sym_of spks (hd_lfer h) (hd_syms h) i))).
