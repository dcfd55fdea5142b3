(** * Spec_HoaFrm: what the side information of an HOA frame says (specification)

    A frame gives every additional transport channel a role: a directional signal of a
    numbered direction, a signal with a vector (coded with a codebook, with 8 bits, or with
    Huffman words), an additional coefficient of the ambience (staying, fading in or fading out)
    or none.  Every transport channel carries a gain exponent. *)

From Coq Require Import ZArith List Bool.
From Verif Require Import Bits Hoa HoaFrm.
Import ListNotations.
Open Scope Z_scope.

Inductive vmode := MBook (book n : Z) | M8 | MHuff (nq : Z) (pred table : bool).
(** A vector signal may keep the coding of the frame before ([None]). *)
Inductive role := RDir (d : Z) | RVec (new : bool) (m : option vmode) | RAmb (st idx : Z) | RNone.
Record chan := mkChan { c_role : role; c_amp : Z; c_gain : Z; c_exc : bool }.

(** ** The bits *)
Definition wbits (w v : Z) : list bool := bits_of (Z.to_nat w) v.

Definition mode_bits (h : hoac) (ind : bool) (m : vmode) : list bool :=
  match m with
  | MBook b n => wbits 4 4 ++ wbits 3 b ++ wbits (h_nvv h) (n - 1)
  | M8 => wbits 4 5
  | MHuff nq p t => wbits 4 nq ++ (if ind then [t] else [p; t])
  end.
Definition role_bits (h : hoac) (ind : bool) (r : role) : list bool :=
  match r with
  | RDir d => wbits 2 0 ++ wbits 10 d
  | RVec new m =>
    wbits 2 1 ++ (if ind && (h_cvv h =? 1) then [new] else []) ++
    match m with Some m => mode_bits h ind m | None => [false; false] end
  | RAmb st idx =>
    wbits 2 2 ++
    (if ind then wbits 2 st ++ wbits (h_aab h) (idx - 1 - h_minco h)
     else if st =? 0 then [false] else if st =? 2 then [true]
     else true :: wbits (h_aab h) (idx - 1 - h_minco h))
  | RNone => wbits 2 3
  end.
(** The exponent of the previous frame is sent from its least value on. *)
Definition amp_off (h : hoac) : Z := Z.log2_up (3 * h_coef h / 2).
Definition gain_bits (h : hoac) (ind : bool) (c : chan) : list bool :=
  (if ind then wbits (h_gcb h) (c_amp c + amp_off h) else []) ++
  repeat false (Z.to_nat (c_gain c - 1)) ++ [true; c_exc c].
Definition frame_bits (h : hoac) (ind : bool) (cs rs : list chan) : list bool :=
  ind :: concat (map (fun c => role_bits h ind (c_role c) ++ gain_bits h ind c) cs) ++
  concat (map (gain_bits h ind) rs).

(** ** What a sender may send *)
Definition amp_ok (h : hoac) (ind : bool) (c : chan) : Prop :=
  ind = true -> 0 <= c_amp c + amp_off h < 2 ^ h_gcb h.
Definition mode_ok (h : hoac) (ind : bool) (m : vmode) : Prop :=
  match m with
  | MBook b n => 0 <= b < 8 /\ 1 <= n <= 2 ^ h_nvv h
  | M8 => True
  | MHuff nq p _ => 6 <= nq <= 15 /\ (ind = true -> p = false)
  end.
(** [o] is what the decoder knows of the channel: a coefficient that does not begin to fade in
    keeps its number, and in a dependent frame states follow in order. *)
Definition role_legal (h : hoac) (ind : bool) (o : hch) (r : role) : Prop :=
  match r with
  | RDir d => 0 <= d <= 900
  | RVec _ m => match m with Some m => mode_ok h ind m | None => ind = false end
  | RAmb st idx =>
    if ind then (st = 0 \/ st = 1 \/ st = 2) /\ h_minco h < idx <= h_minco h + h_maxadd h
    else (st = 0 /\ idx = k_aidx o) \/ (st = 2 /\ k_trans o <= 1 /\ idx = k_aidx o) \/
         (st = 1 /\ 2 <= k_trans o /\ h_minco h < idx <= h_minco h + h_maxadd h)
  | RNone => True
  end.
(** The largest coefficient, number 49 of order 6, is not used with shortened vectors. *)
Definition low48 (h : hoac) (r : role) : Prop :=
  match r with RAmb _ idx => h_cvv h = 1 -> 0 <= idx <= 48 | _ => True end.
Definition conf_ok (h : hoac) : Prop :=
  0 <= h_addl h <= h_ntc h /\ h_ntc h <= 49 /\ 0 <= h_aab h <= 24 /\ h_maxadd h <= 2 ^ h_aab h /\
  0 <= h_nvv h <= 24 /\ 0 <= h_gcb h <= 24 /\ 0 <= h_coef h <= 49.
Definition state_ok (s : hfs) : Prop :=
  length (f_ch s) = 49%nat /\ length (f_pt s) = 49%nat /\ length (f_pq s) = 49%nat.
Definition frame_ok (h : hoac) (ind : bool) (s : hfs) (cs rs : list chan) : Prop :=
  length cs = Z.to_nat (h_addl h) /\ length rs = Z.to_nat (h_ntc h - h_addl h) /\
  (forall i c o, nth_error cs i = Some c -> nth_error (f_ch s) i = Some o ->
     role_legal h ind o (c_role c) /\ amp_ok h ind c /\ 1 <= c_gain c <= 65) /\
  (forall c, In c rs -> amp_ok h ind c /\ 1 <= c_gain c).

(** ** What the decoder then has to hold *)
Definition mode_of (q : qmode) : option vmode :=
  if q_nq q =? 4 then Some (MBook (q_cb q) (q_nvi q))
  else if q_nq q =? 5 then Some M8
  else if 6 <=? q_nq q then Some (MHuff (q_nq q) (q_p q =? 1) (q_cbf q =? 1)) else None.

Definition role_held (pq : qmode) (r : role) (k : hch) : Prop :=
  match r with
  | RDir d => k_type k = 0 /\ k_dir k = d
  | RVec _ m => k_type k = 1 /\ match m with Some m => mode_of (k_q k) = Some m | None => k_q k = pq end
  | RAmb st idx => k_type k = 2 /\ k_trans k = st /\ k_aidx k = idx
  | RNone => k_type k = 3
  end.
(** What is not about the channel's role in this frame stays as it was. *)
Definition role_kept (r : role) (o k : hch) : Prop :=
  (match r with RDir _ => True | _ => k_dir k = k_dir o end) /\
  (match r with RVec _ _ => True | _ => k_q k = k_q o end) /\
  (match r with RAmb _ _ => True | _ => k_trans k = k_trans o /\ k_aidx k = k_aidx o end).

(** The numbers, from 1, of the channels with a property. *)
Fixpoint numbers (f : role -> bool) (i : Z) (cs : list chan) : list Z :=
  match cs with [] => [] | c :: cs => (if f (c_role c) then [i] else []) ++ numbers f (i + 1) cs end.
Definition is_vec (r : role) := match r with RVec _ _ => true | _ => false end.
Definition is_dir (r : role) := match r with RDir _ => true | _ => false end.

Definition frame_held (h : hoac) (ind : bool) (s : hfs) (cs rs : list chan) (s' : hfs) : Prop :=
  (forall i c, nth_error cs i = Some c -> exists o pq k,
     nth_error (f_ch s) i = Some o /\ nth_error (f_pq s) i = Some pq /\ nth_error (f_ch s') i = Some k /\
     role_held pq (c_role c) k /\ role_kept (c_role c) o k /\
     k_amp k = (if ind then c_amp c else 0) /\ k_gain k = c_gain c /\ k_exc k = Z.b2z (c_exc c)) /\
  (forall i c, nth_error rs i = Some c -> exists o k,
     nth_error (f_ch s) (length cs + i) = Some o /\ nth_error (f_ch s') (length cs + i) = Some k /\
     k_amp k = (if ind then c_amp c else k_amp o) /\ k_gain k = c_gain c /\ k_exc k = Z.b2z (c_exc c)) /\
  f_vec s' = numbers is_vec 1 cs /\ f_dir s' = numbers is_dir 1 cs /\
  (forall i, nth i (f_new s') 0 = 1 <-> exists new m pt,
     option_map c_role (nth_error cs i) = Some (RVec new m) /\ nth_error (f_pt s) i = Some pt /\
     h_cvv h = 1 /\ if ind then new = true else pt <> 1) /\
  (forall x, nth x (f_fade s') 0 = 1 <-> h_cvv h = 1 /\ In (RAmb 1 (Z.of_nat x)) (map c_role cs)) /\
  (forall x, nth x (f_nontr s') 0 = 1 <-> h_cvv h = 1 /\ In (RAmb 0 (Z.of_nat x)) (map c_role cs)).
