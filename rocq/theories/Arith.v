(** * Arith: the arithmetic decoder of the spectral data

    Models ia_core_coder_arith_dec.c.  The bit buffer is represented by the bits that are
    left in it (rest_bits of BitBuf.v): reading one bit takes the head, cnt_bits is the
    length.  WORD32 results that do not fit are undefined behaviour, as are table indices
    outside the table; every loop without a syntactic bound has fuel, and running out of it
    is an outcome of its own. *)

From Coq Require Import ZArith List Lia Bool.
From Verif Require Import ArithRom.
Import ListNotations.
Open Scope Z_scope.

Inductive out (A : Type) : Type :=
| Got (a : A)
| Invalid          (* INVALID_BIT_COUNT *)
| Bad              (* undefined behaviour *)
| Stuck            (* fuel used up *)
| Short            (* IA_MPEGH_DEC_EXE_NONFATAL_INSUFFICIENT_INPUT_BYTES returned *)
| Jump             (* longjmp of the bit reader: no bits left *)
| Over.            (* WORD32 overflow (undefined) in the sum of two magnitudes, arith_dec.c:428 *)
Arguments Got {A} a. Arguments Invalid {A}. Arguments Bad {A}. Arguments Stuck {A}.
Arguments Short {A}. Arguments Jump {A}. Arguments Over {A}.

Definition obind {A B} (x : out A) (f : A -> out B) : out B :=
  match x with
  | Got a => f a | Invalid => Invalid | Bad => Bad | Stuck => Stuck
  | Short => Short | Jump => Jump | Over => Over
  end.
Notation "'olet' p := e1 'in' e2" := (obind e1 (fun p => e2))
  (at level 61, p pattern, e1 at next level, right associativity).

Definition w32 (z : Z) : out Z := if (- 2 ^ 31 <=? z) && (z <? 2 ^ 31) then Got z else Bad.
(** Left shift of a WORD32: undefined for negative operands and when the result does not fit. *)
Definition shl32 (z n : Z) : out Z := if 0 <=? z then w32 (z * 2 ^ n) else Bad.
(** Table access. *)
Definition tab (l : list Z) (i : Z) : out Z :=
  if i <? 0 then Bad else match nth_error l (Z.to_nat i) with Some v => Got v | None => Bad end.

(** ia_state_arith, ia_core_coder_arith_dec.h. *)
Record ast := mkAst { a_val : Z; a_low : Z; a_high : Z }.

Definition bz (b : bool) : Z := if b then 1 else 0.

(** n bits, most significant first; all of them must be there. *)
Fixpoint take_bits (n : nat) (acc : Z) (bs : list bool) : Z * list bool :=
  match n, bs with
  | S n, b :: bs => take_bits n (2 * acc + bz b) bs
  | _, _ => (acc, bs)
  end.

(** ia_core_coder_arith_first_symbol, arith_dec.c:134-153. *)
Definition first_symbol (bs : list bool) : ast * list bool :=
  if Nat.leb 16 (length bs) then
    let '(v, r) := take_bits 16 0 bs in (mkAst v 0 65535, r)
  else
    let '(v, r) := take_bits (length bs) 0 bs in
    (mkAst (v * 2 ^ (16 - Z.of_nat (length bs))) 0 65535, r).

(** ia_core_coder_arith_get_pk, 165-189.  742 entries: ten halvings; the fuel is 16. *)
Fixpoint get_pk_loop (fuel : nat) (c lo hi : Z) : out Z :=
  match fuel with
  | O => Stuck
  | S fuel =>
    if hi - lo >? 1 then
      let idx := lo + Z.shiftr (hi - lo) 1 in
      olet j := tab ari_hash_m idx in
      if c >? j then get_pk_loop fuel c idx hi
      else if c <? j then get_pk_loop fuel c lo idx
      else tab ari_hash_m_1 idx
    else tab ari_lookup_m hi
  end.
(** The argument is UWORD32. *)
Definition get_pk (c : Z) : out Z := get_pk_loop 16 (c mod 2 ^ 32) (-1) (742 - 1).

(** The search of arith_decode, 226-238; pos is p - (cum_freq - 1).  The fuel is 32, the
    table sizes used by the decoder are 2 to 27. *)
Fixpoint search (fuel : nat) (cf : list Z) (cum cfl pos : Z) : out Z :=
  match fuel with
  | O => Stuck
  | S fuel =>
    let q := pos + Z.shiftr cfl 1 in
    olet x := tab cf (q - 1) in
    let '(cfl, pos) := if x >? cum then (cfl + 1, q) else (cfl, pos) in
    let cfl := Z.shiftr cfl 1 in
    if cfl >? 1 then search fuel cf cum cfl pos else Got pos
  end.

(** The renormalisation loop, 247-283. *)
Fixpoint renorm (fuel : nat) (v lo hi : Z) (bs : list bool) (n : Z) : out (ast * list bool * Z) :=
  match fuel with
  | O => Stuck
  | S fuel =>
    let go c :=
      olet hi := w32 (hi - c) in olet lo := w32 (lo - c) in olet v := w32 (v - c) in
      olet hi := w32 (hi + (hi + 1)) in
      olet lo := w32 (lo + lo) in
      olet v := shl32 v 1 in
      match bs with
      | [] => renorm fuel v lo hi [] (n + 1)
      | b :: bs => renorm fuel (Z.lor v (bz b)) lo hi bs (n + 1)
      end in
    if hi <? 32768 then go 0
    else if lo >=? 32768 then go 32768
    else if (lo >=? 16384) && (hi <? 49152) then go 16384
    else Got (mkAst v lo hi, bs, n)
  end.

(** ia_core_coder_arith_decode, 207-290: symbol, state, remaining bits, bit count. *)
Definition arith_decode (s : ast) (bs : list bool) (n : Z) (cf : list Z) (cfl : Z) :
    out (Z * ast * list bool * Z) :=
  olet range := w32 (a_high s - a_low s + 1) in
  olet d := w32 (a_val s - a_low s + 1) in
  olet e := shl32 d 14 in
  olet e := w32 (e - 1) in
  if range =? 0 then Bad else
  let cum := Z.quot e range in
  if (match bs with [] => true | _ => false end) && (cum <=? 0) then Invalid else
  olet sym := search 32 cf cum cfl 0 in
  olet hi :=
    (if sym =? 0 then Got (a_high s) else
     olet c := tab cf (sym - 1) in olet p := w32 (range * c) in w32 (a_low s + Z.shiftr p 14 - 1)) in
  olet c := tab cf sym in olet p := w32 (range * c) in
  olet lo := w32 (a_low s + Z.shiftr p 14) in
  olet (s', bs', n') := renorm 20 (a_val s) lo hi bs n in
  Got (sym, s', bs', n').

(** A sequence of calls of ia_core_coder_arith_decode, one table each. *)
Fixpoint decode_all (s : ast) (bs : list bool) (n : Z) (cfs : list (list Z)) : out (list Z * ast * list bool * Z) :=
  match cfs with
  | [] => Got ([], s, bs, n)
  | cf :: cfs =>
    olet (m, s, bs, n) := arith_decode s bs n cf (Z.of_nat (length cf)) in
    olet (ms, s, bs, n) := decode_all s bs n cfs in
    Got (m :: ms, s, bs, n)
  end.

(** ** ia_core_coder_arth_decoding_level2, 338-487

    c_prev and c_pres are the WORD8 arrays c_prev[chn] and c[chn] of 516 entries
    (ia_core_coder_main.h:160-161); the function gets them from index 2 on (1001, 1071).  The
    bits are decoded from a copy of the bit buffer (it_bit_buff_temp). *)
Definition put (l : list Z) (i v : Z) : out (list Z) :=
  if (i <? 0) || (Z.of_nat (length l) <=? i) then Bad
  else Got (firstn (Z.to_nat i) l ++ v :: skipn (S (Z.to_nat i)) l).

Definition MAX_32 : Z := 2147483647.

(** Lines 355-359. *)
Fixpoint shift_context (k : nat) (i : Z) (prev pres : list Z) : out (list Z * list Z) :=
  match k with
  | O => Got (prev, pres)
  | S k =>
    olet c := tab pres (2 + i) in
    olet prev := put prev (2 + i) c in
    olet pres := put pres (2 + i) 1 in
    shift_context k (i + 1) prev pres
  end.

(** ia_core_coder_arith_get_context, 303-322: c_val and the result. *)
Definition get_context (prev pres : list Z) (c i : Z) : out (Z * Z) :=
  olet p := tab prev (2 + i + 1) in
  olet t := shl32 p 12 in
  olet x := tab pres (2 + i - 1) in
  let c := Z.land (Z.shiftr c 4 + t) 65520 + x in
  if i >? 3 then
    olet y := tab pres (2 + i - 2) in
    olet z := tab pres (2 + i - 3) in
    if x + y + z <? 5 then Got (c, c + 65536) else Got (c, c)
  else Got (c, c).

(** The escape loop, 368-391: symbol, number of escapes, decoder state. *)
Fixpoint escapes (fuel : nat) (s1 lev : Z) (s : ast) (bs : list bool) (n : Z) :
    out (Z * Z * ast * list bool * Z) :=
  match fuel with
  | O => Stuck
  | S fuel =>
    olet o := tab esc_nb_offset (Z.min lev 7) in
    olet pki := get_pk (s1 + o) in
    match nth_error ari_cf_m (Z.to_nat pki) with
    | None => Bad
    | Some cf =>
      olet (m, s, bs, n) := arith_decode s bs n cf 17 in
      if m <? 16 then Got (m, lev, s, bs, n)
      else olet lev := w32 (lev + 1) in escapes fuel s1 lev s bs n
    end
  end.

(** The low bits, 398-423. *)
Definition lsb_index (a b : Z) : Z := if a =? 0 then 1 else if b =? 0 then 0 else 2.
Definition grow (a bit : Z) : out Z :=
  if a >? Z.shiftr MAX_32 1 then Got MAX_32 else olet a := shl32 a 1 in Got (Z.lor a bit).
Fixpoint low_bits (k : nat) (a b : Z) (s : ast) (bs : list bool) (n : Z) :
    out (Z * Z * ast * list bool * Z) :=
  match k with
  | O => Got (a, b, s, bs, n)
  | S k =>
    match nth_error ari_cf_r (Z.to_nat (lsb_index a b)) with
    | None => Bad
    | Some cf =>
      olet (m, s, bs, n) := arith_decode s bs n cf 4 in
      olet a := grow a (Z.land m 1) in
      olet b := grow b (Z.land (Z.shiftr m 1) 1) in
      low_bits k a b s bs n
    end
  end.

(** The context of a pair, 427-438; (WORD8)temp with temp <= 15 keeps it. *)
Definition pair_context (a b : Z) : out Z :=
  if (a >? Z.shiftr MAX_32 1) && (b >? Z.shiftr MAX_32 1) then Got 15
  else if a + b + 1 >? MAX_32 then Over
  else Got (Z.min (a + b + 1) 15).

(** The loop over the pairs, 364-450. *)
Fixpoint pairs (fuel k : nat) (i : Z) (prev pres : list Z) (c : Z) (q : list Z) (s : ast)
    (bs : list bool) (n : Z) : out (list Z * list Z * Z) :=
  match k with
  | O => Got (q, pres, n)
  | S k =>
    olet (c, s1) := get_context prev pres c i in
    olet (m, lev, s, bs, n) := escapes fuel s1 0 s bs n in
    if m =? 0 then
      if lev >? 0 then Got (q, pres, n) else
      olet q := put q (2 * i) 0 in
      olet q := put q (2 * i + 1) 0 in
      olet pres := put pres (2 + i) 1 in
      pairs fuel k (i + 1) prev pres c q s bs n
    else
      olet (a, b, s, bs, n) := low_bits (Z.to_nat lev) (Z.land m 3) (Z.shiftr m 2) s bs n in
      olet q := put q (2 * i) a in
      olet q := put q (2 * i + 1) b in
      olet t := pair_context a b in
      olet pres := put pres (2 + i) t in
      pairs fuel k (i + 1) prev pres c q s bs n
  end.

(** One sign, 466-474: ia_core_coder_mul32_sh_sat (2 m, t, 0) and ia_core_coder_shl32_sat
    (basic_ops32.h:38-52, 104-114) on one bit m. *)
Definition sign1 (t : Z) (bs : list bool) : out (Z * list bool) :=
  if t =? 0 then Got (0, bs) else
  match bs with
  | [] => Jump
  | b :: bs =>
    if t =? MAX_32 then Got (0, bs)
    else olet r := w32 (Z.min (2 * bz b * t) MAX_32 - t) in Got (r, bs)
  end.
(** Lines 461-485: every value in turn. *)
Fixpoint signs (q : list Z) (bs : list bool) : out (list Z * list bool) :=
  match q with
  | [] => Got ([], bs)
  | t :: q =>
    olet (t, bs) := sign1 t bs in
    olet (q, bs) := signs q bs in
    Got (t :: q, bs)
  end.

(** Escapes of one pair are bounded by this number (C34). *)
Definition enough (bs : list bool) : nat := 64 * (length bs + 19).

(** The function: n pairs coded, pres_n pairs in the array quant (cleared by the caller, 985
    and 1068).  Result: the signed values, the contexts, the bits left. *)
Definition level2 (bs : list bool) (prev pres : list Z) (n pres_n : nat) :
    out (list Z * list Z * list Z * list bool) :=
  olet (prev, pres) := shift_context pres_n 0 prev pres in
  let '(s, r) := first_symbol bs in
  olet c0 := tab prev 2 in
  olet c := shl32 c0 12 in
  olet (q, pres, cnt) := pairs (enough bs) n 0 prev pres c (repeat 0 (2 * pres_n)) s r 16 in
  let cnt := cnt - (16 - 2) in
  if cnt >? Z.of_nat (length bs) then Short else
  let bs := if cnt >? 0 then skipn (Z.to_nat cnt) bs else bs in
  olet (q, bs) := signs q bs in
  Got (q, prev, pres, bs).
