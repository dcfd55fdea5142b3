(** * Igf: the levels of the gap filling

    Models the reading of the levels in /repo/decoder/ia_core_coder_igf_dec.c: quant_ctx
    (112-126), igf_arith_decode_bits (142-157), igf_arith_decode_residual (173-214),
    igf_arith_decode (234-310), igf_reset_data (668-691) and get_igf_levels (1900-2031).
    The arithmetic decoder is that of Arith.v; it runs on a copy of the bit buffer. *)

From Coq Require Import ZArith List Bool.
From Verif Require Import BitBuf Arith IgfRom.
Import ListNotations.
Open Scope Z_scope.

(** ia_core_coder_arith_decode as it is called here: the error return INVALID_BIT_COUNT (-1)
    is taken for a bit count, the symbol keeps the value [m0] its variable had. *)
Definition get1 (m0 : Z) (s : ast) (bs : list bool) (n : Z) (cf : list Z) (cfl : Z) :
    out (Z * ast * list bool * Z) :=
  match arith_decode s bs n cf cfl with
  | Invalid => Got (m0, s, bs, -1)
  | r => r
  end.

(** igf_arith_decode_bits, 142-157. *)
Fixpoint bits_loop (k : nat) (bit acc : Z) (s : ast) (bs : list bool) (n : Z) :
    out (Z * ast * list bool * Z) :=
  match k with
  | O => Got (acc, s, bs, n)
  | S k =>
    olet (bit, s, bs, n) := get1 bit s bs n cf_for_bit 2 in
    bits_loop k bit (acc + bit * 2 ^ Z.of_nat k) s bs n
  end.
Definition decode_bits (k : nat) (s : ast) (bs : list bool) (n : Z) : out (Z * ast * list bool * Z) :=
  bits_loop k 0 0 s bs n.

(** igf_arith_decode_residual, 173-214: SYMBOLS_IN_TABLE is 27, MIN_ENC_SEPARATE -12,
    MAX_ENC_SEPARATE 12 (ia_core_coder_igf_dec.h:41-43). *)
Definition residual (cf : list Z) (offset : Z) (s : ast) (bs : list bool) (n : Z) :
    out (Z * ast * list bool * Z) :=
  olet (v, s, bs, n) := get1 0 s bs n cf 27 in
  if negb (v =? 26) && negb (v =? 0) then Got ((v - 1) + -12 - offset, s, bs, n)
  else
    olet (e, s, bs, n) := decode_bits 4 s bs n in
    olet (e, s, bs, n) :=
      (if e =? 15 then olet (e, s, bs, n) := decode_bits 7 s bs n in Got (15 + e, s, bs, n)
       else Got (e, s, bs, n)) in
    Got ((if v =? 0 then (-12 - 1) - e else (12 + 1) + e) - offset, s, bs, n).

(** quant_ctx, 112-126. *)
Definition quant_ctx (c : Z) : Z := if 3 <? c then 3 else if c <? -3 then -3 else c.

(** A row of a table of tables. *)
Definition trow {A} (l : list A) (i : Z) : out A :=
  if i <? 0 then Bad else match nth_error l (Z.to_nat i) with Some v => Got v | None => Bad end.

(** The prediction plus a residual; the WORD32 sum is undefined when it does not fit. *)
Definition plus_res (pred : Z) (cf : list Z) (offset : Z) (s : ast) (bs : list bool) (n : Z) :
    out (Z * ast * list bool * Z) :=
  olet (r, s, bs, n) := residual cf offset s bs n in
  olet x := w32 (pred + r) in
  Got (x, s, bs, n).

(** One level, 257-301: [t] is igf_arith_time_idx, [prev] the 53 levels of the window before,
    [pd] igf_prev_win_ctx, [cur] the levels decoded so far in this window, the first of them
    being that of band [start]. *)
Definition level1 (t inc start : Z) (prev : list Z) (pd : Z) (cur : list Z) (sfb : Z) (s : ast)
    (bs : list bool) (n : Z) : out (Z * ast * list bool * Z) :=
  if t =? 0 then
    if sfb =? inc then
      olet pred := tab cur (sfb - inc) in
      plus_res pred cf_se_01 2 s bs n
    else if sfb =? 0 then decode_bits 7 s bs n
    else
      olet pred := tab cur (sfb - inc) in
      olet b := tab cur (sfb - 2 * inc) in
      olet d := w32 (pred - b) in
      let c := quant_ctx d in
      olet cf := trow cf_se_02 (3 + c) in
      olet o := tab offset_se_02 (3 + c) in
      plus_res pred cf o s bs n
  else if sfb =? 0 then
    olet pred := tab prev (start + sfb) in
    if negb (t =? 1) then
      olet d := w32 (pred - pd) in
      let c := quant_ctx d in
      olet cf := trow cf_se_20 (3 + c) in
      olet o := tab offset_se_20 (3 + c) in
      plus_res pred cf o s bs n
    else plus_res pred cf_se_10 (-4) s bs n
  else
    olet p := tab prev (start + sfb) in
    olet c := tab cur (sfb - inc) in
    olet q := tab prev (start + (sfb - inc)) in
    olet a := w32 (p + c) in
    olet pred := w32 (a - q) in
    olet dt := w32 (c - q) in
    olet df := w32 (p - q) in
    let ct := quant_ctx dt in
    let cf_ := quant_ctx df in
    olet cfs := trow cf_se_11 (3 + ct) in
    olet cf := trow cfs (3 + cf_) in
    olet os := trow offset_se_11 (3 + ct) in
    olet o := tab os (3 + cf_) in
    plus_res pred cf o s bs n.

(** NSFB_LONG, ia_core_coder_cnst.h:162. *)
Definition NSFB : Z := 53.

(** The loop of igf_arith_decode, 255-309: the level and its copies, 302-308.  The array is a
    row of igf_curr_q[8][53] (ia_core_coder_igf_dec.h:50) from igf_sfb_start on; every cell is
    written before it is read, so the list of the cells written is enough.  Each round moves on
    by [inc]; the fuel is the length. *)
Fixpoint row (fuel : nat) (len t inc start : Z) (prev : list Z) (pd : Z) (cur : list Z) (sfb : Z)
    (s : ast) (bs : list bool) (n : Z) : out (list Z * ast * list bool * Z) :=
  if sfb <? len then
    match fuel with
    | O => Stuck
    | S fuel =>
      olet (x, s, bs, n) := level1 t inc start prev pd cur sfb s bs n in
      let k := Z.min inc (len - sfb) in
      if NSFB <? start + sfb + k then Bad
      else row fuel len t inc start prev pd (cur ++ repeat x (Z.to_nat k)) (sfb + inc) s bs n
    end
  else Got (cur, s, bs, n).

(** ia_usac_igf_grid_config_struct, ia_core_coder_igf_data_struct.h:41-48; all UWORD8. *)
Record grid := mkGrid { g_start : Z; g_stop : Z; g_tiles : Z; g_min : Z }.
(** ia_usac_igf_envelope_struct, 80-87, without the floats. *)
Record env := mkEnv { v_t : Z; v_ctx : Z; v_prev : list Z }.

(** Write [x] over the cells of [l] from [i] on. *)
Definition over {A} (l : list A) (i : nat) (x : list A) : list A :=
  firstn i l ++ x ++ skipn (i + length x) l.

(** One WORD32 product for every level of a window, 1989. *)
Fixpoint scaled (factor : Z) (l : list Z) : out (list Z) :=
  match l with
  | [] => Got []
  | x :: l => olet y := w32 (x * factor) in olet r := scaled factor l in Got (y :: r)
  end.

(** The loop over the windows, 1975-1995.  A level is kept as the number k of which the float
    level is 2^(k/4), i.e. igf_curr_q - igf_emphasis; None is the float 0.  [nz] is the flag of
    2004-2020 for the windows done. *)
Definition levs := list (list (option Z)).
Fixpoint wins (k : nat) (w : Z) (g : grid) (inc factor emph : Z) (v : env) (lev : levs) (nz : bool)
    (s : ast) (bs : list bool) (n : Z) : out (env * levs * bool * Z) :=
  match k with
  | O => Got (v, lev, nz, n)
  | S k =>
    let len := g_stop g - g_start g in
    if 8 <=? w then Bad else
    olet (cur, s, bs, n) := row (Z.to_nat len) len (v_t v) inc (g_start g) (v_prev v) (v_ctx v) [] 0 s bs n in
    olet pc := tab (v_prev v) (g_start g) in
    olet sc := scaled factor cur in
    match nth_error lev (Z.to_nat w) with
    | None => Bad
    | Some r =>
      let r := over r (Z.to_nat (g_start g)) (map (fun y => Some (y - emph)) sc) in
      olet t := w32 (v_t v + 1) in
      wins k (w + 1) g inc factor emph (mkEnv t pc (over (v_prev v) (Z.to_nat (g_start g)) cur))
        (over lev (Z.to_nat w) [r]) (nz || existsb (fun y => negb (y =? 0)) sc) s bs n
    end
  end.

(** The data of a channel: igf_memory, the envelope and the one of the two igf_bitstream
    structures that the frame uses. *)
Record ist := mkIst {
  i_env : env; i_win : Z; i_ptile : list Z; i_pwhite : list Z;
  i_zero : Z; i_tile : list Z; i_lev : levs; i_white : list Z; i_tnf : Z }.

(** igf_get_swb_offset (84-98) at one band; the offset of band 0 is not written by it, so an
    igf_sfb_start of 0 is undefined here. *)
Definition swb_at (wt : Z) (tbl : list Z) (b : Z) : out Z :=
  olet x := tab tbl (b - 1) in
  Got (if (wt =? 2) || (wt =? 3) then x * 2 ^ wt else x).

Definition lift {A} (x : outcome A) : out A :=
  match x with Done a => Got a | Jmp _ => Jump | UB _ => Bad end.

(** get_igf_levels, 1900-2031; [tbl] are the band ends of pstr_usac_winmap[igf_win_type],
    [groups] num_window_groups.  Result: the return value, the data, the bit buffer. *)
Definition igf_levels (wt : Z) (hires : bool) (g : grid) (tbl : list Z) (indep : bool) (groups : nat)
    (i : ist) (b : rbuf) : out (Z * ist * rbuf) :=
  olet (az, b) := lift (read_bits 1 b) in
  olet off := swb_at wt tbl (g_start g) in
  let low := off <=? g_min g in
  let factor := if hires || (1 <? wt) then 1 else 2 in
  let inc := if (wt =? 0) && negb hires then 2 else 1 in
  let fresh_ := negb (az =? 0) || indep || negb (wt =? i_win i) in
  let v := if fresh_ then mkEnv 0 0 (repeat 0 53) else i_env i in
  let lev := if fresh_ then repeat (repeat None 53) 8 else i_lev i in
  if negb (az =? 0) then
    Got (az, mkIst v wt (repeat 3 4) (repeat 0 4) az (repeat 3 4) lev (repeat 0 4) 0, b)
  else
    let '(s, bs) := first_symbol (rest_bits b) in
    let emph := if 1 <? wt then 40 else 0 in
    olet (v, lev, nz, n) := wins groups 0 g inc factor emph v lev false s bs 16 in
    olet b := lift (skip_bits (n - 14) b) in
    let i := mkIst v wt (i_ptile i) (i_pwhite i) az (i_tile i) lev (i_white i) (i_tnf i) in
    if (g_start g =? g_stop g) || negb nz || low then Got (-1, i, b) else Got (az, i, b).
