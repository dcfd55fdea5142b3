(** * CoreScf: scale factors

    Model of ia_core_coder_section_data, /repo/decoder/ia_core_coder_spectrum_dec.c:431-556,
    with what it reads bits with: ia_core_coder_mpeghd_showbits_32 (87-112),
    ia_core_coder_mpeghd_read_byte_corr1 (ia_core_coder_bitbuffer.c:256-279) and
    ia_core_coder_huffman_decode (ia_core_coder_env_extr.c:64-134).  It does not use the
    reading functions of the bit buffer but a window of 32 bits of its own.
    Simplified: the left shifts of the WORD32 window wrap (they are undefined by the C
    standard when bits are lost; compilers wrap), a shift by 32 or more is undefined.  The
    code books ia_core_coder_scale_factor_data (342-362) fills in are taken as what they are:
    ESC_HCB for the bands below max_sfb of every window, ZERO_HCB above, so the branches for
    noise and intensity codes are never taken and are left out. *)

From Coq Require Import ZArith List Bool.
From Verif Require Import Bits BitBuf.
Import ListNotations.
Open Scope Z_scope.

(** IA_MPEGH_DEC_EXE_FATAL_INVALID_SF, impeghd_error_codes.h:265. *)
Definition E_SF : Z := 0xFFFF9823.

Definition obind {A B} (x : outcome A) (f : A -> outcome B) : outcome B :=
  match x with Done a => f a | Jmp c => Jmp c | UB r => UB r end.
Notation "'olet' p := e1 'in' e2" := (obind e1 (fun p => e2))
  (at level 200, p pattern, e1 at level 100, e2 at level 200, right associativity).

Definition oget (l : list Z) (i : Z) : outcome Z :=
  match get_byte l i with Some v => Done v | None => UB UOob end.
Definition oput (l : list Z) (i v : Z) : outcome (list Z) :=
  if (i <? 0) || (Z.of_nat (length l) <=? i) then UB UOob
  else Done (firstn (Z.to_nat i) l ++ v :: skipn (S (Z.to_nat i)) l).

(** spectrum_dec.c:95-105. *)
Fixpoint show_loop (n : nat) (d : list Z) (ptr cnt b bumped : Z) : outcome (Z * Z) :=
  match n with
  | O => Done (b, bumped)
  | S m =>
    let b := u32 (b * 2 ^ 8) in
    if 0 <? cnt then olet v := oget d ptr in show_loop m d (ptr + 1) (cnt - 8) (Z.lor b v) (bumped + 1)
    else show_loop m d ptr (cnt - 8) b bumped
  end.

(** bitbuffer.c:263-277; ptr_bit_buf_end is the last byte of the buffer. *)
Fixpoint corr_loop (fuel : nat) (d : list Z) (ptr used tmp w : Z) : outcome (Z * Z * Z) :=
  if used <? 8 then Done (ptr, used + tmp, w)
  else
    match fuel with
    | O => UB UFuel
    | S f =>
      if Z.of_nat (length d) - 1 <? ptr then corr_loop f d ptr (used - 8) (tmp + 8) w
      else olet v := oget d ptr in corr_loop f d (ptr + 1) (used - 8) tmp (Z.lor (u32 (w * 2 ^ 8)) v)
    end.
Definition corr (d : list Z) (ptr used w : Z) : outcome (Z * Z * Z) :=
  corr_loop (Z.to_nat (used / 8)) d ptr used 0 w.

(** huffman_code_book_scl and huffman_code_book_scl_index, ia_core_coder_rom.c:110-131. *)
Definition hscf : list Z :=
  [0x0013; 0x0781; 0x0763; 0x07a4; 0x0744; 0x07c4; 0x0725; 0x07e5; 0x0706; 0x0806; 0x06e6;
     0x0826; 0x0847; 0x06c7; 0x0867; 0x06a8; 0x0888; 0x0688; 0x08a8; 0x0668; 0x08c9; 0x0649;
     0x0629; 0x08e9; 0x090a; 0x060a; 0x092a; 0x05ea; 0x094a; 0x05ca; 0x098b; 0x096b; 0x09ab;
     0x09cb; 0x05ab; 0x056b; 0x058c; 0x09ec; 0x054c; 0x052c; 0x0a0c; 0x050c; 0x0a2d; 0x04ed;
     0x0a4d; 0x04cd; 0x0a6d; 0x04ae; 0x046e; 0x0aae; 0x042e; 0x048e; 0x044e; 0x0a8e; 0x040e;
     0x0aef; 0x0b2f; 0x03cf; 0x03ef; 0x0ad0; 0x03b0; 0x0350; 0x0370; 0x0390; 0x0310; 0x0b10;
     0x0331; 0x02d1; 0x02f1; 0x0b52; 0x02b2; 0x0272; 0x0072; 0x0032; 0x0052; 0x0012; 0x0c53;
     0x0c73; 0x0c93; 0x0cb3; 0x0cd3; 0x0eb3; 0x0c33; 0x0b73; 0x0b93; 0x0bb3; 0x0bd3; 0x0bf3;
     0x0c13; 0x0d13; 0x0df3; 0x0e13; 0x0e33; 0x0e53; 0x0e73; 0x0e93; 0x0dd3; 0x0d33; 0x0d53;
     0x0d73; 0x0d93; 0x0db3; 0x0ed3; 0x00d3; 0x0113; 0x0133; 0x0153; 0x00b3; 0x0cf3; 0x0f13;
     0x0ef3; 0x0093; 0x00f3; 0x01f3; 0x0213; 0x0253; 0x0293; 0x0233; 0x0173; 0x0193; 0x01d3;
     0x01b3].
Definition idx_tab : list Z :=
  [0x00000000; 0x10100004; 0x2040000c; 0x00a0003b; 0x30d0007a; 0x412000fa; 0x516001f9;
     0x61c003f9; 0x722007f9; 0x82800ff9; 0x92d01ff8; 0xa3503ff9; 0xb400fff6; 0xc431fff0;
     0x0687ffef; 0x0707fff7; 0x0747fffb; 0x0767fffd; 0x0777fffe; 0x0787ffff; 0x0030000b;
     0x0060001b; 0x00f000f7; 0x014001f7; 0x01a003f7; 0x020007f7; 0x02600ff7; 0x02c01ff7;
     0x03303ff7; 0x03907ff7; 0x0421ffef; 0x14a3ffe8; 0x0587ffdf].

(** env_extr.c:64-77: counts leading ones, whatever the name. *)
Fixpoint lead_ones (fuel : nat) (w n : Z) : outcome Z :=
  if w =? 0 then Done n
  else
    match fuel with
    | O => UB UFuel
    | S f => if Z.testbit w 31 then lead_ones f (u32 (w * 2)) (n + 1) else Done n
    end.

(** env_extr.c:108-127. *)
Fixpoint walk (fuel : nat) (loc lead len_end : Z) : outcome (Z * Z) :=
  match fuel with
  | O => UB UFuel
  | S f =>
    olet e := oget idx_tab lead in
    let off := Z.land (Z.shiftr e 20) 255 in
    olet h := oget hscf (off + 1) in
    let len := Z.land h 31 in
    if len =? 0 then UB UShift
    else
      let cw := Z.land e 0xfffff in
      let loc1 := Z.shiftr loc (32 - len) in
      if cw <? loc1 then
        let len_end := len_end + Z.land (Z.shiftr e 28) 15 in
        walk f loc len_end len_end
      else olet h := oget hscf (off - (cw - loc1) + 1) in Done (Z.shiftr h 5, len)
  end.
(** env_extr.c:93-134: (index, length); the mask keeps the upper 19 bits. *)
Definition huffman (w : Z) : outcome (Z * Z) :=
  let loc := Z.land w 0xFFFFE000 in
  olet lead := lead_ones 33 loc 0 in
  walk 8 loc lead 19.

(** Read pointer, bits of the window used, window. *)
Definition win := (Z * Z * Z)%type.

(** spectrum_dec.c:494-503: one code word; the value is norm_val. *)
Definition one_code (d : list Z) (s : win) : outcome (Z * win) :=
  let '(ptr, bp, w) := s in
  if 32 <=? bp then UB UShift
  else
    olet il := huffman (u32 (w * 2 ^ bp)) in
    olet s := corr d ptr (bp + snd il) w in
    Done (fst il - 60, s).

(** 474-530: [n] bands from band [b]; the state is (window, factors, index of the next one,
    factor before).  [max] is max_sfb; [first] tells the first group.  WORD16 does not wrap:
    at most 120 steps of at most 60 from at most 255. *)
Definition fst_ := (win * list Z * Z * Z)%type.
Fixpoint sf_bands (d : list Z) (first : bool) (max : nat) (n b : nat) (s : fst_) : outcome (Z * fst_) :=
  match n with
  | O => Done (0, s)
  | S m =>
    let '(q, fac, p, f) := s in
    if first && (b =? 0)%nat then
      olet fac := oput fac p f in
      if 255 <? f then Done (E_SF, (q, fac, p, f)) else sf_bands d first max m (S b) (q, fac, p + 1, f)
    else if (max <=? b)%nat then
      olet fac := oput fac p 0 in
      sf_bands d first max m (S b) (q, fac, p + 1, f)
    else
      olet (v, q) := one_code d q in
      let f := f + v in
      olet fac := oput fac p f in
      if 255 <? f then Done (E_SF, (q, fac, p, f)) else sf_bands d first max m (S b) (q, fac, p + 1, f)
  end.

(** 533-541: the factors of a group are copied to its other windows; [n] copies of [k]
    factors, from [p]. *)
Fixpoint sf_copy (n : nat) (k p : Z) (fac : list Z) : outcome (list Z) :=
  match n with
  | O => Done fac
  | S m =>
    if (p <? 0) || (Z.of_nat (length fac) <? p + 2 * k) then UB UOob
    else sf_copy m k (p + k) (firstn (Z.to_nat (p + k)) fac ++ firstn (Z.to_nat k) (skipn (Z.to_nat p) fac)
                                ++ skipn (Z.to_nat (p + 2 * k)) fac)
  end.

(** 467-542: the groups, whose ends are in [gd]; [nw] is max_win_len, [nsb] sfb_per_sbk. *)
Fixpoint sf_groups (fuel : nat) (d : list Z) (islong : bool) (nw : Z) (nsb max : nat) (gd : list Z) (k : Z) (group bb : Z)
    (first : bool) (s : fst_) : outcome (Z * fst_) :=
  if nw <=? group then Done (0, s)
  else
    match fuel with
    | O => UB UFuel
    | S f =>
      let p0 := snd (fst s) in
      olet g := oget gd k in
      olet (e, s) := sf_bands d first max nsb 0 s in
      if negb (e =? 0) then Done (e, s)
      else if islong then sf_groups f d islong nw nsb max gd (k + 1) g bb false s
      else
        let '(q, fac, p, fa) := s in
        let n := Z.to_nat (g - (bb + 1)) in
        olet fac := sf_copy n (Z.of_nat nsb) p0 fac in
        sf_groups f d islong nw nsb max gd (k + 1) g (bb + 1 + Z.of_nat n) false (q, fac, p + Z.of_nat n * Z.of_nat nsb, fa)
    end.

(** 431-556; the result is the error code, the factors and the reader.  466: memset clears
    128 bytes, that is 64 of the 128 factors. *)
Definition section_data (islong : bool) (nw : Z) (nsb max : nat) (gd : list Z) (gain : Z) (fac : list Z) (s : rbuf)
  : outcome (Z * list Z * rbuf) :=
  let d := r_data s in
  let bp := 7 - r_pos s in
  olet (w, inc) := show_loop 4 d (r_ptr s) (r_cnt s) 0 0 in
  let fac := repeat 0 64 ++ skipn 64 fac in
  olet (e, (q, fac, _, _)) := sf_groups 9 d islong nw nsb max gd 0 0 0 true ((r_ptr s + inc, bp, w), fac, 0, gain) in
  if negb (e =? 0) then Done (e, fac, s)
  else
    let '(ptr, bp, w) := q in
    olet (ptr, bp, _) := corr d (ptr - inc) bp w in
    let used := (ptr - r_ptr s) * 8 + (r_pos s - (7 - bp)) in
    Done (0, fac, mkR d ptr (7 - bp) (r_cnt s - used)).
