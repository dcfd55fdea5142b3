(** * DrcGain: the dynamic range control gain payload

    Models decoder/impd_drc_dynamic_payload.c (whole file), impd_drc_extr_delta_coded_info.c
    and the two delta gain tables of impd_drc_rom.c:57-87.

    - Gains are multiples of 1/8 dB below 2^14 in magnitude, exact in FLOAT32: they are kept
      as integer numerators.
    - Slopes are not modelled: the configuration parser accepts only linear interpolation
      ([set_within] in Spec_Drc.v), for which all slopes are 0 and none is read.  For the
      same reason time_delt_min_flag is 0 everywhere.
    - The node structures keep their contents from one payload to the next, also when a
      payload is refused half way: every function returns its error code (0 = none) with
      the structures as it leaves them.  What is left behind when the data end early
      (longjmp) is not modelled. *)

From Coq Require Import ZArith List Lia Bool.
From Verif Require Import Bits BitBuf Prog Asi Loud Config DrcCfg.
Import ListNotations.
Open Scope Z_scope.

(** impeghd_error_codes.h:158: IA_MPEGD_DRC_INIT_NONFATAL_PARAM_ERROR. *)
Definition E_DRC_PARAM := 0x1102.

(** impd_drc_common.h:44, 60, 102, 105, 106. *)
Definition FRAME_MAX := 1024.
Definition NODE_MAX := 128.
Definition LC_NODE_MAX := 32.
Definition TIME_ENTRIES := 526.

(** ia_drc_delta_param_table_entry_struct, impd_drc_extr_delta_coded_info.h:40-45: size,
    code, value. *)
Definition entry := (Z * Z * Z)%type.

(** impd_drc_rom.c:57-66, values in eighths. *)
Definition gain_tbl_01 : list entry :=
  [(2, 0x003, -1); (2, 0x002, 1); (3, 0x001, -2); (3, 0x002, 0);
   (4, 0x000, -16); (5, 0x002, -4); (5, 0x00F, -3); (5, 0x00E, 8);
   (6, 0x019, -5); (6, 0x018, 2); (6, 0x006, 3); (7, 0x00F, -8);
   (7, 0x034, -7); (7, 0x036, -6); (7, 0x037, 4); (8, 0x01D, 5);
   (9, 0x039, -15); (9, 0x0D5, -9); (9, 0x0D7, 6); (9, 0x0D4, 7);
   (10, 0x070, -12); (10, 0x1AC, -11); (10, 0x1AD, -10); (11, 0x0E2, -14);
   (11, 0x0E3, -13)].

(** impd_drc_rom.c:68-87, values in eighths. *)
Definition gain_tbl_2 : list entry :=
  [(3, 0x7, -1); (4, 0xC, -5); (4, 0x9, -4);
   (4, 0x5, -3); (4, 0x3, -2); (4, 0x1, 0);
   (4, 0xB, 1); (5, 0x11, -7); (5, 0xE, -6);
   (5, 0x5, 2); (5, 0x4, 3); (5, 0x8, 4);
   (5, 0x0, 5); (5, 0xD, 6); (5, 0xF, 7);
   (5, 0x10, 8); (5, 0x1B, 9); (6, 0x2B, -10);
   (6, 0x28, -9); (6, 0x2, -8); (6, 0x12, 10);
   (6, 0x18, 11); (6, 0x29, 12); (7, 0x6A, -32);
   (7, 0x54, -14); (7, 0x68, -13); (7, 0x26, -12);
   (7, 0x6, -11); (7, 0x32, 13); (8, 0xD2, -18);
   (8, 0xAB, -17); (8, 0xAA, -16); (8, 0x4F, -15);
   (8, 0x4E, 14); (8, 0xD7, 15); (8, 0xE, 16);
   (9, 0x1AD, -29); (9, 0x1AC, -27); (9, 0x1A6, -26);
   (9, 0xCD, -25); (9, 0xCE, -22); (9, 0x1A7, -21);
   (9, 0x1F, -20); (9, 0xCC, -19); (10, 0x3C, -28);
   (10, 0x19E, -24); (10, 0x19F, -23); (11, 0x7A, -31);
   (11, 0x7B, -30)].

(** impd_drc_create_delta_gain_code_tbl, impd_drc_extr_delta_coded_info.c:78-92. *)
Definition gain_tbl (prof : Z) : list entry := if prof =? 2 then gain_tbl_2 else gain_tbl_01.

(** impd_drc_get_delta_tmin, impd_drc_extr_delta_coded_info.c:158-170.  The FLOAT32
    expression (WORD32)(0.5f + 0.0005f * rate) is written with integers: 0.0005f is above
    0.0005 by less than 10^-10, and below 50000 Hz the rounding errors are far below the
    distance of 0.0005 between two values. *)
Fixpoint double_until (fuel : nat) (d lb : Z) : Z :=
  match fuel with O => d | S f => if d <=? lb then double_until f (2 * d) lb else d end.
Definition delta_tmin (rate : Z) : Z := double_until 31 1 ((rate + 1000) / 2000).

(** One assignment to an element of delta_time_code_table[N_DELTA_TIME_CODE_TABLE_ENTRIES_MAX]. *)
Definition tput (t : outcome (list entry)) (i : Z) (e : entry) : outcome (list entry) :=
  match t with
  | Done l => if (0 <=? i) && (i <? zlen l)
              then Done (firstn (Z.to_nat i) l ++ e :: skipn (S (Z.to_nat i)) l) else UB UOob
  | x => x
  end.

(** A counting-down loop [for (n = k; n >= 0; n--)] of such assignments. *)
Fixpoint down (k : nat) (f : Z -> Z * entry) (t : outcome (list entry)) : outcome (list entry) :=
  let t := tput t (fst (f (Z.of_nat k))) (snd (f (Z.of_nat k))) in
  match k with O => t | S k' => down k' f t end.

(** The WORD8 [val] of impd_drc_create_delta_time_code_tbl, 112-118. *)
Fixpoint time_width (fuel : nat) (v : Z) (nmax : Z) : Z :=
  match fuel with O => v | S f => if 2 ^ v <? 2 * nmax then time_width f (v + 1) nmax else v end.

(** impd_drc_create_delta_time_code_tbl, impd_drc_extr_delta_coded_info.c:105-149, with
    nmax = num_gain_max_values.  With nmax < 7 the first loop does nothing. *)
Definition create_time_tbl (old : list entry) (nmax : Z) : outcome (list entry) :=
  let v := time_width 30 1 nmax in
  let k := 2 * nmax - 14 in
  let t := Done old in
  let t := if k <? 0 then t
           else down (Z.to_nat k) (fun n => (n + 14, (2 + v, 3 * 2 ^ v + n, n + 14))) t in
  let t := down 7 (fun n => (n + 6, (5, 16 + n, n + 6))) t in
  let t := down 3 (fun n => (n + 2, (4, 4 + n, n + 2))) t in
  let t := tput t 1 (2, 0, 1) in
  tput t 0 (-1, -1, -1).

(** impd_drc_init_bitstream_dec, impd_drc_init.c:156-213, the part that prepares the gain
    payload reader: frame size 1024 and delay mode 0 as passed by
    ia_core_coder_decode_main.c:3096-3101, 3277.  Returns the error code, the time
    resolution and the table. *)
Definition init_dec (old : list entry) (rate : Z) : outcome (res (Z * list entry)) :=
  if rate <? 1000 then Done (Er 0xFFFF9104) else
  let tm := delta_tmin rate in
  match create_time_tbl old (FRAME_MAX / tm) with
  | Done t => Done (Ok (tm, t)) | Jmp c => Jmp c | UB r => UB r
  end.

(** ** One entropy coded value *)

(** The for loop of impd_drc_update_value, 140-145: num_bits_read grows inside the loop
    whose bound is computed from it, so one pass reads only about half of the bits that
    are missing. *)
Fixpoint uv_bits (fuel : nat) (sz size nb code : Z) : prog (Z * Z) :=
  match fuel with
  | O => Ret (nb, code)
  | S f => if size <? sz - nb then b <- rd 1 ;; uv_bits f sz (size + 1) (nb + 1) (2 * code + b)
           else Ret (nb, code)
  end.

Inductive uvstep := UFound (v : Z) | UMove (idx : Z) | UErr (c : Z).

(** The inner while loop, 146-159.  The element at index no_entries is looked at before the
    test on line 155 can fire: an access behind the table. *)
Fixpoint uv_inner (fuel : nat) (tb : list entry) (idx nb code : Z) : prog uvstep :=
  match fuel with
  | O => Undef UFuel
  | S f =>
    ' (sz, c, v) <- aget tb idx ;;
    if nb =? sz then
      if code =? c then Ret (UFound v)
      else let idx := idx + 1 in
           if zlen tb <? idx then Ret (UErr E_DRC_UNEXPECTED) else uv_inner f tb idx nb code
    else Ret (UMove idx)
  end.

(** The outer while loop, 130-160.  When the element at idx is shorter than the bits already
    read nothing changes any more: with update_time = 1 the pass counter then ends the loop
    with an error (132-138); otherwise it would not end. *)
Fixpoint uv_outer (fuel : nat) (time : bool) (tb : list entry) (idx nb code : Z) : prog (res Z) :=
  match fuel with
  | O => Undef UFuel
  | S f =>
    if idx <? zlen tb then
      ' (sz, _, _) <- aget tb idx ;;
      if sz <? nb then (if time then Ret (Er E_DRC_FATAL) else Undef UFuel) else
      ' (nb, code) <- uv_bits (Z.to_nat sz) sz 0 nb code ;;
      r <- uv_inner (S (length tb)) tb idx nb code ;;
      match r with
      | UFound v => Ret (Ok v)
      | UMove i => uv_outer f time tb i nb code
      | UErr c => Ret (Er c)
      end
    else Ret (Er E_DRC_UNEXPECTED)
  end.

(** impd_drc_update_value, impd_drc_dynamic_payload.c:117-167.  The outer loop is run at
    most 1000 times here (each pass reads at least one bit); proved sufficient. *)
Definition update_value (time : bool) (tb : list entry) : prog (res Z) :=
  uv_outer 1000 time tb (if time then 1 else 0) 0 0.

(** ** Node structures *)

(** ia_drc_spline_nodes_struct with its str_node[NODE_COUNT_MAX], impd_drc_struct.h:338-351. *)
Record nodes := mkNd { nd_n : Z; nd_g : list Z; nd_t : list Z }.
(** ia_drc_gain_sequence_struct, impd_drc_struct.h:353-357. *)
Record gseq := mkSq { sq_count : Z; sq_nodes : list nodes }.

Definition s_nd_n (nd : nodes) n := mkNd n (nd_g nd) (nd_t nd).
Definition s_nd_g (nd : nodes) g := mkNd (nd_n nd) g (nd_t nd).
Definition s_nd_t (nd : nodes) t := mkNd (nd_n nd) (nd_g nd) t.

Definition put_g (nd : nodes) i v : prog nodes := l <- aset (nd_g nd) i v ;; Ret (s_nd_g nd l).
Definition put_t (nd : nodes) i v : prog nodes := l <- aset (nd_t nd) i v ;; Ret (s_nd_t nd l).

(** impd_drc_get_initial_gain, impd_drc_dynamic_payload.c:65-101; the profile is two bits
    wide, so the default branch is dead. *)
Definition initial_gain (prof : Z) : prog Z :=
  if prof =? 3 then Ret 0
  else if prof =? 2 then
    s <- rd 1 ;; if s =? 0 then Ret 0 else m <- rd 8 ;; Ret (- (m + 1))
  else if prof =? 1 then
    s <- rd 1 ;; if s =? 0 then Ret 0 else m <- rd 10 ;; Ret (- (m + 1))
  else
    s <- rd 1 ;; m <- rd 8 ;; Ret (if s =? 0 then m else - m).

(** The counting loop of impd_drc_decode_slopes, 235-239.  [fuel] is the number of bits
    left; with none left the next read leaves by longjmp. *)
Fixpoint count_nodes (fuel : nat) (node : Z) : prog Z :=
  match fuel with
  | O => Throw INSUFFICIENT_INPUT_BYTES
  | S f => b <- rd 1 ;; if b =? 1 then Ret (node + 1) else count_nodes f (node + 1)
  end.

(** impd_drc_decode_slopes, 224-282, for linear interpolation: only the number of nodes. *)
Definition decode_slopes (nd : nodes) : prog (Z * nodes) :=
  c <- avail ;;
  node <- count_nodes (Z.to_nat c) 0 ;;
  if NODE_MAX <? node then Ret (E_DRC_UNEXPECTED, nd) else
  if LC_NODE_MAX <? node then Ret (E_DRC_LC, nd) else
  Ret (0, s_nd_n nd node).

(** impd_drc_decode_gains, 181-209. *)
Definition decode_gains (prof : Z) (nd : nodes) : prog (Z * nodes) :=
  g0 <- initial_gain prof ;;
  nd <- put_g nd 0 g0 ;;
  forE (Z.to_nat (nd_n nd - 1)) 1 (fun node nd =>
    r <- update_value false (gain_tbl prof) ;;
    match r with Er e => Ret (e, nd) | Ok d =>
    p <- aget (nd_g nd) (Z.of_nat node - 1) ;;
    nd <- put_g nd (Z.of_nat node) (p + d) ;;
    Ret (0, nd) end) nd.

(** The reader's parameters: time resolution (delta_tmin_def), time table, frame size. *)
Record gpar := mkGP { gp_tmin : Z; gp_tbl : list entry; gp_frame : Z; gp_low : bool }.

(** Body of the loop with frame_end = 1, impd_drc_decode_times:323-349. *)
Definition time_end_body (p : gpar) (off : Z) (node : nat) (x : Z * bool * nodes)
  : prog (Z * (Z * bool * nodes)) :=
  let '(toff, resv, nd) := x in
  let node := Z.of_nat node in
  r <- update_value true (gp_tbl p) ;;
  match r with Er e => Ret (e, x) | Ok d =>
  let t := toff + d * gp_tmin p in
  if t <=? gp_frame p + off then
    nd <- put_t nd node t ;; Ret (0, (t, resv, nd))
  else
    nd <- put_t nd (node + 1) t ;;
    nd <- (if resv then Ret nd else put_t nd node (gp_frame p + off)) ;;
    Ret (0, (t, true, nd))
  end.

(** Body of the loop with frame_end = 0, 357-373. *)
Definition time_open_body (p : gpar) (node : nat) (x : Z * nodes) : prog (Z * (Z * nodes)) :=
  let '(toff, nd) := x in
  r <- update_value true (gp_tbl p) ;;
  match r with Er e => Ret (e, x) | Ok d =>
  let t := toff + d * gp_tmin p in
  if 2 * FRAME_MAX - gp_frame p <=? t then Ret (E_DRC_UNEXPECTED, x) else
  nd <- put_t nd (Z.of_nat node) t ;; Ret (0, (t, nd))
  end.

(** impd_drc_decode_times, 299-376. *)
Definition decode_times (p : gpar) (full off : Z) (nd : nodes) : prog (Z * nodes) :=
  fe <- (if full =? 0 then rd 1 else Ret 1) ;;
  if fe =? 1 then
    ' (e, (_, resv, nd)) <- forE (Z.to_nat (nd_n nd - 1)) 0 (time_end_body p off) (off, false, nd) ;;
    if negb (e =? 0) then Ret (e, nd) else
    if resv : bool then Ret (0, nd)
    else nd <- put_t nd (nd_n nd - 1) (gp_frame p + off) ;; Ret (0, nd)
  else
    ' (e, (_, nd)) <- forE (Z.to_nat (nd_n nd)) 0 (time_open_body p) (off, nd) ;;
    Ret (e, nd).

(** impd_drc_read_spline_nodes, 495-621, with ptr_bit_buf_base != NULL. *)
Definition time_offset (p : gpar) (g : gset) : Z :=
  if gs_align g =? 0 then -1 else - gp_tmin p + (gp_tmin p - 1) / 2.

Definition read_nodes (p : gpar) (g : gset) (nd : nodes) : prog (Z * nodes) :=
  let off := time_offset p g in
  c <- avail ;;
  ' (e, mode, nd) <-
    (if c <? 1 then
       if (nd_n nd <? 1) || (NODE_MAX <? nd_n nd) then Ret (E_DRC_UNEXPECTED, 0, nd) else
       l <- aget (nd_g nd) (nd_n nd - 1) ;;
       nd <- put_t nd 0 (gp_frame p + off) ;;
       nd <- put_g nd 0 l ;;
       Ret (0, 0, s_nd_n nd 1)
     else m <- rd 1 ;; Ret (0, m, nd)) ;;
  if negb (e =? 0) then Ret (e, nd) else
  if mode =? 0 then
    v <- initial_gain (gs_prof g) ;;
    nd <- put_g nd 0 v ;;
    nd <- put_t nd 0 (gp_frame p + off) ;;
    Ret (0, s_nd_n nd 1)
  else
    ' (e, nd) <- decode_slopes nd ;;
    if negb (e =? 0) then Ret (e, nd) else
    ' (e, nd) <- decode_times p (gs_full g) off nd ;;
    if negb (e =? 0) then Ret (e, nd) else
    decode_gains (gs_prof g) nd.

(** The node reservoir of impd_drc_read_drc_gain_sequence, 658-696: the times from the frame
    size on are moved to the front, two frames earlier.  The gains stay where they are. *)
Definition split_body (F : Z) (node : nat) (x : list Z * list Z * nodes)
  : prog (list Z * list Z * nodes) :=
  let '(prev, cur, nd) := x in
  t <- aget (nd_t nd) (Z.of_nat node) ;;
  if t <? F then chk (zlen cur) NODE_MAX ;;; Ret (prev, cur ++ [t], nd)
  else chk (zlen prev) NODE_MAX ;;; Ret (prev ++ [t], cur, nd).

Definition prev_body (F : Z) (prev : list Z) (node : nat) (nd : nodes) : prog (Z * nodes) :=
  t <- aget prev (Z.of_nat node) ;;
  let t := t - 2 * F in
  if 2 * FRAME_MAX - F <=? t then Ret (E_DRC_UNEXPECTED, nd) else
  nd <- put_t nd (Z.of_nat node) t ;; Ret (0, nd).

Definition cur_body (np : nat) (cur : list Z) (k : nat) (nd : nodes) : prog nodes :=
  t <- aget cur (Z.of_nat k) ;; put_t nd (Z.of_nat (np + k)) t.

Definition reservoir (F : Z) (nd : nodes) : prog (Z * nodes) :=
  ' (prev, cur, nd) <- forP (Z.to_nat (nd_n nd)) 0 (split_body F) ([], [], nd) ;;
  ' (e, nd) <- forE (length prev) 0 (prev_body F prev) nd ;;
  if negb (e =? 0) then Ret (e, nd) else
  nd <- forP (length cur) 0 (cur_body (length prev) cur) nd ;;
  Ret (0, nd).

(** impd_drc_read_drc_gain_sequence, 634-698. *)
Definition band_nodes_body (p : gpar) (g : gset) (band : nat) (l : list nodes)
  : prog (Z * list nodes) :=
  nd <- aget l (Z.of_nat band) ;;
  ' (e, nd) <- read_nodes p g nd ;;
  l <- aset l (Z.of_nat band) nd ;;
  if negb (e =? 0) then Ret (e, l) else
  ' (e, nd) <- reservoir (gp_frame p) nd ;;
  l <- aset l (Z.of_nat band) nd ;;
  Ret (e, l).

Definition read_sequence (p : gpar) (g : gset) (l : list nodes) : prog (Z * list nodes) :=
  if gp_low p && (gs_full g =? 0) then Ret (E_DRC_PARAM, l) else
  forE (Z.to_nat (gs_count g)) 0 (band_nodes_body p g) l.

(** impd_drc_read_uni_drc_gain_ext, 387-419: EXT_COUNT_MAX - 1 = 1 extension at most. *)
Definition read_gain_ext : prog Z :=
  t <- rd 4 ;;
  if t =? 0 then Ret 0 else
  n <- rd 3 ;;
  v <- rd (n + 4) ;;
  skip (v + 1) ;;;
  t <- rd 4 ;;
  if t =? 0 then Ret 0 else Ret E_DRC_UNEXPECTED.

(** Body of the loop of impd_drc_read_uni_drc_gain, 442-467. *)
Definition gain_set_body (p : gpar) (sets : list gset) (cnt : nat) (st : list gseq)
  : prog (Z * list gseq) :=
  g <- aget sets (Z.of_nat cnt) ;;
  sq <- aget st (Z.of_nat cnt) ;;
  if negb (gs_prof g =? 3) then
    ' (e, l) <- read_sequence p g (sq_nodes sq) ;;
    st <- aset st (Z.of_nat cnt) (mkSq (gs_count g) l) ;;
    Ret (e, st)
  else
    nd <- aget (sq_nodes sq) 0 ;;
    nd <- put_g nd 0 0 ;;
    nd <- put_t nd 0 (gp_frame p - 1) ;;
    l <- aset (sq_nodes sq) 0 (s_nd_n nd 1) ;;
    st <- aset st (Z.of_nat cnt) (mkSq 1 l) ;;
    Ret (0, st).

(** impd_drc_read_uni_drc_gain, 431-480.  [sets] are the gain sets of the first coefficient
    block.  The C code sets apply_drc on success. *)
Definition read_gain (p : gpar) (sets : list gset) (st : list gseq) : prog (Z * list gseq) :=
  ' (e, st) <- forE (length sets) 0 (gain_set_body p sets) st ;;
  if negb (e =? 0) then Ret (e, st) else
  f <- rd 1 ;;
  if f =? 1 then e <- read_gain_ext ;; Ret (e, st) else Ret (0, st).
