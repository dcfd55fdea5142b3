(** * Mct: the multichannel coding tool (decoder/impeghd_multichannel.c)

    Side information of the multichannel coding tool: the channel mask read when the
    decoder is configured and the tree of channel pairs ("boxes") read in each frame, with
    coefficients coded differentially against the previous frame or the previous band.

    Constants of the default build (ia_core_coder_config.h:52-59): 16 boxes, 64 bands,
    24 channels.  The arrays indexed by box in [ia_multichannel_data]
    (ia_core_coder_config.h:289-316) are kept as one list of [box] records; indices and
    bounds are those of the C arrays. *)

From Coq Require Import ZArith List Lia Bool.
From Verif Require Import Bits BitBuf Prog Escape Config Oam.
Import ListNotations.
Open Scope Z_scope.

(** Code tables, impeghd_multichannel_rom.c:65-127: impeghd_mc_huff_code_tbl_angle,
    impeghd_mc_huff_len_tbl_angle, impeghd_mc_huff_code_tbl_scf, impeghd_mc_huff_len_tbl_scf. *)
Definition code_angle : list Z := [
  0; 11; 18; 27; 31; 49; 58; 67; 101; 115; 130; 154; 206; 238; 262; 314; 473; 478; 514; 609;
   527; 526; 611; 614; 626; 625; 631; 630; 820; 805; 806; 807; 804; 803; 821; 802; 800; 801;
   627; 624; 615; 608; 1220; 1221; 515; 479; 474; 472; 411; 475; 306; 256; 207; 204; 155; 129;
   114; 79; 66; 56; 48; 30; 26; 17; 10].
Definition len_angle : list Z := [
  1; 4; 5; 5; 5; 6; 6; 7; 7; 7; 8; 8; 8; 8; 9; 9; 9; 9; 10; 10; 10; 10; 10; 10; 10; 10; 10; 10;
   10; 10; 10; 10; 10; 10; 10; 10; 10; 10; 10; 10; 10; 10; 11; 11; 10; 9; 9; 9; 9; 9; 9; 9; 8;
   8; 8; 8; 7; 7; 7; 6; 6; 5; 5; 5; 4].
Definition code_scf : list Z := [
  262120; 262118; 262119; 262117; 524277; 524273; 524269; 524278; 524270; 524271; 524272; 524284;
   524285; 524287; 524286; 524279; 524280; 524283; 524281; 262116; 524282; 262115; 131055; 131056;
   65525; 131054; 65522; 65523; 65524; 65521; 32758; 32759; 16377; 16373; 16375; 16371; 16374;
   16370; 8183; 8181; 4089; 4087; 4086; 2041; 4084; 2040; 1017; 1015; 1013; 504; 503; 250; 248;
   246; 121; 58; 56; 26; 11; 4; 0; 10; 12; 27; 57; 59; 120; 122; 247; 249; 502; 505; 1012; 1014;
   1016; 2037; 2036; 2038; 2039; 4085; 4088; 8180; 8182; 8184; 16376; 16372; 65520; 32756; 65526;
   32757; 262114; 524249; 524250; 524251; 524252; 524253; 524254; 524248; 524242; 524243; 524244;
   524245; 524246; 524274; 524255; 524263; 524264; 524265; 524266; 524267; 524262; 524256; 524257;
   524258; 524259; 524260; 524261; 524247; 524268; 524276; 524275].
Definition len_scf : list Z := [
  18; 18; 18; 18; 19; 19; 19; 19; 19; 19; 19; 19; 19; 19; 19; 19; 19; 19; 19; 18; 19; 18; 17;
   17; 16; 17; 16; 16; 16; 16; 15; 15; 14; 14; 14; 14; 14; 14; 13; 13; 12; 12; 12; 11; 12; 11;
   10; 10; 10; 9; 9; 8; 8; 8; 7; 6; 6; 5; 4; 3; 1; 4; 4; 5; 6; 6; 7; 7; 8; 8; 9; 9; 10; 10; 10;
   11; 11; 11; 11; 12; 12; 13; 13; 13; 14; 14; 16; 15; 16; 15; 18; 19; 19; 19; 19; 19; 19; 19;
   19; 19; 19; 19; 19; 19; 19; 19; 19; 19; 19; 19; 19; 19; 19; 19; 19; 19; 19; 19; 19; 19; 19
   ].

Definition tab_angle : list (Z * Z) := combine len_angle code_angle.
Definition tab_scf : list (Z * Z) := combine len_scf code_scf.

(** impeghd_mc_decode_huffman, impeghd_multichannel.c:206-251: entry by entry, as many bits
    as the entry's length are read (fewer when the payload has fewer left), compared with
    the entry and given back when they differ; -1 when no entry matches.  The bit by bit
    reading followed by the restoration of the reader is modelled as looking ahead. *)
Fixpoint huff_from (tab : list (Z * Z)) (i : Z) : prog Z :=
  match tab with
  | [] => Ret (-1)
  | (len, code) :: r =>
    a <- avail ;;
    v <- peek (Z.min len a) ;;
    if v =? code then skip (Z.min len a) ;;; Ret i else huff_from r (i + 1)
  end.
Definition huff (tab : list (Z * Z)) : prog Z := huff_from tab 0.

(** Per box fields of [ia_multichannel_data], ia_core_coder_config.h:289-316:
    win_seq_is_long_prev, code_pairs[.][0], code_pairs[.][1], pair_coeffq_sfb_prev (64),
    pair_coeffq_fb_prev, b_delta_time, pred_dir, pair_coeffq_sfb (64), num_mask_band,
    mask (64), mask_flag, bandwise_coeff_flag, stereo_filling_flag. *)
Record box := mkBox {
  x_long : Z; x_c0 : Z; x_c1 : Z; x_sprev : list Z; x_fprev : Z; x_dt : Z; x_dir : Z;
  x_coef : list Z; x_nb : Z; x_mask : list Z; x_mf : Z; x_bw : Z; x_ff : Z }.

(** The other fields of [ia_multichannel_data] used here, ia_core_coder_config.h:289-316:
    stereo_filling, signal_type, prev_signal_type, keep_tree, num_pairs, start_channel,
    channel_mask (24), channel_map (24), num_ch_to_apply and the 16 boxes. *)
Record mct := mkMct {
  t_fill : Z; t_type : Z; t_ptype : Z; t_keep : Z; t_np : Z; t_start : Z;
  t_cmask : list Z; t_cmap : list Z; t_nch : Z; t_boxes : list box }.

(** A structure cleared with memset, ia_core_coder_headerdecode.c:95-99. *)
Definition box0 : box := mkBox 0 0 0 (repeat 0 64) 0 0 0 (repeat 0 64) 0 (repeat 0 64) 0 0 0.
Definition mct0 : mct := mkMct 0 0 0 0 0 0 (repeat 0 24) (repeat 0 24) 0 (repeat box0 16).

(** IA_MPEGH_DEC_INIT_FATAL_INVALID_CH_MASK_LFE, ..._INVALID_MCT_ENTRIES,
    ..._INVALID_CH_PAIR_IDX, ..._INVALID_DELTA_TIME, IA_MPEGH_DEC_EXE_FATAL_
    MAX_NUM_MC_BANDS_EXCEEDED, ..._MCT_PROCESS_FAIL: impeghd_error_codes.h:126-248. *)
Definition E_LFE : Z := 0xFFFF901D.
Definition E_ENTRIES : Z := 0xFFFF9024.
Definition E_PAIR : Z := 0xFFFF9025.
Definition E_DT : Z := 0xFFFF902D.
Definition E_BANDS : Z := 0xFFFF980E.
Definition E_MCT : Z := 0xFFFF9812.

(** impeghd_mc_init, impeghd_multichannel.c:269-309, on a reader over the configuration
    payload; [ety] is usac_element_type[start_element].  The count of channels is the one
    already stored in the structure.  [use_tool] and [start_element] are not kept. *)
Definition mc_init (ety num start : Z) (st : mct) : prog (Z * mct) :=
  let st := mkMct (t_fill st) (t_type st) (t_ptype st) (t_keep st) (t_np st) start
                  (t_cmask st) (t_cmap st) (t_nch st) (t_boxes st) in
  '(e, st) <- forE (Z.to_nat num) 0 (fun c st =>
    let chan := Z.of_nat c in
    b <- rd 1 ;;
    cm <- aset (t_cmask st) (chan + start) b ;;
    let st := mkMct (t_fill st) (t_type st) (t_ptype st) (t_keep st) (t_np st) (t_start st)
                    cm (t_cmap st) (t_nch st) (t_boxes st) in
    if 0 <? b then
      if ety =? 2 then Ret (E_LFE, st)
      else
        mp <- aset (t_cmap st) (t_nch st + start) (chan + start) ;;
        Ret (0, mkMct (t_fill st) (t_type st) (t_ptype st) (t_keep st) (t_np st) (t_start st)
                      (t_cmask st) mp (t_nch st + 1) (t_boxes st))
    else Ret (0, st)) st ;;
  if e =? 0 then (if t_nch st <? 2 then Ret (E_ENTRIES, st) else Ret (0, st)) else Ret (e, st).

(** The two nested loops of impeghd_mc_parse_ch_pair, impeghd_multichannel.c:353-368:
    [find0] is the inner loop ([c] iterations left, [chan0], [pair_counter]), [find1] the
    outer one. *)
Fixpoint find0 (c : nat) (chan0 cnt idx : Z) : Z + Z :=
  match c with
  | O => inr cnt
  | S m => if cnt =? idx then inl chan0 else find0 m (chan0 + 1) (cnt + 1) idx
  end.
Fixpoint find1 (c : nat) (chan1 cnt idx : Z) : option (Z * Z) :=
  match c with
  | O => None
  | S m => match find0 (Z.to_nat chan1) 0 cnt idx with
           | inl chan0 => Some (chan0, chan1)
           | inr cnt' => find1 m (chan1 + 1) cnt' idx
           end
  end.

(** impeghd_mc_parse_ch_pair, impeghd_multichannel.c:322-370.  The loop counting the bits
    of the largest index is its logarithm; a pair not found leaves code_pair unchanged. *)
Definition mc_pair (nch : Z) (old : Z * Z) : prog (Z * (Z * Z)) :=
  let mx := (nch * (nch - 1)) / 2 - 1 in
  if mx <? 0 then Ret (E_ENTRIES, old)
  else
    i <- rd (1 + Z.log2 mx) ;;
    if mx <? i then Ret (E_PAIR, old)
    else match find1 (Z.to_nat (nch - 1)) 1 0 i with
         | Some p => Ret (0, p)
         | None => Ret (0, old)
         end.

(** default_val: DEFAULT_ALPHA 0 or DEFAULT_BETA 48, impeghd_multichannel.c:397. *)
Definition dflt (ty : Z) : Z := if ty =? 0 then 0 else 48.

(** The previous coefficients of a box set to the default,
    impeghd_multichannel.c:400-410, 420-427, 450-458. *)
Definition clear_prev (d : Z) (b : box) : box :=
  mkBox (x_long b) (x_c0 b) (x_c1 b) (repeat d 64) d (x_dt b) (x_dir b) (x_coef b) (x_nb b)
        (x_mask b) (x_mf b) (x_bw b) (x_ff b).

(** [last - index + 60] in WORD32 arithmetic, impeghd_multichannel.c:540-545, 583-588. *)
Definition dec_alpha (last idx : Z) : prog Z := d <- addi last (- idx) ;; addi d 60.

(** One new coefficient of a full-band box, impeghd_multichannel.c:536-555. *)
Definition new_full (hf : list (Z * Z) -> prog Z) (ty last : Z) : prog Z :=
  if ty =? 0 then idx <- hf tab_scf ;; dec_alpha last idx
  else
    idx <- hf tab_angle ;;
    v <- addi last idx ;;
    Ret (if 65 <=? v then v - 65 else v).

(** One new coefficient of a band, impeghd_multichannel.c:581-604. *)
Definition new_band (hf : list (Z * Z) -> prog Z) (ty last : Z) : prog Z :=
  if ty =? 0 then idx <- hf tab_scf ;; dec_alpha last idx
  else
    idx <- hf tab_angle ;;
    v <- addi last idx ;;
    let v := if 65 <=? v then v mod 65 else v in
    Ret (if v <? 0 then 0 else v).

(** Full-band coefficients, impeghd_multichannel.c:530-566: the value is stored for every
    band, and as the previous value of the band of the window. *)
Definition full_step (ty bpw nv : Z) (mask : list Z) (i : nat) (cs : list Z * list Z)
  : prog (list Z * list Z) :=
  let band := Z.of_nat i in
  let '(co, sp) := cs in
  co <- aset co band nv ;;
  if bpw =? 0 then Ret (co, sp)
  else
    m <- aget mask band ;;
    sp <- aset sp (band mod bpw) (if 0 <? m then nv else dflt ty) ;;
    Ret (co, sp).

Definition full_band (hf : list (Z * Z) -> prog Z) (ty dt bpw : Z) (b : box) : prog box :=
  nv <- new_full hf ty (if 0 <? dt then x_fprev b else dflt ty) ;;
  '(co, sp) <- forP (Z.to_nat (x_nb b)) 0 (full_step ty bpw nv (x_mask b))
                    (x_coef b, x_sprev b) ;;
  Ret (mkBox (x_long b) (x_c0 b) (x_c1 b) sp nv (x_dt b) (x_dir b) co (x_nb b) (x_mask b)
             (x_mf b) (x_bw b) (x_ff b)).

(** Band-wise coefficients, impeghd_multichannel.c:567-619; the loop carries last_val
    (initially 0, line 440), pair_coeffq_sfb and pair_coeffq_sfb_prev. *)
Definition band_step (hf : list (Z * Z) -> prog Z) (ty dt bpw : Z) (mask : list Z)
    (i : nat) (cs : Z * list Z * list Z) : prog (Z * list Z * list Z) :=
  let band := Z.of_nat i in
  let '(last, co, sp) := cs in
  last <- (if bpw =? 0 then Ret last
           else if 0 <? dt then aget sp (band mod bpw)
           else if band mod bpw =? 0 then Ret (dflt ty)
           else Ret last) ;;
  m <- aget mask band ;;
  if 0 <? m then
    nv <- new_band hf ty last ;;
    co <- aset co band nv ;;
    sp <- (if bpw =? 0 then Ret sp else aset sp (band mod bpw) nv) ;;
    Ret (nv, co, sp)
  else
    sp <- (if bpw =? 0 then Ret sp else aset sp (band mod bpw) (dflt ty)) ;;
    Ret (last, co, sp).

Definition band_wise (hf : list (Z * Z) -> prog Z) (ty dt bpw : Z) (b : box) : prog box :=
  '(last, co, sp) <- forP (Z.to_nat (x_nb b)) 0 (band_step hf ty dt bpw (x_mask b))
                          (0, x_coef b, x_sprev b) ;;
  Ret (mkBox (x_long b) (x_c0 b) (x_c1 b) sp (dflt ty) (x_dt b) (x_dir b) co (x_nb b)
             (x_mask b) (x_mf b) (x_bw b) (x_ff b)).

(** signal types between which delta coding in time is refused,
    impeghd_multichannel.c:505-514; a signal type is 0 or 1 here (one bit is read). *)
Definition type_change (p t : Z) : bool :=
  ((p =? 0) && (t =? 1)) || ((p =? 0) && (t =? 3)) || ((p =? 1) && (t =? 2)) ||
  ((p =? 1) && (t =? 0)) || ((p =? 2) && (t =? 3)) || ((p =? 2) && (t =? 1)) ||
  ((p =? 3) && (t =? 0)) || ((p =? 3) && (t =? 2)).

(** The masks of a box, impeghd_multichannel.c:483-496. *)
Definition mc_masks (mf nb : Z) (mask : list Z) : prog (list Z) :=
  forP (Z.to_nat nb) 0 (fun i l =>
    v <- (if mf =? 0 then Ret 1 else rd 1) ;; aset l (Z.of_nat i) v) mask.

(** The coefficients of a box from the bands per window on,
    impeghd_multichannel.c:518-624. *)
Definition mc_coefs (hf : list (Z * Z) -> prog Z) (ty : Z) (b : box) : prog box :=
  let bpw := if x_long b =? 0 then x_nb b / 8 else x_nb b in
  b <- (if x_bw b =? 0 then full_band hf ty (x_dt b) bpw b
        else band_wise hf ty (x_dt b) bpw b) ;;
  sp <- forP (Z.to_nat (64 - bpw)) (Z.to_nat bpw) (fun i l =>
          aset l (Z.of_nat i) (dflt ty)) (x_sprev b) ;;
  Ret (mkBox (x_long b) (x_c0 b) (x_c1 b) sp (x_fprev b) (x_dt b) (x_dir b) (x_coef b)
             (x_nb b) (x_mask b) (x_mf b) (x_bw b) (x_ff b)).

(** One iteration of the loop over the boxes, impeghd_multichannel.c:429-626; [sfb] gives
    islong of ptr_sfb_info (None: a null pointer). *)
Definition mc_box (hf : list (Z * Z) -> prog Z) (indep : Z) (sfb : list (option Z)) (st : mct)
    (b : box) : prog (Z * box) :=
  let ty := t_type st in
  ff <- (if t_fill st =? 0 then Ret 0 else rd 1) ;;
  let b := mkBox (x_long b) (x_c0 b) (x_c1 b) (x_sprev b) (x_fprev b) (x_dt b) (x_dir b)
                 (x_coef b) (x_nb b) (x_mask b) (x_mf b) (x_bw b) ff in
  '(e, (c0, c1)) <- (if t_keep st =? 0 then mc_pair (t_nch st) (x_c0 b, x_c1 b)
                     else Ret (0, (x_c0 b, x_c1 b))) ;;
  let b := mkBox (x_long b) c0 c1 (x_sprev b) (x_fprev b) (x_dt b) (x_dir b)
                 (x_coef b) (x_nb b) (x_mask b) (x_mf b) (x_bw b) (x_ff b) in
  if negb (e =? 0) then Ret (e, b)
  else
    cm <- aget (t_cmap st) (t_start st + c0) ;;
    si <- aget sfb cm ;;
    match si with
    | None => Ret (E_MCT, b)
    | Some islong =>
      let b := if Bool.eqb (x_long b =? 0) (islong =? 0) then b else clear_prev (dflt ty) b in
      mf <- rd 1 ;;
      bw <- rd 1 ;;
      nb <- (if (bw =? 0) && (mf =? 0) then Ret 64
             else sh <- rd 1 ;; n <- rd 5 ;; Ret (if sh =? 0 then n else n * 8)) ;;
      let b := mkBox islong (x_c0 b) (x_c1 b) (x_sprev b) (x_fprev b) (x_dt b) (x_dir b)
                     (x_coef b) nb (x_mask b) mf bw (x_ff b) in
      if 64 <? nb then Ret (E_BANDS, b)
      else
        mask <- mc_masks mf nb (x_mask b) ;;
        dir <- (if ty =? 0 then rd 1 else Ret 0) ;;
        dt <- (if 0 <? indep then Ret 0 else rd 1) ;;
        let b := mkBox (x_long b) (x_c0 b) (x_c1 b) (x_sprev b) (x_fprev b) dt dir
                       (x_coef b) (x_nb b) mask (x_mf b) (x_bw b) (x_ff b) in
        if type_change (t_ptype st) ty && negb (dt =? 0) then Ret (E_DT, b)
        else
          b <- mc_coefs hf ty b ;;
          Ret (0, b)
    end.

(** The fields read before the boxes, impeghd_multichannel.c:395-427: stereo_filling,
    signal_type, keep_tree, the previous coefficients in an independent frame, num_pairs,
    the previous coefficients of the boxes that are not used. *)
Definition mc_head (indep : Z) (st : mct) : prog (Z * mct) :=
  fill <- rd 1 ;;
  ty <- rd 1 ;;
  keep <- (if 0 <? indep then Ret 0 else rd 1) ;;
  let d := dflt ty in
  let boxes := if 0 <? indep then map (clear_prev d) (t_boxes st) else t_boxes st in
  np <- (if keep =? 0 then read_escape 5 8 16 else Ret (t_np st)) ;;
  let st1 := mkMct fill ty (t_ptype st) keep np (t_start st) (t_cmask st) (t_cmap st)
                   (t_nch st) boxes in
  if 16 <? np then Ret (E_MCT, st1)
  else
    Ret (0, mkMct fill ty (t_ptype st) keep np (t_start st) (t_cmask st) (t_cmap st) (t_nch st)
                  (firstn (Z.to_nat np) boxes ++
                   map (clear_prev d) (skipn (Z.to_nat np) boxes))).

Definition set_boxes (st : mct) (bs : list box) : mct :=
  mkMct (t_fill st) (t_type st) (t_ptype st) (t_keep st) (t_np st) (t_start st) (t_cmask st)
        (t_cmap st) (t_nch st) bs.

(** The loop over the boxes, impeghd_multichannel.c:429-626. *)
Definition mc_boxes (hf : list (Z * Z) -> prog Z) (indep : Z) (sfb : list (option Z)) (n : nat)
    (st : mct) : prog (Z * list box) :=
  forE n 0 (fun i bs =>
    b <- aget bs (Z.of_nat i) ;;
    '(e, b) <- mc_box hf indep sfb st b ;;
    bs <- aset bs (Z.of_nat i) b ;;
    Ret (e, bs)) (t_boxes st).

(** code_pairs of the unused boxes, impeghd_multichannel.c:627-630. *)
Definition no_pair (b : box) : box :=
  mkBox (x_long b) 0 0 (x_sprev b) (x_fprev b) (x_dt b) (x_dir b) (x_coef b) (x_nb b)
        (x_mask b) (x_mf b) (x_bw b) (x_ff b).

(** impeghd_mc_parse, impeghd_multichannel.c:385-634, on a reader over the payload; [hf] is
    the Huffman decoder ([huff] in the decoder; Lem_MctSafe also runs the parser with one
    that stops at the end of the payload). *)
Definition mc_parse_with (hf : list (Z * Z) -> prog Z) (indep : Z) (sfb : list (option Z))
    (st : mct) : prog (Z * mct) :=
  '(e, st) <- mc_head indep st ;;
  if negb (e =? 0) then Ret (e, st)
  else
    '(e, bs) <- mc_boxes hf indep sfb (Z.to_nat (t_np st)) st ;;
    if negb (e =? 0) then Ret (e, set_boxes st bs)
    else
      let n := Z.to_nat (t_np st) in
      Ret (0, mkMct (t_fill st) (t_type st) (t_type st) (t_keep st) (t_np st) (t_start st)
                    (t_cmask st) (t_cmap st) (t_nch st)
                    (firstn n bs ++ map no_pair (skipn n bs))).

Definition mc_parse := mc_parse_with huff.
