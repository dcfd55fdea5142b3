(** * Hoa: HOA configuration and HOA rendering matrix parsing

    Models decoder/impeghd_hoa_config.c:72-280 and decoder/impeghd_hoa_matrix.c:77-600.
    Decoded gains are kept as exact numbers of dB (a numerator over a power of two); the
    FLOAT32 exponentials, the sign/scale multiplication and the normalisation of
    matrix.c:269-317 are not modelled.  On an error the C code leaves partly updated
    structures behind; the model returns only the error code. *)

From Coq Require Import ZArith List Lia Bool.
From Verif Require Import Bits BitBuf Prog Asi Escape Cicp.
Import ListNotations.
Open Scope Z_scope.

(** impeghd_error_codes.h:84-95, 186-204, 157 *)
Definition E_HOA_ORDER := 0x1201.
Definition E_HOA_FRAME := 0x1203.
Definition E_HOA_SUBBAND := 0x1206.
Definition E_HOA_RENDER_MATRIX := 0xFFFF9201.
Definition E_HOA_RENDER := 0xFFFF9202.
Definition E_HOA_FLI := 0xFFFF9203.
Definition E_HOA_MIN_AMB := 0xFFFF9207.
Definition E_HOA_VEC_LEN := 0xFFFF9208.
Definition E_HOA_VQ_BITS := 0xFFFF920A.
Definition E_HOA_SPARSE := 0xFFFF9210.
Definition E_HOA_LC := 0xFFFF9212.
Definition E_CICP_LAYOUT := 0xFFFF9016.

(** impeghd_hoa_get_ceil_log2, impeghd_hoa_common_functions.c:290-299.  The loop shifts a
    WORD32; 31 rounds cover every argument up to 2^30 (a larger one would overflow the
    shift; all callers pass at most a few hundred). *)
Fixpoint clog_loop (fuel : nat) (c inp : Z) : Z :=
  match fuel with
  | O => c
  | S f => if 2 ^ c <? inp then clog_loop f (c + 1) inp else c
  end.
Definition clog2 (inp : Z) : Z := clog_loop 31 0 inp.

(** ia_hoa_config_struct, ia_core_coder_config.h:153-200 (without the matrix). *)
Record hoac := mkHoa {
  h_ntc : Z;      (* num_transport_ch *)
  h_ccfl : Z;     (* core_coder_frame_length *)
  h_order : Z; h_coef : Z; h_screen : Z; h_nfc : Z; h_ref : list Z;
  h_minamb : Z; h_minco : Z; h_addl : Z;
  h_single : Z; h_cit : Z; h_sim : Z; h_cvv : Z; h_mgc : Z; h_fli : Z;
  h_maxord : Z; h_dob : Z; h_do : Z; h_maxco : Z; h_maxadd : Z;
  h_vqb : Z; h_nvv : Z; h_psd : Z; h_pds : Z; h_bps : Z; h_psi : Z; h_pst : Z;
  h_fl : Z; h_sit : Z;
  h_aab : Z;      (* amb_asign_m_bits *)
  h_apb : Z;      (* active_pred_ids_bits *)
  h_napb : Z;     (* num_active_pred_ids_bits *)
  h_gcb : Z;      (* gain_corr_prev_amp_exp_bits *)
  h_off : Z; h_vvl : Z; h_il : Z }.

(** The 3-bit value extended by 5 bits, hoa_config.c:100-104 and 134-138. *)
Definition hoa_esc : prog Z :=
  v <- rd 3 ;; if v =? 7 then w <- rd 5 ;; Ret (v + w) else Ret v.

(** ia_hoa_spat_interp_time_code_table, impeghd_hoa_rom.c:940. *)
Definition spat_tbl : list Z := [0; 64; 128; 256; 384; 512; 768; 1024].

(** The search loop of hoa_config.c:258-262, i.e. the first i with
    i * bits + ceil_log2 i >= num_coeffs. *)
Fixpoint pred_ids (fuel : nat) (i bits n : Z) : prog Z :=
  match fuel with
  | O => Undef UFuel
  | S f => if i * bits + clog2 i <? n then pred_ids f (i + 1) bits n else Ret i
  end.

(** impeghd_fill_config with impeghd_hoa_v_vec_len_and_coeff_calc,
    hoa_config.c:72-87 and 98-280.  [floor(sqrt(n) - 1)] in double precision is exact for
    every 32-bit n and is written [Z.sqrt n - 1].  [(WORD32)(1.5f * n)] is [3n/2]. *)
Definition fill_config (h : hoac) : prog (res hoac) :=
  order <- hoa_esc ;;
  if 6 <? order then Ret (Er E_HOA_ORDER) else
  let coef := (order + 1) * (order + 1) in
  screen <- rd 1 ;;
  nfc <- rd 1 ;;
  ref <- (if nfc =? 0 then Ret [0; 0; 0; 0]
          else a <- rd 8 ;; b <- rd 8 ;; c <- rd 8 ;; d <- rd 8 ;; Ret [a; b; c; d]) ;;
  v <- hoa_esc ;;
  let minamb := v - 1 in
  if Z.min (Z.sqrt (h_ntc h) - 1) order <? minamb then Ret (Er E_HOA_MIN_AMB) else
  let minco := (minamb + 1) * (minamb + 1) in
  let addl := Z.max 0 (h_ntc h - minco) in
  single <- rd 1 ;;
  cit <- rd 3 ;;
  sim <- rd 1 ;;
  cvv <- rd 2 ;;
  if 3 <=? cvv then Ret (Er E_HOA_VEC_LEN) else
  mgc <- rd 3 ;;
  fli <- rd 2 ;;
  if 3 <=? fli then Ret (Er E_HOA_FLI) else
  if negb (h_ccfl h =? 1024) then Ret (Er E_HOA_FRAME) else
  sit <- aget spat_tbl cit ;;
  ' (dob, dord, maxord) <-
    (if order <=? minamb then Ret (h_dob h, h_do h, order)
     else let dob := clog2 (order - minamb + 1) in
          d <- rd dob ;; Ret (dob, d, d + minamb)) ;;
  let maxco := (maxord + 1) * (maxord + 1) in
  let maxadd := maxco - minco in
  if maxadd <? 0 then Ret (Er E_HOA_RENDER_MATRIX) else
  let vqb := clog2 (clog2 (coef + 1)) in
  nvv <- rd vqb ;;
  if 7 <? nvv then Ret (Er E_HOA_VQ_BITS) else
  psd <- (if minamb =? 1 then rd 1 else Ret (h_psd h)) ;;
  if (minamb =? 1) && negb (psd =? 0) then Ret (Er E_HOA_LC) else
  pds <- rd 2 ;;
  bps <- rd 4 ;;
  psi <- rd 2 ;;
  if 0 <? psi then Ret (Er E_HOA_SUBBAND) else
  pst <- rd 2 ;;
  if 0 <? pst then Ret (Er E_HOA_SUBBAND) else
  let aab := clog2 maxadd in
  let apb := clog2 coef in
  i <- pred_ids 64 1 apb coef ;;
  let napb := clog2 (if i - 1 <? 1 then 1 else i - 1) in
  let gcb := clog2 (clog2 (3 * coef / 2) + mgc + 1) in
  let off := if (cvv =? 1) || (cvv =? 2) then (minamb + 1) * (minamb + 1) + 1 else 1 in
  Ret (Ok (mkHoa (h_ntc h) (h_ccfl h) order coef screen nfc ref minamb minco addl single cit
             sim cvv mgc fli maxord dob dord maxco maxadd vqb nvv psd (pds + 1) (bps + 1) psi
             pst 1024 sit aab apb napb gcb off (coef - off + 1) (clog2 coef))).

(** ** Rendering matrix *)

(** impeghd_read_range, hoa_matrix.c:77-98.  The loop computes floor(log2 n), 0 for
    n <= 1. *)
Definition read_range (n : Z) : prog Z :=
  let nb := Z.log2 n in
  let unused := 2 ^ (nb + 1) - n in
  v <- rd nb ;;
  if unused <=? v then t <- rd 1 ;; Ret (2 * v - unused + t) else Ret v.

(** Speaker pair types, impeghd_hoa_common_values.h:57-60. *)
Definition P_CENTER := 0.  Definition P_SYMMETRIC := 1.
Definition P_SINGLE := 2.  Definition P_NONE := 3.

Definition upd {A} (l : list A) (i : nat) (v : A) : list A :=
  if Nat.ltb i (length l) then firstn i l ++ v :: skipn (S i) l else l.

Definition spk := (Z * Z * Z)%type.  (* azimuth, elevation, LFE flag *)
Definition s_az (s : spk) := fst (fst s).
Definition s_el (s : spk) := snd (fst s).
Definition s_lfe (s : spk) := snd s.
Definition spk0 : spk := (0, 0, 0).

(** impeghd_find_symmetric_speakers, hoa_matrix.c:111-182: for every speaker its pair type
    and its pair, and the number of pairs.  [is_lfe & !has_lfe_rendering] is 1 exactly for
    an LFE without LFE rendering. *)
Record symst := mkSy { sy_used : list bool; sy_pair : list (Z * option nat); sy_n : Z }.

Definition sym_step (spks : list spk) (lfer : Z) (st : symst) (i : nat) : symst :=
  if nth i (sy_used st) false then st else
  let si := nth i spks spk0 in
  if (s_az si =? 0) || (Z.abs (s_az si) =? 180) then
    mkSy (upd (sy_used st) i true) (upd (sy_pair st) i (P_CENTER, None)) (sy_n st)
  else
    let match_ j :=
      let sj := nth j spks spk0 in
      negb (nth j (sy_used st) false) && (s_az si =? - s_az sj) && (s_el si =? s_el sj)
      && (s_lfe si =? s_lfe sj) in
    match find match_ (seq (S i) (length spks - S i)) with
    | Some j =>
      mkSy (upd (upd (sy_used st) j true) i true)
           (upd (upd (sy_pair st) i (P_SYMMETRIC, Some j)) j (P_NONE, None))
           (if (s_lfe si =? 0) || negb (lfer =? 0) then sy_n st + 1 else sy_n st)
    | None => mkSy (upd (sy_used st) i true) (upd (sy_pair st) i (P_SINGLE, None)) (sy_n st)
    end.

Definition find_symmetric (spks : list spk) (lfer : Z) : list (Z * option nat) * Z :=
  let n := length spks in
  let st := fold_left (sym_step spks lfer) (seq 0 n)
              (mkSy (repeat false n) (repeat (P_CENTER, None) n) 0) in
  (sy_pair st, sy_n st).

(** A decoded gain: zero, or num / 2^prec dB. *)
Inductive hgain := GZ | GdB (num prec : Z).
Definition gain_nz (g : hgain) : bool := match g with GZ => false | GdB _ _ => true end.

(** ia_hoa_matrix_struct, impeghd_hoa_matrix_struct.h:37-67, with the matrix itself
    (ia_core_coder_config.h:195, 64*24 entries) in [m_mat], its signs in [m_sgn], and
    matrix_present / matrix_index. *)
Record hmat := mkHM {
  m_num : Z; m_ids : list Z; m_lay : Z; m_len : Z;
  m_prec : Z; m_norm : Z; m_glp : Z; m_max : list Z; m_min : list Z;
  m_full : Z; m_sparse : list Z; m_fso : Z; m_lfer : Z; m_zop : Z;
  m_allv : Z; m_anyv : Z; m_alls : Z; m_anys : Z;
  m_signp : list Z; m_valp : list Z; m_vert : Z;
  m_isv : list Z; m_iss : list Z;
  m_syms : list Z; m_vbm : list Z;
  m_mat : list hgain; m_sgn : list Z;
  m_present : Z; m_index : Z }.

(** Setting the first [n] entries (memset), bounded by the array. *)
Definition fill {A} (l : list A) (n : Z) (v : A) : prog (list A) :=
  forP (Z.to_nat n) 0 (fun i l => aset l (Z.of_nat i) v) l.

(** Per-pair flags spread over the speakers, hoa_matrix.c:207-220. *)
Definition spread_pairs (spks : list spk) (pairs : list (Z * option nat)) (lfer : Z)
  (valp signp isv iss : list Z) : prog (list Z * list Z * Z) :=
  forP (length spks) 0 (fun i '(isv, iss, j) =>
    let pr := nth i pairs (P_CENTER, None) in
    match snd pr with
    | Some _ =>
      if (fst pr =? P_SYMMETRIC)
         && negb ((lfer =? 0) && negb (s_lfe (nth i spks spk0) =? 0)) then
        v <- aget valp j ;; isv' <- aset isv (Z.of_nat i) v ;;
        s <- aget signp j ;; iss' <- aset iss (Z.of_nat i) s ;;
        Ret (isv', iss', j + 1)
      else Ret (isv, iss, j)
    | None => Ret (isv, iss, j)
    end) (isv, iss, 0).

(** ia_hoa_curr_order, impeghd_hoa_rom.c:933-935: the order of coefficient i. *)
Definition hoa_order_tbl : list Z := map (fun i => Z.sqrt (Z.of_nat i)) (seq 0 49).

(** One matrix entry, hoa_matrix.c:226-296 (inner loop body). *)
Definition matrix_cell (m : hmat) (spks : list spk) (pairs : list (Z * option nat))
  (out : Z) (i j : Z) (ms : list hgain * list Z) : prog (list hgain * list Z) :=
  let (mat0, sgn0) := ms in
  let k := i * out + j in
  let pi := match snd (nth (Z.to_nat j) pairs (P_CENTER, None)) with
            | Some q => Z.of_nat q | None => 0 end in
  let lfe := s_lfe (nth (Z.to_nat j) spks spk0) in
  o <- aget hoa_order_tbl i ;;
  mat1 <- aset mat0 k GZ ;;
  sgn1 <- aset sgn0 k 1 ;;
  vb <- aget (m_vbm m) i ;;
  if negb (vb =? 0) && (m_vert m =? 0) then Ret (mat1, sgn1) else
  iv <- aget (m_isv m) j ;;
  if negb (iv =? 0) then
    g <- aget mat1 (i * out + pi) ;;
    mat2 <- aset mat1 k g ;;
    ss <- aget (m_syms m) i ;;
    sg <- aget sgn1 (i * out + pi) ;;
    sgn2 <- aset sgn1 k (ss * sg) ;;
    Ret (mat2, sgn2)
  else if negb (lfe =? 0) && (m_lfer m =? 0) then Ret (mat1, sgn1) else
  sp <- aget (m_sparse m) i ;;
  hv <- (if negb (sp =? 0) then rd 1 else Ret 1) ;;
  if hv =? 0 then Ret (mat1, sgn1) else
  mx <- aget (m_max m) o ;;
  mn <- aget (m_min m) o ;;
  let lim := (mx - mn) * 2 ^ m_prec m in
  idx <- read_range (lim + 2) ;;
  let g := if idx <=? lim then GdB (mx * 2 ^ m_prec m - idx) (m_prec m) else GZ in
  mat2 <- aset mat1 k g ;;
  is <- aget (m_iss m) j ;;
  if negb (is =? 0) then
    ss <- aget (m_syms m) i ;;
    sg <- aget sgn1 (i * out + pi) ;;
    sgn2 <- aset sgn1 k (ss * sg) ;;
    Ret (mat2, sgn2)
  else if gain_nz g && (negb (o =? 0) || (m_zop m =? 0)) then
    sv <- rd 1 ;;
    sgn2 <- aset sgn1 k (sv * 2 - 1) ;;
    Ret (mat2, sgn2)
  else Ret (mat2, sgn1).

(** impegh_decode_hoa_matrix_data, hoa_matrix.c:198-267.  The inner loop runs from the
    last output channel down to 0. *)
Definition matrix_data (m : hmat) (spks : list spk) (pairs : list (Z * option nat)) (n : Z)
  : prog hmat :=
  let out := Z.of_nat (length spks) in
  isv0 <- fill (m_isv m) out 0 ;;
  iss0 <- fill (m_iss m) out 0 ;;
  ' (isv, iss, _) <- spread_pairs spks pairs (m_lfer m) (m_valp m) (m_signp m) isv0 iss0 ;;
  let m1 := mkHM (m_num m) (m_ids m) (m_lay m) (m_len m) (m_prec m) (m_norm m) (m_glp m)
    (m_max m) (m_min m) (m_full m) (m_sparse m) (m_fso m) (m_lfer m) (m_zop m) (m_allv m)
    (m_anyv m) (m_alls m) (m_anys m) (m_signp m) (m_valp m) (m_vert m) isv iss (m_syms m)
    (m_vbm m) (m_mat m) (m_sgn m) (m_present m) (m_index m) in
  ' (mat, sgn) <-
    forP (Z.to_nat n) 0 (fun i ms =>
      forP (length spks) 0 (fun jj ms =>
        matrix_cell m1 spks pairs out (Z.of_nat i) (out - 1 - Z.of_nat jj) ms) ms)
      (m_mat m, m_sgn m) ;;
  Ret (mkHM (m_num m) (m_ids m) (m_lay m) (m_len m) (m_prec m) (m_norm m) (m_glp m)
    (m_max m) (m_min m) (m_full m) (m_sparse m) (m_fso m) (m_lfer m) (m_zop m) (m_allv m)
    (m_anyv m) (m_alls m) (m_anys m) (m_signp m) (m_valp m) (m_vert m) isv iss (m_syms m)
    (m_vbm m) mat sgn (m_present m) (m_index m)).

(** Gain limits, hoa_matrix.c:361-387. *)
Definition gain_pair : prog (Z * Z) :=
  v <- read_escape 3 5 6 ;;
  w <- read_escape 4 5 6 ;;
  let mx := - v in
  Ret (mx, - (w + 1 - mx)).

Definition gain_limits (glp maxord : Z) (mx mn : list Z) : prog (list Z * list Z) :=
  if negb (glp =? 1) then
    ' (a, b) <- gain_pair ;;
    mx1 <- aset mx 0 a ;;
    mn1 <- aset mn 0 b ;;
    forP (Z.to_nat (maxord + 1)) 0 (fun i '(mx, mn) =>
      mx' <- aset mx (Z.of_nat i) a ;; mn' <- aset mn (Z.of_nat i) b ;; Ret (mx', mn'))
      (mx1, mn1)
  else
    forP (Z.to_nat (maxord + 1)) 0 (fun i '(mx, mn) =>
      ' (a, b) <- gain_pair ;;
      mx' <- aset mx (Z.of_nat i) a ;; mn' <- aset mn (Z.of_nat i) b ;; Ret (mx', mn'))
      (mx, mn).

(** Symmetry flags per pair, hoa_matrix.c:431-490. *)
Definition rd_flags (np : Z) (l : list Z) : prog (list Z) :=
  forP (Z.to_nat np) 0 (fun i l => b <- rd 1 ;; aset l (Z.of_nat i) b) l.

(** (zeros allowed, all_v, any_v, all_s, value pairs, sign pairs); the flags that are not read keep
    their old values. *)
Definition pair_flags (m : hmat) (np : Z)
  : prog (Z * Z * Z * Z * list Z * list Z) :=
  signp0 <- fill (m_signp m) np 0 ;;
  valp0 <- fill (m_valp m) np 0 ;;
  zop <- rd 1 ;;
  allv <- rd 1 ;;
  if negb (allv =? 0) then
    valp <- fill valp0 np 1 ;;
    Ret (zop, allv, m_anyv m, m_alls m, valp, signp0)
  else
  anyv <- rd 1 ;;
  if anyv =? 0 then
    alls <- rd 1 ;;
    signp <-
      (if alls =? 0 then
         anys <- rd 1 ;;
         if negb (anys =? 0) then rd_flags np signp0 else Ret signp0
       else fill signp0 np 1) ;;
    Ret (zop, allv, anyv, alls, valp0, signp)
  else
    valp <- rd_flags np valp0 ;;
    anys <- rd 1 ;;
    signp <-
      (if negb (anys =? 0) then
         forP (Z.to_nat np) 0 (fun i l =>
           v <- aget valp (Z.of_nat i) ;;
           if v =? 0 then b <- rd 1 ;; aset l (Z.of_nat i) b else Ret l) signp0
       else Ret signp0) ;;
    Ret (zop, allv, anyv, m_alls m, valp, signp).

(** impeghd_hoa_rendering_matrix, hoa_matrix.c:334-495.  The double loop over order and
    degree (342-350) visits coefficient k = n*n + n + m in increasing order. *)
Definition rendering_matrix (m : hmat) (n : Z) (spks : list spk) : prog (res hmat) :=
  let maxord := Z.sqrt n - 1 in
  ' (syms, vbm) <-
    forP (Z.to_nat ((maxord + 1) * (maxord + 1))) 0 (fun k '(sy, vb) =>
      let kz := Z.of_nat k in
      let o := Z.sqrt kz in
      let d := kz - o * o - o in
      sy' <- aset sy kz (if 0 <=? d then 1 else -1) ;;
      vb' <- aset vb kz (if Z.abs d =? o then 0 else 1) ;;
      Ret (sy', vb')) (m_syms m, m_vbm m) ;;
  prec <- rd 2 ;;
  norm <- rd 1 ;;
  glp <- rd 1 ;;
  ' (mx, mn) <- gain_limits glp maxord (m_max m) (m_min m) ;;
  full <- rd 1 ;;
  r <- (if negb (full =? 0) then
          sp <- fill (m_sparse m) n 0 ;; Ret (Ok (sp, m_fso m))
        else
          fso <- rd (clog2 (maxord + 1)) ;;
          if u32 maxord <? fso then Ret (Er E_HOA_SPARSE) else
          sp0 <- fill (m_sparse m) (fso * fso) 0 ;;
          sp <- forP (Z.to_nat (n - fso * fso)) (Z.to_nat (fso * fso))
                  (fun i l => aset l (Z.of_nat i) 1) sp0 ;;
          Ret (Ok (sp, fso))) ;;
  match r with
  | Er e => Ret (Er e)
  | Ok (sparse, fso) =>
    lfer <- (if existsb (fun s => negb (s_lfe s =? 0)) spks then rd 1 else Ret 0) ;;
    let (pairs, np) := find_symmetric spks lfer in
    ' (zop, allv, anyv, alls, valp, signp) <- pair_flags m np ;;
    vert <- rd 1 ;;
    m' <- matrix_data
            (mkHM (m_num m) (m_ids m) (m_lay m) (m_len m) prec norm glp mx mn full sparse fso
               lfer zop allv anyv alls (m_anys m) signp valp vert (m_isv m) (m_iss m) syms vbm
               (m_mat m) (m_sgn m) (m_present m) (m_index m)) spks pairs n ;;
    Ret (Ok m')
  end.

(** impeghd_hoa_matrix with impeghd_hoa_matrix_wrapper, hoa_matrix.c:510-600. *)
Definition set_hdr (m : hmat) (num : Z) (ids : list Z) (lay len pres idx : Z) : hmat :=
  mkHM num ids lay len (m_prec m) (m_norm m) (m_glp m) (m_max m) (m_min m) (m_full m)
    (m_sparse m) (m_fso m) (m_lfer m) (m_zop m) (m_allv m) (m_anyv m) (m_alls m) (m_anys m)
    (m_signp m) (m_valp m) (m_vert m) (m_isv m) (m_iss m) (m_syms m) (m_vbm m) (m_mat m)
    (m_sgn m) pres idx.

Definition hoa_matrix_one (n cicp num : Z) (k : nat) (m : hmat) : prog (res hmat) :=
  id <- rd 7 ;;
  ids <- aset (m_ids m) (Z.of_nat k) id ;;
  lay <- rd 6 ;;
  if 20 <? lay then Ret (Er E_CICP_LAYOUT) else
  len <- read_escape 8 8 12 ;;
  if 21 <? cicp then Ret (Er E_HOA_RENDER) else
  if negb (u32 cicp =? lay) then
    skip len ;;; Ret (Ok (set_hdr m num ids lay len (m_present m) (m_index m)))
  else
    rendering_matrix (set_hdr m num ids lay len 1 (Z.of_nat k)) n (layout_spk lay).

Definition hoa_matrix (n cicp : Z) (m : hmat) : prog (res hmat) :=
  num <- rd 5 ;;
  forR (Z.to_nat num) 0 (hoa_matrix_one n cicp num) m.
