(** * CoreChan: the header of a channel coded in the frequency domain

    Model of ia_core_coder_fd_channel_stream, /repo/decoder/ia_core_coder_spectrum_dec.c:578-832,
    up to the spectral data (758).  Simplified: intelligent gap filling is not active for the
    element (690-712 are left out); the structures the channel's pointers name exist; what
    651-669 compute only decides the code books (see CoreScf). *)

From Coq Require Import ZArith List Bool.
From Verif Require Import Bits BitBuf Prog Config CoreIcs CoreSte CorePair CoreScf.
Import ListNotations.
Open Scope Z_scope.

(** IA_MPEGH_DEC_EXE_FATAL_DECODE_FRAME_ERROR, impeghd_error_codes.h. *)
Definition E_FRAME : Z := 0xFFFF9816.

(** What the decoder keeps of a channel: window, groups of short windows, postfilter,
    prev_aliasing_symmetry, curr_aliasing_symmetry, factors, TNS data. *)
Record cst := mkCst { k_w : wst; k_si : sinfo; k_lt : ltpf; k_pa : Z; k_ca : Z; k_fac : list Z; k_t : tns }.

(** And what it hands to the reader of the spectral data: global_gain, noise_level,
    igf_stereo_filling, max_spec_coefficients, fdp_spacing_idx, arith_reset_flag. *)
Record chd := mkChd { d_gain : Z; d_noise : Z; d_fill : Z; d_spec : Z; d_fdp : Z; d_reset : Z }.

(** 607-649: gain, noise level, window; [nf] is noise_filling, [cw] common_window, [second]
    tells ch is not 0. *)
Definition chan_window (nl : Z) (ws : list Z) (nf cw : Z) (second : bool) (prev : Z) (w : wst) (si : sinfo)
  : prog (Z * (Z * Z * Z * wst * sinfo)) :=
  gain <- rd 8 ;;
  lev <- (if nf =? 0 then Ret 0 else rd 8) ;;
  let low := (0 <? lev) && (lev <? 32) in
  if negb (cw =? 0) then
    if second then Ret (0, (gain, if low then Z.shiftl lev 3 else lev, if low then 1 else 0, w, si))
    else Ret (0, (gain, if low && ((w_seq w =? 4) || (w_seq w =? 1)) then Z.shiftl lev 3 else lev, 0, w, si))
  else
    '(e, (w, si)) <- ics_info nl ws prev w si ;;
    if negb (e =? 0) then Ret (e, (gain, lev, 0, w, si))
    else Ret (0, (gain, if low && ((w_seq w =? 4) || (w_seq w =? 1)) then Z.shiftl lev 3 else lev, 0, w, si)).

(** 677-684: [ltbl] is sfb_idx_tbl of long windows, whose group_len[0] is 1. *)
Definition chan_spec (ltbl : list Z) (w : wst) (si : sinfo) : prog Z :=
  if 0 <? w_max w then
    if islong (w_seq w) then aget ltbl (w_max w - 1)
    else
      t <- aget (g_tbl si) (w_max w - 1) ;;
      n <- aget (g_len si) 0 ;;
      if n =? 0 then Undef UDiv else Ret (Z.quot t n)
  else Ret 0.

(** 686-719: postfilter, frequency-domain prediction, aliasing symmetry; [cl] is common_ltpf. *)
Definition chan_tools (indep base3b cl : Z) (long : bool) (lt : ltpf) (ca : Z) : prog (Z * (ltpf * Z * Z * Z)) :=
  '(e, lt) <- (if negb (cl =? 0) then Ret (0, lt)
    else
      on <- rd 1 ;;
      if on =? 0 then Ret (0, mkLt on (lt_lag lt) (lt_gain lt))
      else if base3b =? 1 then Ret (E_PROFILE, mkLt on (lt_lag lt) (lt_gain lt))
      else lag <- rd 9 ;; gain <- rd 2 ;; Ret (0, mkLt on lag gain)) ;;
  if negb (e =? 0) then Ret (e, (lt, -1, 0, ca))
  else
    '(e, fdp) <- (if long && (indep =? 0) then
        on <- rd 1 ;;
        if on =? 0 then Ret (0, -1)
        else if base3b =? 1 then Ret (E_PROFILE, -1)
        else v <- rd 8 ;; Ret (0, v)
      else Ret (0, -1)) ;;
    if negb (e =? 0) then Ret (e, (lt, fdp, 0, ca))
    else
      pa <- (if indep =? 0 then Ret ca else rd 1) ;;
      ca <- rd 1 ;;
      Ret (0, (lt, fdp, pa, ca)).

(** 733-741: no filters in any window. *)
Definition tns_none (nw : nat) (t : tns) : prog tns :=
  ws <- forP nw 0 (fun i l => w <- aget l (Z.of_nat i) ;; aset l (Z.of_nat i) (mkTw 0 (t_res w) (t_filt w))) (t_win t) ;;
  Ret (mkTns (Z.of_nat nw) ws).

(** 733-751; [tp] is tns_data_present. *)
Definition chan_tail (indep nl ns tp : Z) (long : bool) (t : tns) : prog (Z * (tns * Z)) :=
  '(e, t) <- (if tp =? 0 then t <- tns_none (if long then 1%nat else 8%nat) t ;; Ret (0, t)
              else if tp =? 1 then read_tns nl ns (Some long) t
              else Ret (0, t)) ;;
  if negb (e =? 0) then Ret (e, (t, 0))
  else r <- (if indep =? 0 then rd 1 else Ret 1) ;; Ret (0, (t, r)).

(** 671-675: less than four bytes to go; [full] tells size is max_size, the size of the input
    buffer (ia_core_coder_decode_main.c:1872, 2429): the frame fills all of it. *)
Definition chan_near_end (full : bool) (d : rbuf) : bool :=
  (Z.of_nat (length (r_data d)) - 1 - 3 <? r_ptr d) && full.

(** 578-757. *)
Definition chan_head (indep base3b nl : Z) (ws ltbl : list Z) (full : bool) (nf cw cl tp : Z) (second : bool) (prev : Z)
    (s : cst) (d : rbuf) : outcome (Z * (cst * chd) * rbuf) :=
  olet (e, (gain, lev, fill, w, si), d) := exec (chan_window nl ws nf cw second prev (k_w s) (k_si s)) d in
  let out s h := (s, mkChd gain lev fill (d_spec h) (d_fdp h) (d_reset h)) in
  let s := mkCst w si (k_lt s) (k_pa s) (k_ca s) (k_fac s) (k_t s) in
  let none := mkChd 0 0 0 0 (-1) 0 in
  if negb (e =? 0) then Done (e, out s none, d)
  else if chan_near_end full d then Done (E_FRAME, out s none, d)
  else
    let long := islong (w_seq w) in
    let nsb := if long then nl else Z.of_nat (length ws) in
    olet (sp, d) := exec (chan_spec ltbl w si) d in
    olet (e, (lt, fdp, pa, ca), d) := exec (chan_tools indep base3b cl long (k_lt s) (k_ca s)) d in
    if negb (e =? 0) then Done (e, out (mkCst w si lt (k_pa s) (k_ca s) (k_fac s) (k_t s)) none, d)
    else
      olet (e, fac, d) := section_data long (if long then 1 else 8) (Z.to_nat nsb) (Z.to_nat (w_max w)) (w_gd w) gain (k_fac s) d in
      if negb (e =? 0) then Done (e, out (mkCst w si lt pa ca fac (k_t s)) none, d)
      else
        olet (e, (t, r), d) := exec (chan_tail indep nl (Z.of_nat (length ws)) tp long (k_t s)) d in
        Done (e, out (mkCst w si lt pa ca fac t) (mkChd 0 0 0 sp fdp r), d).
