(** * CorePair: the header of a channel pair

    /repo/decoder/ia_core_coder_ext_ch_ele.c:1183-1388 (ia_core_coder_data), for a pair whose
    channels are both coded in the frequency domain, up to the data of the channels.
    Simplified: intelligent gap filling is not active for the element (see CoreSte). *)

From Coq Require Import ZArith List Bool.
From Verif Require Import Bits BitBuf Prog Config CoreIcs CoreSte.
Import ListNotations.
Open Scope Z_scope.

(** data_present, pitch_lag_idx, gain_idx, ia_core_coder_main.h:39-61. *)
Record ltpf := mkLt { lt_on : Z; lt_lag : Z; lt_gain : Z }.

(** Windows of the two channels (w_max of the right one is max_sfb[CORE_RIGHT]), the one
    structure with the groups of short windows, prediction data and mask of the left channel,
    TNS and postfilter data of both; then the frame's temporary structure: tns_active,
    common_window, common_max_sfb, max_sfb_ste, ms_mask_present[0], common_ltpf, common_tns,
    tns_on_lr, tns_present_both, tns_data_present. *)
Record pst := mkPst {
  p_wl : wst; p_wr : wst; p_si : sinfo; p_ste : ste; p_ms : list Z; p_tl : tns; p_tr : tns; p_ll : ltpf; p_lr : ltpf;
  h_ta : Z; h_cw : Z; h_cmax : Z; h_mste : Z; h_mask : Z; h_cl : Z; h_ctns : Z; h_onlr : Z; h_both : Z; h_d0 : Z; h_d1 : Z }.

(** islong of the structure a window sequence selects (pstr_usac_winmap, ia_core_coder_create.c). *)
Definition islong (seq : Z) : bool := negb (seq =? 2).

(** 1204-1301: window, numbers of bands, mask; [enf0] is igf_use_enf of the configuration's
    first element, which 1280-1286 asks whatever the element is. *)
Definition pair_window (indep enf0 nl : Z) (ws : list Z) (prev : Z) (s : pst) : prog (Z * pst) :=
  '(e, (wl, si)) <- ics_info nl ws prev (p_wl s) (p_si s) ;;
  if negb (e =? 0) then
    Ret (e, mkPst wl (p_wr s) si (p_ste s) (p_ms s) (p_tl s) (p_tr s) (p_ll s) (p_lr s) (h_ta s) (h_cw s)
      (h_cmax s) (h_mste s) (h_mask s) (h_cl s) (h_ctns s) (h_onlr s) (h_both s) (h_d0 s) (h_d1 s))
  else
    cm <- rd 1 ;;
    mr <- (if cm =? 1 then Ret (w_max wl) else if negb (w_seq wl =? 2) then rd 6 else rd 4) ;;
    let mste := Z.max (w_max wl) mr in
    let il := islong (w_seq wl) in
    let nsb := if il then nl else Z.of_nat (length ws) in
    let wr := mkW (w_seq wl) (w_shape wl) (if nsb <? mr then nsb else mr) (w_gd wl) in
    '(m, st, ms) <- ms_mask indep (Z.to_nat (if il then 1 else g_num si)) (Z.to_nat mste) (Z.to_nat nsb)
        (if il then 1 else 8) (w_gd wl) (p_ste s) (p_ms s) ;;
    let s := mkPst wl wr si st ms (p_tl s) (p_tr s) (p_ll s) (p_lr s) (h_ta s) (h_cw s)
      cm mste m (h_cl s) (h_ctns s) (h_onlr s) (h_both s) (h_d0 s) (h_d1 s) in
    if (enf0 =? 1) && negb (c_cplx st =? 0) then Ret (E_COMPPRED, s) else Ret (0, s).

(** 1304-1325. *)
Definition pair_ltpf (base3b : Z) (s : pst) : prog (Z * pst) :=
  let put cl ll lr := mkPst (p_wl s) (p_wr s) (p_si s) (p_ste s) (p_ms s) (p_tl s) (p_tr s) ll lr (h_ta s) (h_cw s)
      (h_cmax s) (h_mste s) (h_mask s) cl (h_ctns s) (h_onlr s) (h_both s) (h_d0 s) (h_d1 s) in
  cl <- rd 1 ;;
  if cl =? 0 then Ret (0, put cl (p_ll s) (p_lr s))
  else if base3b =? 1 then Ret (E_PROFILE, put cl (p_ll s) (p_lr s))
  else
    on <- rd 1 ;;
    if on =? 0 then Ret (0, put cl (mkLt on (lt_lag (p_ll s)) (lt_gain (p_ll s))) (mkLt on (lt_lag (p_lr s)) (lt_gain (p_lr s))))
    else
      lag <- rd 9 ;;
      gain <- rd 2 ;;
      Ret (0, put cl (mkLt on lag gain) (mkLt on lag gain)).

(** 1326-1376; [info0] is islong of channel 0's structure (None for a null pointer), which
    1362 passes whatever the channels of the pair are. *)
Definition pair_tns (nl : Z) (ws : list Z) (info0 : option bool) (s : pst) : prog (Z * pst) :=
  let put tl tr ct lr bo d0 d1 := mkPst (p_wl s) (p_wr s) (p_si s) (p_ste s) (p_ms s) tl tr (p_ll s) (p_lr s) (h_ta s) (h_cw s)
      (h_cmax s) (h_mste s) (h_mask s) (h_cl s) ct lr bo d0 d1 in
  if h_ta s =? 0 then Ret (0, put (p_tl s) (p_tr s) 0 (h_onlr s) (h_both s) 0 0)
  else
    ct <- (if h_cw s =? 0 then Ret 0 else rd 1) ;;
    lr <- rd 1 ;;
    if ct =? 0 then
      both <- rd 1 ;;
      if negb (both =? 0) then Ret (0, put (p_tl s) (p_tr s) ct lr both 1 1)
      else d1 <- rd 1 ;; Ret (0, put (p_tl s) (p_tr s) ct lr both (1 - d1) d1)
    else
      '(e, t) <- read_tns nl (Z.of_nat (length ws)) info0 (p_tl s) ;;
      if negb (e =? 0) then Ret (e, put t (p_tr s) ct lr (h_both s) (h_d0 s) (h_d1 s))
      else Ret (0, put t t ct lr (h_both s) 2 2).

(** 1183-1376.  [first]: the pair's left channel is channel 0, whose window then decides
    what 1362 passes; otherwise [info0] is what channel 0 last used.  Before: the temporary
    structure is all zero (ia_core_coder_process.c:798, tns_on_lr 1 and pred_dir 0:
    1165-1166). *)
Definition pair_head (indep base3b enf0 nl : Z) (ws : list Z) (prev : Z) (first : bool) (info0 : option bool)
    (s : pst) : prog (Z * pst) :=
  ta <- rd 1 ;;
  cw <- rd 1 ;;
  let c := p_ste s in
  let clear := (cw =? 0) || negb (indep =? 0) in
  let c := mkSte (c_used c) (c_re c) (c_im c) (if clear then repeat 0 136 else c_rp c)
             (if clear then repeat 0 136 else c_ip c) 0 0 0 in
  let s := mkPst (p_wl s) (p_wr s) (p_si s) c (p_ms s) (p_tl s) (p_tr s) (p_ll s) (p_lr s) ta cw 0 0 0 0 0 1 0 0 0 in
  '(e, s) <- (if cw =? 0 then Ret (0, s) else pair_window indep enf0 nl ws prev s) ;;
  if negb (e =? 0) then Ret (e, s)
  else
    '(e, s) <- pair_ltpf base3b s ;;
    if negb (e =? 0) then Ret (e, s)
    else pair_tns nl ws (if first && negb (cw =? 0) then Some (islong (w_seq (p_wl s))) else info0) s.
