(** * CoreIcs: window information and temporal noise shaping data of a channel

    ia_core_coder_ics_info (decoder/ia_core_coder_ext_ch_ele.c), the window sequence
    selection, the group tables and the reader of the temporal noise shaping (TNS) data
    (decoder/ia_core_coder_spectrum_dec.c).  The core frame length is 1024. *)

From Coq Require Import ZArith List Lia Bool.
From Verif Require Import Bits BitBuf Prog Config.
Import ListNotations.
Open Scope Z_scope.

(** impeghd_error_codes.h:105, 153, 234, 257. *)
Definition E_WINSEQ : Z := 0xFFFF9008.
Definition E_MAXSFB : Z := 0xFFFF9038.
Definition E_NOSFB : Z := 0xFFFF9804.
Definition E_STARTBAND : Z := 0xFFFF981B.

(** ** Scale factor bands
    ia_core_coder_rom.c:1332-1388: the upper ends of the bands of a short window. *)
Definition sfb_96_128 : list Z := [4; 8; 12; 16; 20; 24; 32; 40; 48; 64; 92; 128].
Definition sfb_64_128 : list Z := [4; 8; 12; 16; 20; 24; 32; 40; 48; 64; 92; 128].
Definition sfb_48_128 : list Z := [4; 8; 12; 16; 20; 28; 36; 44; 56; 68; 80; 96; 112; 128].
Definition sfb_24_128 : list Z := [4; 8; 12; 16; 20; 24; 28; 36; 44; 52; 64; 76; 92; 108; 128].
Definition sfb_16_128 : list Z := [4; 8; 12; 16; 20; 24; 28; 32; 40; 48; 60; 72; 88; 108; 128].
Definition sfb_8_128 : list Z := [4; 8; 12; 16; 20; 24; 28; 36; 44; 52; 60; 72; 88; 108; 128].

(** ia_core_coder_samp_rate_info, ia_core_coder_rom.c:1393-1413: per sampling rate index the
    number of bands of a long window (num_sfb_1024) and the bands of a short one (their
    number is num_sfb_128). *)
Definition rate_tab : list (Z * list Z) :=
  [(41, sfb_96_128); (41, sfb_96_128); (47, sfb_64_128); (49, sfb_48_128); (49, sfb_48_128);
   (51, sfb_48_128); (47, sfb_24_128); (47, sfb_24_128); (43, sfb_16_128); (43, sfb_16_128);
   (43, sfb_16_128); (40, sfb_8_128); (40, sfb_8_128); (0, []); (0, []); (0, [])].

(** The widths of the bands, ia_core_coder_create.c:188-197 (sfb_width of the short
    windows). *)
Fixpoint widths (from : Z) (l : list Z) : list Z :=
  match l with [] => [] | x :: r => (x - from) :: widths x r end.

(** The fields of the one ia_sfb_info_struct shared by all short windows
    (usac_data->str_eight_short_info, ia_core_coder_create.c:277) that change from frame to
    frame: num_groups, group_len[8], sfb_idx_tbl[125]. *)
Record sinfo := mkSi { g_num : Z; g_len : list Z; g_tbl : list Z }.

(** ** ia_core_coder_win_seq_select, ia_core_coder_spectrum_dec.c:375-411 *)
Definition win_seq_select (cur last : Z) : Z :=
  if cur =? 3 then 3
  else if cur =? 2 then 2
  else if cur =? 1 then
    if (last =? 1) || (last =? 2) || (last =? 4) then 4 else 1
  else if cur =? 0 then 0
  else -1.

(** ** ia_core_coder_calc_grp_offset, ia_core_coder_spectrum_dec.c:122-158, short windows
    The do-while loop, 133-139. *)
Fixpoint grp_lens (fuel : nat) (gd : list Z) (i : nat) (off : Z) (gl : list Z) : prog (Z * list Z) :=
  match fuel with
  | O => Undef UFuel
  | S f =>
    g <- aget gd (Z.of_nat i) ;;
    gl <- aset gl (Z.of_nat i) (g - off) ;;
    if g <? 8 then grp_lens f gd (S i) g gl else Ret (Z.of_nat (S i), gl)
  end.

(** 147-151: the bands of one group; the state is (offset, next entry, table). *)
Definition grp_band (ws : list Z) (len : Z) (b : nat) (st : Z * Z * list Z) : prog (Z * Z * list Z) :=
  let '(off, k, tbl) := st in
  w <- aget ws (Z.of_nat b) ;;
  let off := off + w * len in
  tbl <- aset tbl k (s16 off) ;;
  Ret (off, k + 1, tbl).

Definition grp_offsets (ws : list Z) (gl : list Z) (ng : nat) (tbl : list Z) : prog (list Z) :=
  '(_, _, tbl) <- forP ng 0 (fun g st =>
      len <- aget gl (Z.of_nat g) ;;
      forP (length ws) 0 (grp_band ws len) st) (0, 0, tbl) ;;
  Ret tbl.

Definition calc_grp_offset (ws : list Z) (gd : list Z) (si : sinfo) : prog sinfo :=
  '(ng, gl) <- grp_lens 9 gd 0 0 (g_len si) ;;
  tbl <- grp_offsets ws gl (Z.to_nat ng) (g_tbl si) ;;
  Ret (mkSi ng gl tbl).

(** ** ia_core_coder_ics_info, ia_core_coder_ext_ch_ele.c:749-812
    window_sequence, window_shape, max_sfb and group_dis[8] of the channel. *)
Record wst := mkW { w_seq : Z; w_shape : Z; w_max : Z; w_gd : list Z }.

(** 782-789: the ends of the groups. *)
Definition grp_ends (grp : Z) (gd : list Z) : prog (list Z) :=
  '(p, gd) <- forP 7 1 (fun i st =>
      let '(p, gd) := st in
      if Z.testbit grp (7 - Z.of_nat i) then Ret (p, gd)
      else gd <- aset gd p (Z.of_nat i) ;; Ret (p + 1, gd)) (0, gd) ;;
  aset gd p 8.

(** [nl] is num_sfb_1024 (and sfb_per_sbk of the long windows), [ws] the widths of the bands
    of a short window; their number is num_sfb_128 (and sfb_per_sbk of the short windows,
    ia_core_coder_create.c:180): the limit of 805-808 is therefore never applied, and is left
    out. *)
Definition ics_info (nl : Z) (ws : list Z) (prev : Z) (w : wst) (si : sinfo) : prog (Z * (wst * sinfo)) :=
  c <- rd 2 ;;
  let seq := win_seq_select c prev in
  let w := mkW seq (w_shape w) (w_max w) (w_gd w) in
  if seq =? -1 then Ret (E_WINSEQ, (w, si))
  else
    sh <- rd 1 ;;
    if seq =? 2 then
      m <- rd 4 ;;
      grp <- rd 7 ;;
      let w := mkW seq sh m (w_gd w) in
      if Z.of_nat (length ws) <? m then Ret (E_MAXSFB, (w, si))
      else
        gd <- grp_ends grp (w_gd w) ;;
        si <- calc_grp_offset ws gd si ;;
        Ret (0, (mkW seq sh m gd, si))
    else
      m <- rd 6 ;;
      gd <- aset (w_gd w) 0 1 ;;
      let w := mkW seq sh m gd in
      if nl <? m then Ret (E_MAXSFB, (w, si)) else Ret (0, (w, si)).

(** ** TNS data
    ia_tns_filter_struct, ia_tns_info_struct and ia_tns_frame_info_struct,
    ia_core_coder_tns_usac.h:49-72. *)
Record tfilt := mkTf { f_start : Z; f_stop : Z; f_order : Z; f_dir : Z; f_coef : list Z }.
Record twin := mkTw { n_filt : Z; t_res : Z; t_filt : list tfilt }.
Record tns := mkTns { n_sub : Z; t_win : list twin }.

(** sgn_mask and neg_mask, ia_core_coder_spectrum_dec.c:255-256. *)
Definition sgn_mask : list Z := [0; 0; 2; 4; 8].
Definition neg_mask : list Z := [0; 0; -4; -8; -16].

(** 306-317: one coefficient. *)
Definition tns_coef (res : Z) (k : nat) (l : list Z) : prog (list Z) :=
  sm <- aget sgn_mask res ;;
  nm <- aget neg_mask res ;;
  t <- rd res ;;
  aset l (Z.of_nat k) (if Z.land t sm =? 0 then t else Z.lor t nm).

(** 285-322: one filter; [top] is the lower end of the filter before. *)
Definition tns_filter (sb ob res top : Z) (f : tfilt) : prog (Z * (Z * tfilt)) :=
  len <- rd sb ;;
  let start := top - len in
  if start <=? 0 then Ret (E_STARTBAND, (start, mkTf start top (f_order f) (f_dir f) (f_coef f)))
  else
    o <- rd ob ;;
    if o =? 0 then Ret (0, (start, mkTf start top o (f_dir f) (f_coef f)))
    else
      d <- rd 1 ;;
      c <- rd 1 ;;
      co <- forP (Z.to_nat o) 0 (tns_coef (res - c)) (f_coef f) ;;
      Ret (0, (start, mkTf start top o d co)).

(** 274-323: one window. *)
Definition tns_window (nb sb ob bands : Z) (w : twin) : prog (Z * twin) :=
  n <- rd nb ;;
  if n =? 0 then Ret (0, mkTw n (t_res w) (t_filt w))
  else
    r <- rd 1 ;;
    '(e, (_, fs)) <- forE (Z.to_nat n) 0 (fun j st =>
        let '(top, fs) := st in
        f <- aget fs (Z.of_nat j) ;;
        '(e, (top, f)) <- tns_filter sb ob (r + 3) top f ;;
        fs <- aset fs (Z.of_nat j) f ;;
        Ret (e, (top, fs))) (bands, t_filt w) ;;
    Ret (e, mkTw n (r + 3) fs).

(** ia_core_coder_read_tns_u, 246-326; [info] is None for a null pointer, else islong, and
    [nl], [ns] are sfb_per_sbk of the long and the short windows. *)
Definition read_tns (nl ns : Z) (info : option bool) (t : tns) : prog (Z * tns) :=
  match info with
  | None => Ret (E_NOSFB, t)
  | Some islong =>
    let nw := if islong then 1 else 8 in
    let '(nb, sb, ob, bands) := if islong then (2, 6, 4, nl) else (1, 4, 3, ns) in
    '(e, ws) <- forE (Z.to_nat nw) 0 (fun i ws =>
        w <- aget ws (Z.of_nat i) ;;
        '(e, w) <- tns_window nb sb ob bands w ;;
        ws <- aset ws (Z.of_nat i) w ;;
        Ret (e, ws)) (t_win t) ;;
    Ret (e, mkTns nw ws)
  end.
