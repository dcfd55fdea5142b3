(** * HoaFrm: the side information of an HOA frame

    Models decoder/impeghd_hoa_frame.c:143-449 without the vectors (impeghd_hoa_frame_v_vector_data,
    466-651, called at 351-369): the roles of the transport channels, their gains (143-349) and
    the prediction of the directional signals (370-433).  The configuration is the one of Hoa.v.
    Arrays have the sizes of impeghd_hoa_dec_struct.h:38-94.  On an error the C code leaves a
    partly updated structure behind and decoding ends with a fatal error; the model returns
    only the error code. *)

From Coq Require Import ZArith List Lia Bool.
From Verif Require Import Bits BitBuf Prog Asi Hoa.
Import ListNotations.
Open Scope Z_scope.

(** Error codes, told apart by the check that returns them (lines 192, 201, 269, 292, 315). *)
Definition E_AMB_STATE := 1.
Definition E_AMB_IDX := 2.
Definition E_NBITSQ := 3.
Definition E_DIR_ID := 4.
Definition E_CODED_GAIN := 5.

(** How a vector is coded: n_bits_q, codebk_idx, num_vvec_indices, p_flag, cb_flag. *)
Record qmode := mkQ { q_nq : Z; q_cb : Z; q_nvi : Z; q_p : Z; q_cbf : Z }.
(** A transport channel: channel_type, amb_coeff_transition_state, amb_coeff_idx, the coding of
    its vector, active_dirs_ids, gain_corr_prev_amp_exp, coded_gain_correction_exp,
    gain_correction_exception. *)
Record hch := mkHc { k_type : Z; k_trans : Z; k_aidx : Z; k_q : qmode; k_dir : Z; k_amp : Z; k_gain : Z; k_exc : Z }.
(** The frame: the channels (49), prev_channel_type and the previous codings (49 each),
    new_vec_channels (49), fade_in_add_hoa_channels (49), non_transitional_add_hoa_channels (50),
    vec_sig_channel_ids and dir_sig_channel_ids up to their counts. *)
Record hfs := mkHf {
  f_ch : list hch; f_pt : list Z; f_pq : list qmode; f_new : list Z;
  f_fade : list Z; f_nontr : list Z; f_vec : list Z; f_dir : list Z }.

(** 164-206: transition state and index of an additional coefficient of the ambience. *)
Definition amb_part (h : hoac) (ind : Z) (o : hch) : prog (res (Z * Z)) :=
  if ind =? 0 then
    t <- rd 1 ;;
    if negb (t =? 1) then Ret (Ok (0, k_aidx o))
    else if k_trans o <=? 1 then Ret (Ok (2, k_aidx o))
    else c <- rd (h_aab h) ;; Ret (Ok (1, c + 1 + h_minco h))
  else
    s <- rd 2 ;;
    if s =? 3 then Ret (Er E_AMB_STATE) else
    c <- rd (h_aab h) ;;
    if h_maxadd h <=? c then Ret (Er E_AMB_IDX) else
    Ret (Ok (s, c + 1 + h_minco h)).

(** 237-240 and 274-277: the codebook and the number of indices. *)
Definition vq_part (h : hoac) (nq : Z) (q : qmode) : prog qmode :=
  c <- rd 3 ;; n <- rd (h_nvv h) ;; Ret (mkQ nq c (n + 1) (q_p q) (q_cbf q)).

(** 221-284: new_vec_channels and the coding of the vector. *)
Definition vec_part (h : hoac) (ind pt : Z) (pq q : qmode) : prog (res (Z * qmode)) :=
  if ind =? 0 then
    let new := if (h_cvv h =? 1) && negb (pt =? 1) then 1 else 0 in
    ba <- rd 1 ;; bb <- rd 1 ;;
    if negb (ba + bb =? 0) then
      c <- rd 2 ;;
      let nq := 8 * ba + 4 * bb + c in
      if nq =? 4 then q <- vq_part h nq q ;; Ret (Ok (new, q))
      else if 6 <=? nq then
        p <- rd 1 ;; b <- rd 1 ;; Ret (Ok (new, mkQ nq (q_cb q) (q_nvi q) p b))
      else Ret (Ok (new, mkQ nq (q_cb q) (q_nvi q) (q_p q) (q_cbf q)))
    else Ret (Ok (new, pq))
  else
    new <- (if h_cvv h =? 1 then rd 1 else Ret 0) ;;
    nq <- rd 4 ;;
    if nq / 4 =? 0 then Ret (Er E_NBITSQ) else
    if nq =? 4 then q <- vq_part h nq q ;; Ret (Ok (new, q))
    else if 6 <=? nq then b <- rd 1 ;; Ret (Ok (new, mkQ nq (q_cb q) (q_nvi q) 0 b))
    else Ret (Ok (new, mkQ nq (q_cb q) (q_nvi q) (q_p q) (q_cbf q))).

(** The loop 308-312 (and 342-346): zeros up to a one.  The loop ends at the latest when the
    bits have run out, because the reader then leaves by longjmp. *)
Fixpoint zeros (fuel : nat) (g : Z) : prog Z :=
  b <- rd 1 ;;
  if negb (b =? 0) then Ret (g + 1) else
  match fuel with O => Throw INSUFFICIENT_INPUT_BYTES | S f => zeros f (g + 1) end.
Definition gain_part : prog Z := Avail (fun c => zeros (Z.to_nat c) 0).

(** 300-307: gain_corr_prev_amp_exp of an independent frame. *)
Definition amp_part (h : hoac) : prog Z :=
  v <- rd (h_gcb h) ;; Ret (v - clog2 (3 * h_coef h / 2)).

(** 161-294: the role of channel [i], [t] its type; [o], [pt] and [pq] are what the structure
    holds for the channel. *)
Definition role_part (h : hoac) (ind : Z) (i : nat) (s : hfs) (o : hch) (pt : Z) (pq : qmode) (t : Z)
  : prog (res (hch * list Z * list Z * list Z)) :=
  if t =? 2 then
    r <- amb_part h ind o ;;
    match r with
    | Er e => Ret (Er e)
    | Ok (st, idx) =>
      (* 207-217 *)
      fade <- (if (h_cvv h =? 1) && (st =? 1) then aset (f_fade s) idx 1 else Ret (f_fade s)) ;;
      nontr <- (if (h_cvv h =? 1) && (st =? 0) then aset (f_nontr s) idx 1 else Ret (f_nontr s)) ;;
      Ret (Ok (mkHc t st idx (k_q o) (k_dir o) 0 0 0, f_new s, fade, nontr))
    end
  else if t =? 1 then
    r <- vec_part h ind pt pq (k_q o) ;;
    match r with
    | Er e => Ret (Er e)
    | Ok (new, q) =>
      n <- aset (f_new s) (Z.of_nat i) new ;;
      Ret (Ok (mkHc t (k_trans o) (k_aidx o) q (k_dir o) 0 0 0, n, f_fade s, f_nontr s))
    end
  else if t =? 0 then
    d <- rd 10 ;;
    if 900 <? d then Ret (Er E_DIR_ID) else
    Ret (Ok (mkHc t (k_trans o) (k_aidx o) (k_q o) d 0 0 0, f_new s, f_fade s, f_nontr s))
  else Ret (Ok (mkHc t (k_trans o) (k_aidx o) (k_q o) (k_dir o) 0 0 0, f_new s, f_fade s, f_nontr s)).

(** 159-331, one additional channel [i]. *)
Definition chan_one (h : hoac) (ind : Z) (i : nat) (s : hfs) : prog (res hfs) :=
  o <- aget (f_ch s) (Z.of_nat i) ;;
  pt <- aget (f_pt s) (Z.of_nat i) ;;
  pq <- aget (f_pq s) (Z.of_nat i) ;;
  t <- rd 2 ;;
  r <- role_part h ind i s o pt pq t ;;
  match r with
  | Er e => Ret (Er e)
  | Ok (k, new, fade, nontr) =>
    amp <- (if ind =? 0 then Ret 0 else amp_part h) ;;
    g <- gain_part ;;
    if 65 <? g then Ret (Er E_CODED_GAIN) else
    e <- rd 1 ;;
    chk (Z.of_nat (length (f_vec s))) 49 ;;;
    chk (Z.of_nat (length (f_dir s))) 49 ;;;
    ch <- aset (f_ch s) (Z.of_nat i) (mkHc (k_type k) (k_trans k) (k_aidx k) (k_q k) (k_dir k) amp g e) ;;
    Ret (Ok (mkHf ch (f_pt s) (f_pq s) new fade nontr
          (if t =? 1 then f_vec s ++ [Z.of_nat i + 1] else f_vec s)
          (if t =? 0 then f_dir s ++ [Z.of_nat i + 1] else f_dir s)))
  end.

(** 332-349, one of the channels that always carry the ambience: in a frame that is not
    independent gain_corr_prev_amp_exp keeps its value, and the gain is not limited. *)
Definition chan_rest (h : hoac) (ind : Z) (i : nat) (s : hfs) : prog (res hfs) :=
  o <- aget (f_ch s) (Z.of_nat i) ;;
  amp <- (if ind =? 0 then Ret (k_amp o) else amp_part h) ;;
  g <- gain_part ;;
  e <- rd 1 ;;
  ch <- aset (f_ch s) (Z.of_nat i) (mkHc (k_type o) (k_trans o) (k_aidx o) (k_q o) (k_dir o) amp g e) ;;
  Ret (Ok (mkHf ch (f_pt s) (f_pq s) (f_new s) (f_fade s) (f_nontr s) (f_vec s) (f_dir s))).

(** 143-349. *)
Definition hoa_side (h : hoac) (s : hfs) : prog (res (Z * hfs)) :=
  ind <- rd 1 ;;
  let a := Z.to_nat (h_addl h) in
  r <- forR a 0 (chan_one h ind)
    (mkHf (f_ch s) (f_pt s) (f_pq s) (repeat 0 49) (repeat 0 49) (repeat 0 50) [] []) ;;
  match r with
  | Er e => Ret (Er e)
  | Ok s =>
    r <- forR (Z.to_nat (h_ntc h) - a) a (chan_rest h ind) s ;;
    match r with Er e => Ret (Er e) | Ok s => Ret (Ok (ind, s)) end
  end.

(** 435-447: the codings and types become the previous ones. *)
Definition hoa_keep (s : hfs) : hfs :=
  mkHf (f_ch s) (map k_type (f_ch s)) (map k_q (f_ch s)) (f_new s) (f_fade s) (f_nontr s) (f_vec s) (f_dir s).

(** ** Prediction, 370-433 *)

(** ps_prediction_active, active_pred (49), pred_dir_sig_ids and pred_gains (512 each). *)
Record hpred := mkHp { p_on : Z; p_active : list Z; p_ids : list Z; p_gains : list Z }.

(** 383-393: one flag per coefficient. *)
Definition act_flags (n : nat) (a : list Z) : prog (list Z * Z) :=
  forP n 0 (fun i '(a, k) => b <- rd 1 ;; a <- aset a (Z.of_nat i) b ;; Ret (a, if b =? 0 then k else k + 1)) (a, 0).
(** 394-407: numbers of coefficients. *)
Definition act_list (n : nat) (bits : Z) (a : list Z) : prog (list Z) :=
  forP n 0 (fun _ a => b <- rd bits ;; aset a b 1) a.
(** 409-421: numbers of directional signals, replaced by their channels. *)
Definition sig_ids (n : nat) (bits : Z) (dirs : list Z) (t : list Z) : prog (list Z * Z) :=
  forP n 0 (fun i '(t, k) => b <- rd bits ;;
    if 0 <? b then c <- aget dirs (b - 1) ;; t <- aset t (Z.of_nat i) c ;; Ret (t, k + 1)
    else t <- aset t (Z.of_nat i) b ;; Ret (t, k)) (t, 0).
(** 422-430: one gain for every signal used, among the first num_of_gains. *)
Definition sig_gains (n : nat) (bits : Z) (ids : list Z) (t : list Z) : prog (list Z) :=
  forP n 0 (fun i t => d <- aget ids (Z.of_nat i) ;;
    if 0 <? d then v <- rd bits ;; aset t (Z.of_nat i) v else Ret t) t.

(** 370-433.  [dirs] is the array dir_sig_channel_ids, [nd] num_of_dir_sigs. *)
Definition hoa_pred (h : hoac) (nd : Z) (dirs : list Z) (p : hpred) : prog hpred :=
  if (h_single h =? 1) && (0 <? nd) then
    on <- rd 1 ;;
    if on =? 0 then Ret (mkHp on (p_active p) (p_ids p) (p_gains p)) else
    kind <- rd 1 ;;
    a0 <- forP (Z.to_nat (h_coef h)) 0 (fun i a => aset a (Z.of_nat i) 0) (p_active p) ;;
    ' (a, k) <- (if kind =? 0 then act_flags (Z.to_nat (h_coef h)) a0
                 else n <- rd (h_napb h) ;; a <- act_list (Z.to_nat (n + 1)) (h_apb h) a0 ;; Ret (a, n + 1)) ;;
    ' (ids, g) <- sig_ids (Z.to_nat (k * h_pds h)) (clog2 (nd + 1)) dirs (p_ids p) ;;
    gs <- sig_gains (Z.to_nat g) (h_bps h) ids (p_gains p) ;;
    Ret (mkHp on a ids gs)
  else Ret p.

(** impeghd_hoa_spatial_decoder.c:289-327: which channels are predicted from, with which quantized
    gains, for every coefficient (prediction_type_vec, prediction_indices_mat,
    quant_pred_fact_mat).  The gain of an unused entry is not written; it is 0 here. *)
Fixpoint use_row (n a g : nat) (p : hpred) : list (Z * Z) * nat :=
  match n with
  | O => ([], g)
  | S n =>
    let id := nth a (p_ids p) 0 in
    if id =? 0 then let (l, g) := use_row n (S a) g p in ((0, 0) :: l, g)
    else let (l, g') := use_row n (S a) (S g) p in ((id, nth g (p_gains p) 0) :: l, g')
  end.
Fixpoint use_all (pds n c a g : nat) (p : hpred) : list (option (list (Z * Z))) :=
  match n with
  | O => []
  | S n =>
    if nth c (p_active p) 0 =? 0 then None :: use_all pds n (S c) a g p
    else let (l, g) := use_row pds a g p in Some l :: use_all pds n (S c) (a + pds) g p
  end.
Definition use_pred (h : hoac) (p : hpred) : list (option (list (Z * Z))) :=
  if p_on p =? 0 then repeat None (Z.to_nat (h_coef h))
  else use_all (Z.to_nat (h_pds h)) (Z.to_nat (h_coef h)) 0 0 0 p.
