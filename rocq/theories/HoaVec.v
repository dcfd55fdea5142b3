(** * HoaVec: the vectors of an HOA frame, and the values the spatial decoder takes

    Models impeghd_hoa_frame_v_vector_data, decoder/impeghd_hoa_frame.c:465-651, for vectors
    coded with a codebook (n_bits_q 4) and with 8 bits (5), its calls at 356-364, and which
    entries decoder/impeghd_hoa_spatial_decoder.c:376-520 reads for a channel.  Huffman coded
    vectors (n_bits_q 6 and more) are not modelled.  Not kept: sgn_val_size and
    prev_sgn_val_size, which only steer the clearing at 477-481 of entries that are written
    again at 507-518. *)

From Coq Require Import ZArith List Lia Bool.
From Verif Require Import Bits BitBuf Prog Asi Hoa HoaFrm.
Import ListNotations.
Open Scope Z_scope.

(** IA_MPEGH_HOA_INIT_FATAL_INVALID_VVEC_IDX; not modelled. *)
Definition E_VVEC_IDX := 6.
Definition E_NOT_MODELLED := 7.

(** vvec_idx (128), sgn_val (16 x 128), weight_idx (49), c_8bit_quantizer_word (16 x 49),
    additional_info (16 x 49), impeghd_hoa_dec_struct.h:42-60. *)
Record hvs := mkHv { v_idx : list Z; v_sgn : list (list Z); v_w : list Z; v_word : list (list Z); v_add : list (list Z) }.

(** 484-504. *)
Definition book_bits (h : hoac) (cb : Z) : Z :=
  if cb =? 0 then 10 else if cb <=? 3 then 6 else clog2 (h_coef h).

(** 524-561: an index too large for its codebook. *)
Definition idx_bad (h : hoac) (cb i : Z) : bool :=
  if cb =? 0 then 900 <? i
  else if (cb =? 1) || (cb =? 2) then 34 <? i
  else if cb =? 3 then 64 <? i
  else if cb =? 7 then
    if h_order h =? 4 then 32 <? i else (h_order h + 1) * (h_order h + 1) <? i
  else false.

(** The condition of 568-570, 586-588 and 615-617: an element that is not sent. *)
Definition masked (s : hfs) (idx c : Z) : prog bool :=
  n <- aget (f_nontr s) c ;;
  if negb (n =? 0) then Ret true else
  w <- aget (f_new s) idx ;;
  if w =? 1 then f <- aget (f_fade s) c ;; Ret (f =? 1) else Ret false.

(** 474-579; [ch] is sig_ch_idx.  The check 522-563 looks up codebk_idx by the number of the index. *)
Definition vec_book (h : hoac) (s : hfs) (ch idx : Z) (v : hvs) : prog (res hvs) :=
  k <- aget (f_ch s) ch ;;
  let n := q_nvi (k_q k) in
  let nb := book_bits h (q_cb (k_q k)) in
  w <- (if n =? 1 then Ret (v_w v) else b <- rd 8 ;; aset (v_w v) ch b) ;;
  row <- aget (v_sgn v) idx ;;
  ' (ix, row) <- forP (Z.to_nat n) 0 (fun j '(ix, row) =>
      i <- rd nb ;; b <- rd 1 ;;
      row <- aset row (Z.of_nat j) b ;; ix <- aset ix (Z.of_nat j) (i + 1) ;; Ret (ix, row)) (v_idx v, row) ;;
  sgn <- aset (v_sgn v) idx row ;;
  ok <- forP (Z.to_nat n) 0 (fun j (ok : bool) =>
      if ok then kj <- aget (f_ch s) (Z.of_nat j) ;; i <- aget ix (Z.of_nat j) ;; Ret (negb (idx_bad h (q_cb (k_q kj)) i))
      else Ret false) true ;;
  if negb ok then Ret (Er E_VVEC_IDX) else
  arow <- aget (v_add v) idx ;;
  arow <- forP (Z.to_nat (h_vvl h)) 0 (fun j r =>
      m <- masked s idx (h_off h + Z.of_nat j) ;; aset r (Z.of_nat j) (if m then 0 else 1)) arow ;;
  add <- aset (v_add v) idx arow ;;
  Ret (Ok (mkHv ix sgn w (v_word v) add)).

(** 580-598. *)
Definition vec_words (h : hoac) (s : hfs) (idx : Z) (v : hvs) : prog (res hvs) :=
  row <- aget (v_word v) idx ;;
  row <- forP (Z.to_nat (h_vvl h)) 0 (fun j r =>
      m <- masked s idx (h_off h + Z.of_nat j) ;;
      if m : bool then aset r (Z.of_nat j) 128 else b <- rd 8 ;; aset r (Z.of_nat j) b) row ;;
  word <- aset (v_word v) idx row ;;
  Ret (Ok (mkHv (v_idx v) (v_sgn v) (v_w v) word (v_add v))).

(** 356-364 over vec_sig_channel_ids, [idx] counting the vector signals. *)
Fixpoint vec_all (h : hoac) (s : hfs) (ids : list Z) (idx : nat) (v : hvs) : prog (res hvs) :=
  match ids with
  | [] => Ret (Ok v)
  | c :: ids =>
    k <- aget (f_ch s) (c - 1) ;;
    r <- (if q_nq (k_q k) =? 4 then vec_book h s (c - 1) (Z.of_nat idx) v
          else if q_nq (k_q k) =? 5 then vec_words h s (Z.of_nat idx) v
          else Ret (Er E_NOT_MODELLED)) ;;
    match r with Er e => Ret (Er e) | Ok v => vec_all h s ids (S idx) v end
  end.

(** spatial_decoder.c:381, 432-448, 479, 490: codebook, weight (used unless there is one index),
    indices, signs and additional_info of channel [ch]. *)
Definition used_book (s : hfs) (v : hvs) (ch : nat) : Z * Z * list (Z * Z) :=
  let q := k_q (nth ch (f_ch s) (mkHc 0 0 0 (mkQ 0 0 0 0 0) 0 0 0 0)) in
  (q_cb q, nth ch (v_w v) 0,
   map (fun j => (nth j (v_idx v) 0, nth j (nth ch (v_sgn v) []) 0)) (seq 0 (Z.to_nat (q_nvi q)))).
(** 516: the words of channel [ch]. *)
Definition used_words (h : hoac) (v : hvs) (ch : nat) : list Z :=
  map (fun j => nth j (nth ch (v_word v) []) 0) (seq 0 (Z.to_nat (h_vvl h))).

(** 143-364: side information and vectors. *)
Definition hoa_front (h : hoac) (s : hfs) (v : hvs) : prog (res (hfs * hvs)) :=
  r <- hoa_side h s ;;
  match r with
  | Er e => Ret (Er e)
  | Ok (_, s) =>
    r <- vec_all h s (f_vec s) 0 v ;;
    match r with Er e => Ret (Er e) | Ok v => Ret (Ok (s, v)) end
  end.
