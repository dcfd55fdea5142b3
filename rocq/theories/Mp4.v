(** * Mp4: the scene boxes of an MP4 file
    Modelled: decoder/impeghd_mae_mp4_intrfc.c, all four functions, and their calls in
    ia_mpegh_dec_init (impeghd_api.c:711-783): every box is handed to the decoder as a
    buffer, a reader that runs out of bits makes the call return an error.  The box
    structure of the file itself (test/mp4) is not modelled.

    The parameter [fix] adds the tests of the counts that the code lacks; the code is
    [fix = false]. *)
From Coq Require Import ZArith List Lia Bool.
From Verif Require Import Bits BitBuf Prog Asi.
Import ListNotations.
Open Scope Z_scope.

(** A refusal that is not in the code. *)
Definition E_MAE := -1.
Definition guard {A} (fix_ bad : bool) (p : prog (res A)) : prog (res A) :=
  if fix_ && bad then Ret (Er E_MAE) else p.

(** ** maeg: groups *)

(** The loop body of impeghd_mp4_get_maeg, 296-348.  The first write to the entry is behind
    the eighth bit (299-300).  has_content_language is only used in the function. *)
Definition grp_one (i : nat) (arr : list gdef) : prog (list gdef) :=
  rd 1 ;;; id <- rd 7 ;;
  g0 <- aget arr (Z.of_nat i) ;;
  rd 3 ;;; onoff <- rd 1 ;; def <- rd 1 ;; pos <- rd 1 ;; gain <- rd 1 ;; lang <- rd 1 ;; rd 8 ;;;
  ' (a1, a2, e1, e2, d1, d2) <-
    (if pos =? 0 then Ret (g_minaz g0, g_maxaz g0, g_minel g0, g_maxel g0, g_mindist g0, g_maxdist g0)
     else rd 1 ;;; a1 <- rd 7 ;; rd 1 ;;; a2 <- rd 7 ;; rd 3 ;;; e1 <- rd 5 ;; rd 3 ;;; e2 <- rd 5 ;;
          d1 <- rd 4 ;; d2 <- rd 4 ;; Ret (a1, a2, e1, e2, d1, d2)) ;;
  ' (m1, m2) <-
    (if gain =? 0 then Ret (g_mingain g0, g_maxgain g0)
     else rd 2 ;;; m1 <- rd 6 ;; rd 3 ;;; m2 <- rd 5 ;; Ret (m1, m2)) ;;
  (if lang =? 0 then Ret 0 else rd 8) ;;;
  aset arr (Z.of_nat i) (mkG id onoff def pos a1 a2 e1 e2 d1 d2 gain m1 m2 2 1 (g_start g0) (g_mem g0)).

Definition s_start (g : gdef) (s : Z) : gdef :=
  mkG (g_id g) (g_onoff g) (g_def g) (g_pos g) (g_minaz g) (g_maxaz g) (g_minel g) (g_maxel g) (g_mindist g) (g_maxdist g)
      (g_gain g) (g_mingain g) (g_maxgain g) (g_num g) (g_conj g) s (g_mem g).
Definition put_start (arr : list gdef) (i s : Z) : prog (list gdef) :=
  g <- aget arr i ;; aset arr i (s_start g s).

(** impeghd_mp4_get_maeg, 284-351: asi_id, num_groups, group_definition. *)
Definition maeg (fix_ : bool) (arr : list gdef) : prog (res (Z * Z * list gdef)) :=
  id <- rd 8 ;; rd 1 ;;; n <- rd 7 ;;
  guard fix_ (16 <? n) (
  arr <- forP (Z.to_nat n) 0 grp_one arr ;;
  arr <- put_start arr 0 0 ;;
  arr <- put_start arr 1 2 ;;
  Ret (Ok (id, n, arr))).

(** ** maes: switch groups *)

(** The loop body of impeghd_mp4_get_maes, 249-271.  The first write, allow_on_off, comes
    before any bit is read; default_on_off keeps its value. *)
Definition swi_one (i : nat) (arr : list sdef) : prog (list sdef) :=
  g0 <- aget arr (Z.of_nat i) ;;
  rd 3 ;;; id <- rd 5 ;; rd 3 ;;; n <- rd 5 ;;
  mem <- forP (Z.to_nat n) 0 (fun j m => rd 1 ;;; v <- rd 7 ;; aset m (Z.of_nat j) v) (s_mem g0) ;;
  rd 1 ;;; dg <- rd 7 ;;
  aset arr (Z.of_nat i) (mkS id 0 (s_def g0) n mem dg).

(** impeghd_mp4_get_maes, 240-272: num_switch_groups, switch_group_definition. *)
Definition maes (fix_ : bool) (arr : list sdef) : prog (res (Z * list sdef)) :=
  rd 1 ;;; n <- rd 7 ;;
  guard fix_ (8 <? n) (
  arr <- forP (Z.to_nat n) 0 swi_one arr ;;
  Ret (Ok (n, arr))).

(** ** maep: presets *)

(** The body of the inner loop of impeghd_mp4_get_maep, 188-226.  The first write is behind
    the reference id.  Offsets and distance are stored in a WORD8, the gain in a UWORD8. *)
Definition con_one (j : nat) (cs : list pcond) : prog (list pcond) :=
  ref <- rd 7 ;;
  c0 <- aget cs (Z.of_nat j) ;;
  on <- rd 1 ;;
  if on =? 0 then
    aset cs (Z.of_nat j) (mkC ref on (c_disgain c0) (c_gainflag c0) (c_gain c0) (c_dispos c0)
                              (c_posflag c0) (c_az c0) (c_el c0) (c_dist c0))
  else
    rd 4 ;;; dg <- rd 1 ;; gf <- rd 1 ;; dp <- rd 1 ;; pf <- rd 1 ;;
    gv <- (if gf =? 0 then Ret (c_gain c0) else rd 8) ;;
    ' (az, el, di) <-
      (if pf =? 0 then Ret (c_az c0, c_el c0, c_dist c0)
       else a <- rd 8 ;; e <- rd 8 ;; d <- rd 8 ;; Ret (s8 a, s8 e, s8 d)) ;;
    aset cs (Z.of_nat j) (mkC ref on dg gf gv dp pf az el di).

(** The body of the outer loop, 176-227.  The first write is behind the preset id; the
    number of conditions passes through a WORD8 (185-187). *)
Definition pre_one (fix_ : bool) (i : nat) (arr : list pdef) : prog (res (list pdef)) :=
  rd 3 ;;; id <- rd 5 ;;
  p0 <- aget arr (Z.of_nat i) ;;
  rd 3 ;;; kind <- rd 5 ;;
  v <- rd 8 ;;
  guard fix_ (16 <? v) (
  let n := s8 v in
  cs <- forP (Z.to_nat n) 0 con_one (p_conds p0) ;;
  arr <- aset arr (Z.of_nat i) (mkP id kind n cs) ;;
  Ret (Ok arr)).

(** impeghd_mp4_get_maep, 168-228: num_group_presets, group_presets_definition. *)
Definition maep (fix_ : bool) (arr : list pdef) : prog (res (Z * list pdef)) :=
  rd 1 ;;; n <- rd 7 ;;
  guard fix_ (8 <? n) (
  r <- forR (Z.to_nat n) 0 (pre_one fix_) arr ;;
  match r with Ok arr => Ret (Ok (n, arr)) | Er e => Ret (Er e) end).

(** ** mael: descriptions *)

(** The part of ia_description_data (impeghd_mhas_parse.h:221-229) that decides about
    indices: descr_data_length[.][0] and grp_id, 128 entries each.  The other arrays have
    the same number of rows; a row of descr_data has 256 entries. *)
Record desc := mkDs { ds_len : list Z; ds_id : list Z }.

(** The writes of one block: all arrays at row [j]. *)
Definition block (d : desc) (j id : Z) : prog desc :=
  l <- aset (ds_len d) j 1 ;; i <- aset (ds_id d) j id ;; Ret (mkDs l i).

(** A loop over the entries of a row, one bit read for each. *)
Definition row (n : Z) : prog unit :=
  forP (Z.to_nat n) 0 (fun k _ => chk (Z.of_nat k) 256 ;;; rd 1 ;;; Ret tt) tt.

(** The loop bodies of impeghd_mp4_get_mael, 69-85, 100-115 and 130-144.  In the second one
    the number of entries is taken from the group descriptions (109).  The first write of
    each body is in row [j], before any read or behind the reserved bits. *)
Definition gblock (j : nat) (d : desc) : prog desc :=
  chk (Z.of_nat j) 128 ;;; rd 1 ;;; id <- rd 7 ;; d <- block d (Z.of_nat j) id ;;
  rd 8 ;;; row 1 ;;; chk 1 256 ;;; Ret d.
Definition sblock (gd : desc) (j : nat) (d : desc) : prog desc :=
  rd 3 ;;; chk (Z.of_nat j) 128 ;;; id <- rd 5 ;; d <- block d (Z.of_nat j) id ;;
  rd 8 ;;; n <- aget (ds_len gd) (Z.of_nat j) ;; row n ;;; chk (Z.max 0 n) 256 ;;; Ret d.
Definition pblock (j : nat) (d : desc) : prog desc :=
  chk (Z.of_nat j) 128 ;;; id <- rd 5 ;; d <- block d (Z.of_nat j) id ;;
  rd 8 ;;; row 1 ;;; chk 1 256 ;;; Ret d.

(** impeghd_mp4_get_mael, 52-156.  Behind each loop one more block is written (86-95,
    116-125, 146-155); there the clearing of descr_data of the switch group descriptions
    runs over the length in the group descriptions (122). *)
Definition mael (fix_ : bool) (g s p : desc) : prog (res (desc * desc * desc)) :=
  rd 4 ;;; rd 4 ;;; rd 24 ;;; rd 1 ;;;
  ng <- rd 7 ;;
  guard fix_ (128 <=? ng + 1) (
  g <- forP (Z.to_nat (ng + 1)) 0 gblock g ;;
  g <- block g (ng + 1) 0 ;;
  rd 3 ;;; ns <- rd 5 ;;
  s <- forP (Z.to_nat (ns + 1)) 0 (sblock g) s ;;
  s <- block s (ns + 1) 0 ;;
  n <- aget (ds_len g) (ns + 1) ;; (if 0 <=? n then chk n 256 else Ret tt) ;;;
  rd 3 ;;; np <- rd 5 ;;
  p <- forP (Z.to_nat (np + 1)) 0 pblock p ;;
  p <- block p (np + 1) 0 ;;
  Ret (Ok (g, s, p))).
