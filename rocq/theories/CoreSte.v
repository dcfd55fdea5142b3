(** * CoreSte: the stereo side information of a channel pair

    Models the header of a channel pair whose two channels are both coded in the frequency
    domain: common window, mid/side mask, complex prediction, long term postfilter and TNS
    flags, /repo/decoder/ia_core_coder_ext_ch_ele.c:127-320 and 1183-1388.
    Simplified: intelligent gap filling is not active for the element (igf_active 0, and
    therefore igf_stereo_filling 0), so max_sfb_ste_clear is SFB_NUM_MAX and the masks of gap
    filling (1288-1299) are not read. *)

From Coq Require Import ZArith List Bool.
From Verif Require Import Bits BitBuf Prog Config Oam CoreIcs.
Import ListNotations.
Open Scope Z_scope.

(** IA_MPEGH_DEC_INIT_FATAL_COMP_PRED_NOT_SUPPORTED and
    IA_MPEGH_DEC_EXE_FATAL_INVALID_PROFILE_CONFIG, impeghd_error_codes.h. *)
Definition E_COMPPRED : Z := 0xFFFF9032.
Definition E_PROFILE : Z := 0xFFFF9820.

(** ** Codewords
    ia_core_coder_book_scl_huff_code_word, ia_core_coder_hufftables_rom.c:69-94:
    (index, length, codeword). *)
Definition scl_book : list (Z * Z * Z) := [
  (60, 1, 0); (59, 3, 4); (61, 4, 10); (58, 4, 11); (62, 4, 12); (57, 5, 26); (63, 5, 27);
   (56, 6, 56); (64, 6, 57); (55, 6, 58); (65, 6, 59); (66, 7, 120); (54, 7, 121); (67, 7, 122);
   (53, 8, 246); (68, 8, 247); (52, 8, 248); (69, 8, 249); (51, 8, 250); (70, 9, 502);
   (50, 9, 503); (49, 9, 504); (71, 9, 505); (72, 10, 1012); (48, 10, 1013); (73, 10, 1014);
   (47, 10, 1015); (74, 10, 1016); (46, 10, 1017); (76, 11, 2036); (75, 11, 2037); (77, 11, 2038);
   (78, 11, 2039); (45, 11, 2040); (43, 11, 2041); (44, 12, 4084); (79, 12, 4085); (42, 12, 4086);
   (41, 12, 4087); (80, 12, 4088); (40, 12, 4089); (81, 13, 8180); (39, 13, 8181); (82, 13, 8182);
   (38, 13, 8183); (83, 13, 8184); (37, 14, 16370); (35, 14, 16371); (85, 14, 16372);
   (33, 14, 16373); (36, 14, 16374); (34, 14, 16375); (84, 14, 16376); (32, 14, 16377);
   (87, 15, 32756); (89, 15, 32757); (30, 15, 32758); (31, 15, 32759); (86, 16, 65520);
   (29, 16, 65521); (26, 16, 65522); (27, 16, 65523); (28, 16, 65524); (24, 16, 65525);
   (88, 16, 65526); (25, 17, 131054); (22, 17, 131055); (23, 17, 131056); (90, 18, 262114);
   (21, 18, 262115); (19, 18, 262116); (3, 18, 262117); (1, 18, 262118); (2, 18, 262119);
   (0, 18, 262120); (98, 19, 524242); (99, 19, 524243); (100, 19, 524244); (101, 19, 524245);
   (102, 19, 524246); (117, 19, 524247); (97, 19, 524248); (91, 19, 524249); (92, 19, 524250);
   (93, 19, 524251); (94, 19, 524252); (95, 19, 524253); (96, 19, 524254); (104, 19, 524255);
   (111, 19, 524256); (112, 19, 524257); (113, 19, 524258); (114, 19, 524259); (115, 19, 524260);
   (116, 19, 524261); (110, 19, 524262); (105, 19, 524263); (106, 19, 524264); (107, 19, 524265);
   (108, 19, 524266); (109, 19, 524267); (118, 19, 524268); (6, 19, 524269); (8, 19, 524270);
   (9, 19, 524271); (10, 19, 524272); (5, 19, 524273); (103, 19, 524274); (120, 19, 524275);
   (119, 19, 524276); (4, 19, 524277); (7, 19, 524278); (15, 19, 524279); (16, 19, 524280);
   (18, 19, 524281); (20, 19, 524282); (17, 19, 524283); (11, 19, 524284); (12, 19, 524285);
   (14, 19, 524286); (13, 19, 524287)].

(** ia_core_coder_huff_codeword, ia_core_coder_huff_tools.c:115-143: the loop; running off
    the table is out of bounds.  Codewords have at most 19 bits, so the 32 bit shift does not
    wrap. *)
Fixpoint cw_from (tab : list (Z * Z * Z)) (len code : Z) : prog Z :=
  match tab with
  | [] => Undef UOob
  | (ix, _, c) :: r =>
    if code =? c then Ret ix
    else
      match r with
      | [] => Undef UOob
      | (ix', l', _) :: _ =>
        let d := l' - len in
        if d <? 0 then Ret ix'
        else
          b <- rd d ;;
          cw_from r (len + d) (Z.lor (Z.shiftl code d) b)
      end
  end.
Definition codeword (tab : list (Z * Z * Z)) : prog Z :=
  match tab with
  | [] => Undef UOob
  | (_, l, _) :: _ => code <- rd l ;; cw_from tab l code
  end.

(** ** Complex prediction
    ia_core_coder_main.h:141-146 for one channel: cplx_pred_used, alpha_q_re, alpha_q_im (each
    8 rows of 136), alpha_q_re_prev, alpha_q_im_prev (136); pred_dir, complex_coef and
    use_prev_frame of the frame's temporary structure. *)
Record ste := mkSte {
  c_used : list (list Z); c_re : list (list Z); c_im : list (list Z);
  c_rp : list Z; c_ip : list Z; c_dir : Z; c_cplx : Z; c_prevf : Z }.

(** memset of n entries from an index on. *)
Definition fillr (l : list Z) (from n : nat) (v : Z) : prog (list Z) :=
  forP n from (fun i l => aset l (Z.of_nat i) v) l.

(** Number of bands of SFB_PER_PRED_BAND = 2 scale factor bands. *)
Definition pairs (ms : nat) : nat := Nat.div2 (ms + 1).

(** 157-163: the flags of a group when not all bands are predicted. *)
Definition used_band (ms : nat) (b : nat) (row : list Z) : prog (list Z) :=
  v <- rd 1 ;;
  row <- aset row (Z.of_nat (2 * b)) v ;;
  if (2 * b + 1 <? ms)%nat then aset row (Z.of_nat (2 * b + 1)) v else Ret row.
(** 146-168: one group; the row is taken out of the array and put back. *)
Definition used_grp (all : Z) (ms : nat) (g : nat) (u : list (list Z)) : prog (list (list Z)) :=
  row <- aget u (Z.of_nat g) ;;
  row <- (if all =? 1 then fillr row 0 ms 1 else forP (pairs ms) 0 (used_band ms) row) ;;
  row <- fillr row ms (136 - ms) 0 ;;
  aset u (Z.of_nat g) row.

(** 187-227: the coefficient of one band from those it is coded against. *)
Definition alpha_get (dt cplx : Z) (used re im rp ip : list Z) (sfb : nat) : prog (Z * Z) :=
  '(lr, li) <- (if dt =? 0 then
      if (0 <? sfb)%nat then
        x <- aget re (Z.of_nat sfb - 1) ;; y <- aget im (Z.of_nat sfb - 1) ;; Ret (x, y)
      else Ret (0, 0)
    else x <- aget rp (Z.of_nat sfb) ;; y <- aget ip (Z.of_nat sfb) ;; Ret (x, y)) ;;
  u <- aget used (Z.of_nat sfb) ;;
  if u =? 0 then Ret (0, 0)
  else
    x <- codeword scl_book ;;
    r <- addi (- x + 60) lr ;;
    if negb (cplx =? 0) then y <- codeword scl_book ;; i <- addi (- y + 60) li ;; Ret (r, i)
    else Ret (r, 0).

(** 205-236: where it is written. *)
Definition alpha_put (ms sfb : nat) (re im rp ip : list Z) (q : Z * Z) : prog (list Z * list Z * list Z * list Z) :=
  let '(r, i) := q in
  re <- aset re (Z.of_nat sfb) r ;;
  im <- aset im (Z.of_nat sfb) i ;;
  '(re, im) <- (if (sfb + 1 <? ms)%nat then
      re <- aset re (Z.of_nat (sfb + 1)) r ;; im <- aset im (Z.of_nat (sfb + 1)) i ;; Ret (re, im)
    else Ret (re, im)) ;;
  rp <- aset rp (Z.of_nat sfb) r ;;
  ip <- aset ip (Z.of_nat sfb) i ;;
  Ret (re, im, rp, ip).

(** 185-236: one band; the state is (row of alpha_q_re, row of alpha_q_im, alpha_q_re_prev,
    alpha_q_im_prev). *)
Definition alpha_band (dt cplx : Z) (ms : nat) (used : list Z) (b : nat)
    (st : list Z * list Z * list Z * list Z) : prog (list Z * list Z * list Z * list Z) :=
  let '(re, im, rp, ip) := st in
  q <- alpha_get dt cplx used re im rp ip (2 * b) ;;
  alpha_put ms (2 * b) re im rp ip q.

(** 185-247: one group; the rows are taken out of the arrays and put back. *)
Definition alpha_grp (dt cplx : Z) (ms : nat) (u : list (list Z)) (g : nat)
    (st : list (list Z) * list (list Z) * list Z * list Z)
    : prog (list (list Z) * list (list Z) * list Z * list Z) :=
  let '(re, im, rp, ip) := st in
  used <- aget u (Z.of_nat g) ;;
  rre <- aget re (Z.of_nat g) ;;
  rim <- aget im (Z.of_nat g) ;;
  '(rre, rim, rp, ip) <- forP (pairs ms) 0 (alpha_band dt cplx ms used) (rre, rim, rp, ip) ;;
  rre <- fillr rre ms (136 - ms) 0 ;;
  rim <- fillr rim ms (136 - ms) 0 ;;
  rp <- fillr rp ms (136 - ms) 0 ;;
  ip <- fillr ip ms (136 - ms) 0 ;;
  re <- aset re (Z.of_nat g) rre ;;
  im <- aset im (Z.of_nat g) rim ;;
  Ret (re, im, rp, ip).

(** ia_core_coder_cplx_pred_data, 127-253; [indep] is usac_independency_flg, [ms] max_sfb_ste. *)
Definition cplx_pred (indep : Z) (ng ms : nat) (s : ste) : prog ste :=
  all <- rd 1 ;;
  u <- forP ng 0 (used_grp all ms) (c_used s) ;;
  dir <- rd 1 ;;
  cplx <- rd 1 ;;
  pf <- (if negb (cplx =? 0) then (if indep =? 0 then rd 1 else Ret 0) else Ret (c_prevf s)) ;;
  dt <- (if indep =? 0 then rd 1 else Ret 0) ;;
  '(re, im, rp, ip) <- forP ng 0 (alpha_grp dt cplx ms u) (c_re s, c_im s, c_rp s, c_ip s) ;;
  Ret (mkSte u re im rp ip dir cplx pf).

(** ** Mid/side
    287-315 of ia_core_coder_read_ms_mask: the loop over the groups, whose ends are in
    group_dis; [all] tells case 2 from case 1, [nsb] is sfb_per_sbk, [p] how far the pointer
    into ms_used (128) has moved. *)
Definition ms_bit (p : Z) (b : nat) (l : list Z) : prog (list Z) :=
  v <- rd 1 ;; aset l (p + Z.of_nat b) v.
Definition ms_fill (p : Z) (v : Z) (b : nat) (l : list Z) : prog (list Z) := aset l (p + Z.of_nat b) v.

Fixpoint ms_groups (fuel : nat) (all : bool) (ms nsb : nat) (mwl : Z) (gd : list Z) (k : nat) (grp p : Z)
    (l : list Z) : prog (list Z) :=
  if mwl <=? grp then Ret l
  else
    match fuel with
    | O => Undef UFuel
    | S f =>
      l <- forP ms 0 (if all then ms_fill p 1 else ms_bit p) l ;;
      l <- (if (ms <? nsb)%nat then forP (nsb - ms) ms (ms_fill p 0) l else Ret l) ;;
      g <- aget gd (Z.of_nat k) ;;
      ms_groups f all ms nsb mwl gd (S k) g (p + Z.of_nat nsb) l
    end.

(** ia_core_coder_read_ms_mask, 269-320; [mwl] is max_win_len: 8 for short windows, else 1. *)
Definition ms_mask (indep : Z) (ng ms nsb : nat) (mwl : Z) (gd : list Z) (s : ste) (used : list Z)
    : prog (Z * ste * list Z) :=
  m <- rd 2 ;;
  if m =? 3 then s <- cplx_pred indep ng ms s ;; Ret (m, s, used)
  else if m =? 2 then l <- ms_groups 9 true ms nsb mwl gd 0 0 0 used ;; Ret (m, s, l)
  else if m =? 1 then l <- ms_groups 9 false ms nsb mwl gd 0 0 0 used ;; Ret (m, s, l)
  else Ret (m, s, used).
