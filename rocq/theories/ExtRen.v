(** * ExtRen: the metadata written for an external renderer
    (decoder/impeghd_ext_rend_intrfc.c and its callers in ia_core_coder_decode_main.c)

    The writers only ever append to the bit buffer and never look at it, so each of them is
    modelled by the list of write calls it performs (a function of the decoder's
    structures), and the buffer is the result of running these calls on the bit writer of
    BitWrite.v.  Reads outside of an array, a division by zero and float to integer
    conversions that do not fit are undefined outcomes. *)

From Coq Require Import ZArith List Lia Bool.
From Verif Require Import Bits BitBuf BitWrite F32 Pcm Config Hoa Oam.
Import ListNotations.
Open Scope Z_scope.

(** A call of impeghd_write_bits_buf(value, n) or impeghd_write_escape_value(value, n1, n2,
    n3).  Both take the value as UWORD32. *)
Inductive wop := WB (v n : Z) | WE (v n1 n2 n3 : Z).

Definition run_op (o : wop) (s : wbuf) : outcome wbuf :=
  match o with
  | WB v n => write_bits (u32 v) n s
  | WE v a b c =>
    match write_escape (u32 v) a b c s with
    | Done (_, s') => Done s' | Jmp c => Jmp c | UB r => UB r
    end
  end.
Fixpoint run_ops (l : list wop) (s : wbuf) : outcome wbuf :=
  match l with
  | [] => Done s
  | o :: l => match run_op o s with Done s' => run_ops l s' | Jmp c => Jmp c | UB r => UB r end
  end.

Notation "'dof' x <- c ; k" :=
  (match c with Done x => k | Jmp e => Jmp e | UB r => UB r end)
  (at level 200, x pattern, c at level 100, k at level 200, right associativity).

(** Element [i] of an array. *)
Definition el {A} (l : list A) (i : Z) : outcome A :=
  if (0 <=? i) && (i <? Z.of_nat (length l)) then
    match nth_error l (Z.to_nat i) with Some a => Done a | None => UB UOob end
  else UB UOob.

(** [for (i = i0; i < i0 + n; i++)] over a body that only writes. *)
Fixpoint each (n : nat) (i : Z) (body : Z -> outcome (list wop)) : outcome (list wop) :=
  match n with
  | O => Done []
  | S n => dof a <- body i ; dof b <- each n (i + 1) body ; Done (a ++ b)
  end.

(** ** Loudspeaker layouts *)

(** impeghd_write_spk_description, ext_rend_intrfc.c:87-135. *)
Definition x_spk_desc (f : flex) (prec : Z) : list wop :=
  WB (f_cicp f) 1 ::
  (if f_cicp f =? 0 then
     WB (f_elc f) 2 ::
     (if f_elc f =? 3 then
        WB (f_el f) (if prec =? 0 then 5 else 7) ::
        (if idx_degree (f_el f) (f_eldir f) prec =? 0 then [] else [WB (f_eldir f) 1])
      else []) ++
     WB (f_az f) (if prec =? 0 then 6 else 8) ::
     (let a := idx_degree (f_az f) (f_azdir f) prec in
      if (a =? 0) || (a =? 180) then [] else [WB (f_azdir f) 1]) ++
     [WB (f_lfe f) 1]
   else [WB (f_idx f) 7]).

(** impeghd_write_flexispk_config, ext_rend_intrfc.c:150-183.  [also] is
    also_add_symetric_pair of the structure.  The local add_symetric_pair_also is never
    changed from 0, so 172-179 are not reached. *)
Definition x_flexispk (l : layout) (also : Z) : outcome (list wop) :=
  dof ops <- each (Z.to_nat (l_num l)) 0 (fun i =>
    dof f <- el (l_flex l) i ;
    let a := if f_cicp f =? 0 then idx_degree (f_az f) (f_azdir f) (l_prec l) else 0 in
    Done (x_spk_desc f (l_prec l) ++ (if (a =? 0) || (a =? 180) then [] else [WB also 1]))) ;
  Done (WB (l_prec l) 1 :: ops).

(** impeghd_write_speaker_config_3d, ext_rend_intrfc.c:197-223: the writes and the layout as
    it is left behind. *)
Definition x_spk3d (l : layout) (also : Z) : outcome (list wop * layout) :=
  if l_type l =? 0 then Done ([WB (l_type l) 2; WB (l_idx l) 6], l)
  else if l_type l =? 1 then
    dof ops <- each (Z.to_nat (l_num l)) 0 (fun i => dof v <- el (l_spk l) i ; Done [WB v 7]) ;
    Done (WB (l_type l) 2 :: WE (l_num l - 1) 5 8 16 :: ops, s_l_idx l (-1))
  else if l_type l =? 2 then
    dof ops <- x_flexispk l also ;
    Done (WB (l_type l) 2 :: WE (l_num l - 1) 5 8 16 :: ops, s_l_idx l (-1))
  else Done ([WB (l_type l) 2], l).

(** ** Channels *)

(** ia_prod_meta_data_struct, config.h:546-565: the fields the writers use. *)
Record prodmd := mkPm {
  pm_present : Z; pm_len : Z; pm_hasref : Z; pm_ref : Z;
  pm_hasobj : list Z; pm_head : list Z; pm_dist : list Z }.

(** impeghd_write_gca_prod_metadata_frm_ext_ren, ext_rend_intrfc.c:238-252. *)
Definition x_gca_prod (pm : prodmd) (ngrp : Z) : outcome (list wop) :=
  dof ops <- each (Z.to_nat ngrp) 0 (fun i => dof v <- el (pm_head pm) i ; Done [WB v 1]) ;
  Done (ops ++ WB (pm_hasref pm) 1 :: (if pm_hasref pm =? 0 then [] else [WB (pm_ref pm) 7])).

(** The bytes of one downmix matrix, ext_rend_intrfc.c:395-415. *)
Definition x_mtx_bits (len : Z) (bytes : list Z) : outcome (list wop) :=
  dof ops <- each (Z.to_nat (len / 8)) 0 (fun i => dof v <- el bytes i ; Done [WB v 8]) ;
  if len mod 8 =? 0 then Done ops
  else dof v <- el bytes (len / 8) ; Done (ops ++ [WB (Z.shiftr v (8 - len mod 8)) (len mod 8)]).

(** One matrix, ext_rend_intrfc.c:385-415. *)
Definition x_mtx (m : dmat) (j : Z) : outcome (list wop) :=
  dof ng <- el (dm_ngrp m) j ;
  dof gs <- el (dm_grp m) j ;
  dof ops <- each (Z.to_nat ng) 0 (fun i => dof g <- el gs i ; Done [WB g 5]) ;
  dof len <- el (dm_len m) j ;
  dof bytes <- el (dm_bytes m) j ;
  dof body <- x_mtx_bits len bytes ;
  Done (WE (ng - 1) 1 4 4 :: ops ++ WE len 8 8 12 :: body).

(** One downmix entry, ext_rend_intrfc.c:368-423. *)
Definition x_dent (cicp : Z) (m : dmat) : outcome (list wop) :=
  if dm_lay m =? cicp then
    if dm_type m =? 1 then
      dof ops <- each (Z.to_nat (dm_cnt m)) 0 (x_mtx m) ;
      Done (WB (dm_id m) 7 :: WB (dm_type m) 2 :: WB (dm_lay m) 6 :: WE (dm_cnt m - 1) 1 3 0 :: ops)
    else if dm_type m =? 0 then
      Done [WB (dm_id m) 7; WB (dm_type m) 2; WB (dm_lay m) 6]
    else Done [WB (dm_id m) 7; WB (dm_type m) 2]
  else Done [].

(** impeghd_write_downmix_cfg, ext_rend_intrfc.c:345-427. *)
Definition x_dmx (d : dmxc) (cicp : Z) : outcome (list wop) :=
  dof ops <- (if (dx_type d =? 1) || (dx_type d =? 2) then
                each (Z.to_nat (dx_cnt d)) 0 (fun i => dof m <- el (dx_mat d) i ; x_dent cicp m)
              else Done []) ;
  Done (WB (dx_type d) 2 ::
        (if (dx_type d =? 0) || (dx_type d =? 2) then
           WB (dx_passive d) 1 ::
           (if dx_passive d =? 0 then [WB (dx_phase d) 3] else []) ++ [WB (dx_imm d) 1]
         else []) ++
        (if (dx_type d =? 1) || (dx_type d =? 2) then WB (dx_cnt d) 5 :: ops else [])).

(** The search loops 472-475 and 885-888: the next group of the type, from [i] on. *)
Fixpoint seek (fuel : nat) (ty : Z) (types : list Z) (i : Z) : outcome Z :=
  dof t <- el types i ;
  if t =? ty then Done i else
  match fuel with O => UB UFuel | S f => seek f ty types (i + 1) end.

(** What impeghd_write_ch_meta_data_for_ext_ren reads: the signal groups, the flag
    also_add_symetric_pair of every layout, the downmix extension, the production metadata
    and the target layout index. *)
Record chst := mkCh {
  c_sig : sigs; c_also : list Z; c_dmxp : Z; c_dmx : dmxc; c_prod : prodmd; c_cicp : Z }.
Definition s_c_lay (c : chst) (l : list layout) : chst :=
  mkCh (s_q_lay (c_sig c) l) (c_also c) (c_dmxp c) (c_dmx c) (c_prod c) (c_cicp c).

(** One pass of the loop 468-525 with idx_ch_grp = [idx]: the writes, the structure left
    behind and the next idx_ch_grp.  id_element is an array of 32 by 32 zeros. *)
Definition x_ch_group (c : chst) (grp idx : Z) : outcome (list wop * chst * Z) :=
  let q := c_sig c in
  dof n0 <- el (q_nsig q) idx ;
  dof l <- el (q_lay q) idx ;
  dof also <- el (c_also c) idx ;
  dof (spk, l') <- x_spk3d l also ;
  let c' := s_c_lay c (Hoa.upd (q_lay q) (Z.to_nat idx) l') in
  dof j <- seek (S (length (q_type q))) 0 (q_type q) idx ;
  dof n <- el (q_nsig q) j ;
  dof ids <- each (Z.to_nat n) 0 (fun ch =>
    dof row <- el (repeat (repeat 0 32) 32) grp ; dof v <- el row ch ; Done [WB v 9]) ;
  dof fixed <- el (q_fixed q) j ;
  dof prio <- el (q_prio q) j ;
  dof dmx <- (if c_dmxp c =? 0 then Done [] else x_dmx (c_dmx c) (c_cicp c)) ;
  dof ext <- (if pm_present (c_prod c) =? 1 then
                dof body <- x_gca_prod (c_prod c) (q_gch q) ;
                Done (WB 1 3 :: WB 0 3 :: WB (pm_len (c_prod c)) 10 :: body)
              else Done [WB 0 3]) ;
  Done (WB n0 16 :: spk ++ ids ++ [WB fixed 1; WB prio 3; WB 96 8; WB (c_dmxp c) 1] ++ dmx ++ ext,
        c', j + 1).

Fixpoint x_ch_groups (n : nat) (grp idx : Z) (c : chst) : outcome (list wop * chst) :=
  match n with
  | O => Done ([], c)
  | S n =>
    dof (a, c, idx) <- x_ch_group c grp idx ;
    dof (b, c) <- x_ch_groups n (grp + 1) idx c ;
    Done (a ++ b, c)
  end.

(** impeghd_write_ch_meta_data_for_ext_ren, ext_rend_intrfc.c:443-527
    (AUDIO_CODEC_FRAME_SIZE_MAX is 1024). *)
Definition x_ch_meta (c : chst) : outcome (list wop * chst) :=
  dof (ops, c') <- x_ch_groups (Z.to_nat (q_gch (c_sig c))) 0 0 c ;
  Done (WB (Z.shiftr 1024 6) 6 :: WB 0 2 :: WB (q_gch (c_sig c)) 9 :: ops, c').

(** ** Objects *)

(** What impeghd_write_oam_meta_data_for_ext_ren reads.  [b_ids] is None when no audio scene
    is present, otherwise metadata_ele_id of every group definition. *)
Record obst := mkOb {
  b_sig : sigs; b_cfg : oamc; b_st : oamst; b_enhc : enhc; b_enh : enhst;
  b_ids : option (list (list Z)); b_prod : prodmd }.

(** A conversion (WORD32)x. *)
Definition w32 (x : f32) : outcome Z :=
  match to_int (- 2 ^ 31) (2 ^ 31 - 1) x with Some v => Done v | None => UB UOverflow end.

(** impeghd_get_goa_ele_id, ext_rend_intrfc.c:319-330 (the result is a WORD16). *)
Definition x_goa_id (ids : option (list (list Z))) (grp obj off : Z) : outcome Z :=
  match ids with
  | Some t => dof l <- el t grp ; el l obj
  | None => Done (to_s 16 (off + obj))
  end.

(** The loop 565-575: the first object group and the number of signals before it. *)
Fixpoint first_obj (n : nat) (i off : Z) (q : sigs) : outcome (Z * Z) :=
  match n with
  | O => Done (i, off)
  | S n =>
    dof t <- el (q_type q) i ;
    if t =? 1 then Done (i, off) else
    dof k <- el (q_nsig q) i ; first_obj n (i + 1) (off + k) q
  end.

(** One sub-frame of one object, ext_rend_intrfc.c:589-611. *)
Definition x_oam_frame (b : obst) (n obj fr : Z) : outcome (list wop) :=
  let i := fr * n + obj in
  let w := o_raw (b_st b) in
  dof has <- el (o_has (b_st b)) i ;
  if has =? 1 then
    dof az <- el (r_az w) i ; dof e <- el (r_el w) i ;
    dof rad <- el (r_rad w) i ; dof g <- el (r_gain w) i ;
    dof pri <- el (r_pri w) i ;
    dof sw <- el (r_sw w) i ; dof sh <- el (r_sh w) i ; dof sd <- el (r_sd w) i ;
    Done ([WB has 1; WB az 8; WB e 6; WB rad 4; WB g 7] ++
          (if oc_dyn (b_cfg b) =? 0 then [] else [WB pri 3]) ++
          (if oc_uni (b_cfg b) =? 0 then [WB sw 7; WB sh 5; WB sd 4] else [WB sw 7]))
  else Done [WB has 1].

(** One exclusion sector, ext_rend_intrfc.c:626-642. *)
Definition x_sector (s : sector) : outcome (list wop) :=
  if sc_pre s =? 0 then
    dof a <- w32 (sc_minaz s) ; dof b <- w32 (sc_maxaz s) ;
    dof c <- w32 (sc_minel s) ; dof d <- w32 (sc_maxel s) ;
    Done [WB (sc_pre s) 1; WB a 7; WB b 7; WB c 5; WB d 5]
  else Done [WB (sc_pre s) 1; WB (sc_idx s) 4].

(** One object, ext_rend_intrfc.c:581-643. *)
Definition x_object (b : obst) (nfr grp off obj : Z) : outcome (list wop) :=
  dof id <- x_goa_id (b_ids b) grp obj off ;
  dof frs <- each (Z.to_nat nfr) 0 (x_oam_frame b (o_n (b_st b)) obj) ;
  dof fixed <- el (q_fixed (b_sig b)) obj ;
  dof prio <- el (q_prio (b_sig b)) obj ;
  dof df <- el (e_diff (b_enh b)) obj ; dof df <- w32 df ;
  dof dv <- el (e_div (b_enh b)) obj ; dof dv <- w32 dv ;
  dof rng <- el (en_az (b_enhc b)) obj ;
  dof ex <- el (e_exc (b_enh b)) obj ;
  dof secs <- each (Z.to_nat (ex_num ex)) 0 (fun i => dof s <- el (ex_sec ex) i ; x_sector s) ;
  Done ([WB id 9; WB (oc_dyn (b_cfg b)) 1; WB (oc_uni (b_cfg b)) 1; WB nfr 6] ++ frs ++
        [WB fixed 1; WB prio 3; WB df 7; WB dv 7; WB rng 6; WB (ex_num ex) 4] ++ secs).

(** impeghd_write_oam_meta_data_for_ext_ren, ext_rend_intrfc.c:545-670.  The switch 660-666
    compares ID_EXT_GOA_PROD_METADATA (0, ia_core_coder_config.h:101) with
    ID_EXT_ELE_PROD_METADATA (14, :99): impeghd_write_goa_prod_meta_data_for_ext_ren is
    never called. *)
Definition x_oam_meta (b : obst) : outcome (list wop) :=
  let c := b_cfg b in
  if oc_fl c =? 0 then UB UDiv else
  let nfr := Z.quot (oc_ccfl c) (oc_fl c) in
  dof (grp, off) <- first_obj (Z.to_nat (q_num (b_sig b))) 0 0 (b_sig b) ;
  dof objs <- each (Z.to_nat (o_n (b_st b))) 0 (x_object b nfr grp off) ;
  Done (WB (Z.shiftr (oc_fl c) 6) 6 :: WB 0 2 :: WB (o_n (b_st b)) 9 :: objs ++
        (if pm_present (b_prod b) =? 1 then [WB 1 3; WB 0 3; WB (pm_len (b_prod b)) 10]
         else [WB 0 3])).

(** ** Higher order ambisonics *)

(** ia_production_screen_size_data and ia_production_screen_size_ext_data,
    impeghd_mhas_parse.h:243-265. *)
Record scrn := mkScr { sz_non : Z; sz_az : Z; sz_el : Z; sz_bot : Z }.
Record scrx := mkScx {
  sx_over : Z; sx_dl : Z; sx_dr : Z; sx_num : Z;
  sx_id : list Z; sx_non : list Z; sx_cen : list Z;
  sx_left : list Z; sx_right : list Z; sx_top : list Z; sx_bot : list Z }.

(** impeghd_write_mae_prod_screen_size, ext_rend_intrfc.c:684-695. *)
Definition x_screen (s : scrn) : list wop :=
  WB (sz_non s) 1 ::
  (if sz_non s =? 0 then [] else [WB (sz_az s) 9; WB (sz_el s) 9; WB (sz_bot s) 9]).

(** impeghd_write_mae_prod_screen_size_dataext, ext_rend_intrfc.c:709-752. *)
Definition x_screen_ext (x : scrx) : outcome (list wop) :=
  dof ops <- each (Z.to_nat (sx_num x)) 0 (fun i =>
    dof id <- el (sx_id x) i ;
    dof non <- el (sx_non x) i ;
    if non =? 0 then Done [WB id 5; WB non 1] else
    dof cen <- el (sx_cen x) i ;
    dof lf <- el (sx_left x) i ; dof rt <- el (sx_right x) i ;
    dof tp <- el (sx_top x) i ; dof bt <- el (sx_bot x) i ;
    Done ([WB id 5; WB non 1; WB cen 1] ++
          (if cen =? 0 then [WB lf 10; WB rt 10] else [WB lf 9]) ++ [WB tp 9; WB bt 9])) ;
  Done (WB (sx_over x) 1 ::
        (if sx_over x =? 0 then [] else [WB (sx_dl x) 10; WB (sx_dr x) 10]) ++
        WB (sx_num x) 5 :: ops).

(** The loop 774-777; [sqr * sqr > n] ends at 0 for every n >= 0. *)
Fixpoint x_sqr (fuel : nat) (sqr n : Z) : outcome Z :=
  if n <? sqr * sqr then
    match fuel with O => UB UFuel | S f => x_sqr f (sqr - 1) n end
  else Done sqr.

(** impeghd_write_hoa_matrix_wrapper, ext_rend_intrfc.c:767-852: num_pairs is never changed
    from 0, so no pair flag is written. *)
Definition x_hoa_matrix (m : hmat) (ncoef : Z) : outcome (list wop) :=
  dof sqr <- x_sqr 8 7 ncoef ;
  let gain i := dof mx <- el (m_max m) i ; dof mn <- el (m_min m) i ;
                Done [WE (- mx) 3 5 6; WE (mx - mn - 1) 4 5 6] in
  dof gains <- (if m_glp m =? 1 then each (Z.to_nat sqr) 0 gain else gain 0) ;
  Done ([WB (m_prec m) 2; WB (m_norm m) 1; WB (m_glp m) 1] ++ gains ++
        WB (m_full m) 1 :: (if m_full m =? 0 then [WB (m_fso m) (clog2 sqr)] else []) ++
        [WB (m_lfer m) 1; WB (m_zop m) 1; WB (m_allv m) 1] ++
        (if m_allv m =? 0 then
           WB (m_anyv m) 1 ::
           (if m_anyv m =? 0 then
              WB (m_alls m) 1 :: (if m_alls m =? 0 then [WB (m_anys m) 1] else [])
            else [WB (m_anys m) 1])
         else []) ++
        [WB (m_vert m) 1]).

(** What impeghd_write_hoa_meta_data_for_ext_ren reads: of ia_hoa_config_struct
    (config.h:147-200) frame_length, order, uses_nfc, nfc_ref_distance, matrix_present,
    the matrix, num_coeffs and is_screen_relative. *)
Record host := mkHo {
  a_sig : sigs; a_fl : Z; a_order : Z; a_nfc : Z; a_ref : f32; a_matp : Z; a_mat : hmat;
  a_ncoef : Z; a_srel : Z; a_scr : scrn; a_scx : scrx; a_prod : prodmd }.

(** The conversion (UWORD32)x of a float, 895. *)
Definition uw32 (x : f32) : outcome Z :=
  match to_int 0 (2 ^ 32 - 1) x with Some v => Done v | None => UB UOverflow end.

(** One pass of the loop 883-912. *)
Definition x_hoa_group (a : host) (idx : Z) : outcome (list wop * Z) :=
  let q := a_sig a in
  dof j <- seek (S (length (q_type q))) 3 (q_type q) idx ;
  dof fixed <- el (q_fixed q) j ;
  dof prio <- el (q_prio q) j ;
  dof nfc <- (if a_nfc a =? 0 then Done [] else dof r <- uw32 (a_ref a) ; Done [WB r 32]) ;
  dof mat <- (if a_matp a =? 0 then Done [] else
                dof ops <- x_hoa_matrix (a_mat a) (a_ncoef a) ;
                Done (WE (m_len (a_mat a)) 8 8 12 :: ops)) ;
  dof scr <- (if a_srel a =? 0 then Done [] else
                dof ops <- x_screen_ext (a_scx a) ; Done (x_screen (a_scr a) ++ ops)) ;
  Done ([WB fixed 1; WB prio 3; WB (a_order a) 9; WB (a_nfc a) 1] ++ nfc ++
        WB (a_matp a) 1 :: mat ++ WB (a_srel a) 1 :: scr, j + 1).

Fixpoint x_hoa_groups (n : nat) (idx : Z) (a : host) : outcome (list wop) :=
  match n with
  | O => Done []
  | S n => dof (x, idx) <- x_hoa_group a idx ; dof y <- x_hoa_groups n idx a ; Done (x ++ y)
  end.

(** impeghd_write_hoa_meta_data_for_ext_ren, ext_rend_intrfc.c:867-932 (the switch 923-928
    never matches, as above). *)
Definition x_hoa_meta (a : host) : outcome (list wop) :=
  dof ops <- x_hoa_groups (Z.to_nat (q_ghoa (a_sig a))) 0 a ;
  Done (WB (Z.shiftr (a_fl a) 6) 6 :: WB 0 2 :: WB (q_ghoa (a_sig a)) 9 :: ops ++
        (if pm_present (a_prod a) =? 1 then [WB 1 3; WB 0 3; WB (pm_len (a_prod a)) 10] else [])).

(** ** The callers *)

(** ia_core_coder_decode_main.c:2066-2071, 2176-2183 and 2319-2325: the application's
    buffer [mem] is taken to have 768 bytes; what is written into it and the payload length
    that is reported. *)
Definition x_store (ops : list wop) (mem : list Z) : outcome (list Z * Z) :=
  dof s <- run_ops ops (wfresh mem) ; Done (w_data s, Z.shiftr (w_cnt s + 7) 3).
Definition ch_store (c : chst) (mem : list Z) : outcome (list Z * Z * chst) :=
  dof (ops, c') <- x_ch_meta c ; dof (d, n) <- x_store ops mem ; Done (d, n, c').
Definition ob_store (b : obst) (mem : list Z) : outcome (list Z * Z) :=
  dof ops <- x_oam_meta b ; x_store ops mem.
Definition ho_store (a : host) (mem : list Z) : outcome (list Z * Z) :=
  dof ops <- x_hoa_meta a ; x_store ops mem.
