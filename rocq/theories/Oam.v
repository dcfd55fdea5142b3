(** * Oam: object metadata frames

    Low-delay object metadata: decoder/impeghd_oam_dec_ld.c:61-771, its callers
    impeghd_oam_dec.c:72-86 and ia_core_coder_decode_main.c:2005-2056, the enhanced object
    metadata frame impeghd_oam_dec.c:250-537 and the choice of the metadata slot by the
    renderer ia_core_coder_decode_main.c:1360-1414.

    The tables of ia_oam_dec_state_struct (impeghd_oam_dec_struct_def.h:72-108) hold
    96 = 4 * 24 entries: [num_objects] entries per sub-frame.  The values of pow() in
    impeghd_descale_ld_obj_md are parameters ([powers]): the C standard does not fix them. *)

From Coq Require Import ZArith List Lia Bool SpecFloat.
From Verif Require Import Bits BitBuf Prog Config F32.
Import ListNotations.
Open Scope Z_scope.
Open Scope prog_scope.

Definition E_OAM_UNSUPPORTED : Z := 0xFFFF9D00.
Definition E_OAM_FRAMELEN : Z := 0xFFFF9D01.

(** What pow() returns in impeghd_oam_dec_ld.c:699-712, as functions of the integer field:
    [(FLOAT32)pow(2.0f, radius / 3.0f)], [(FLOAT32)pow(10.0f, (gain - 32.0f) / 40.0f)] and
    [(FLOAT32)(pow(2.0f, spread_depth / 3.0) / 2.0f)]. *)
Record powers := mkPw { p_rad : Z -> f32; p_gain : Z -> f32; p_dep : Z -> f32 }.

(** The integer tables azimuth .. dyn_obj_priority, impeghd_oam_dec_struct_def.h:81-88. *)
Record raws := mkRaw {
  r_az : list Z; r_el : list Z; r_rad : list Z; r_gain : list Z;
  r_sw : list Z; r_sh : list Z; r_sd : list Z; r_pri : list Z }.

(** The descaled tables, impeghd_oam_dec_struct_def.h:89-96. *)
Record dscs := mkDsc {
  d_az : list f32; d_el : list f32; d_rad : list f32; d_gain : list f32;
  d_sw : list f32; d_sh : list f32; d_sd : list f32; d_pri : list f32 }.

(** The "fixed" flags of the last intra frame, impeghd_oam_dec_struct_def.h:97-102. *)
Record fixs := mkFix { x_az : Z; x_el : Z; x_rad : Z; x_gain : Z; x_sp : Z; x_pri : Z }.

(** ia_oam_dec_state_struct, impeghd_oam_dec_struct_def.h:71-103 (intra_frame_period is not
    used; p_obj_md_cfg is passed separately). *)
Record oamst := mkO {
  o_n : Z;              (* num_objects *)
  o_sub : Z;            (* sub_frame_number *)
  o_pres : list Z;      (* sub_frame_obj_md_present, 4 entries *)
  o_has : list Z;       (* has_obj_md *)
  o_smp : list Z;       (* sample *)
  o_raw : raws; o_dsc : dscs; o_fix : fixs }.

(** C int addition: overflow is undefined. *)
Definition addi (a b : Z) : prog Z :=
  if (- 2 ^ 31 <=? a + b) && (a + b <? 2 ^ 31) then Ret (a + b) else Undef UOverflow.

(** impeghd_oam_read_sign_param, impeghd_oam_dec_ld.c:170-178. *)
Definition rd_signed (n : Z) : prog Z :=
  v <- rd n ;; Ret (if 2 ^ (n - 1) <=? v then v - 2 ^ n else v).

(** [tab[i] += d]. *)
Definition acc (l : list Z) (i d : Z) : prog (list Z) :=
  v <- aget l i ;; w <- addi v d ;; aset l i w.

(** Store the same value at [base], ..., [base + n - 1]. *)
Definition store_all (l : list Z) (base : Z) (n : Z) (v : Z) : prog (list Z) :=
  forP (Z.to_nat n) 0 (fun i l => aset l (base + Z.of_nat i) v) l.

(** impeghd_ic_oam_ld_signed_param_dec / _unsigned_param_dec, impeghd_oam_dec_ld.c:193-279;
    [rdv] is the reading function, [base] the index of param_buf. *)
Definition param_dec (rdv : prog Z) (fixed : Z) (l : list Z) (base n : Z) : prog (list Z) :=
  if negb (fixed =? 0) then v <- rdv ;; store_all l base n v
  else c <- rd 1 ;;
    if negb (c =? 0) then v <- rdv ;; store_all l base n v
    else forP (Z.to_nat n) 0 (fun i l => v <- rdv ;; aset l (base + Z.of_nat i) v) l.

(** The spread fields of a non-uniform spread: width, height, depth. *)
Definition rd_spread3 : prog (Z * Z * Z) :=
  w <- rd 7 ;; h <- rd 5 ;; d <- rd 4 ;; Ret (w, h, d).

Definition store3_all (base n : Z) (whd : Z * Z * Z) (t : list Z * list Z * list Z) :
  prog (list Z * list Z * list Z) :=
  let '(w, h, d) := whd in
  forP (Z.to_nat n) 0 (fun i '(lw, lh, ld) =>
    lw <- aset lw (base + Z.of_nat i) w ;;
    lh <- aset lh (base + Z.of_nat i) h ;;
    ld <- aset ld (base + Z.of_nat i) d ;; Ret (lw, lh, ld)) t.

(** Spread part of impeghd_ic_obj_md_ld_dec, impeghd_oam_dec_ld.c:571-652. In the fixed,
    uniform case the loop runs over 0 .. num_objects - 1 whatever the sub-frame is (629-637). *)
Definition spread_dec (uni base n : Z) (t : list Z * list Z * list Z) :
  prog (Z * (list Z * list Z * list Z)) :=
  let '(lw, lh, ld) := t in
  fs <- rd 1 ;;
  t' <- (if fs =? 0 then
           c <- rd 1 ;;
           if negb (c =? 0) then
             if negb (uni =? 0) then v <- rd 7 ;; lw <- store_all lw base n v ;; Ret (lw, lh, ld)
             else whd <- rd_spread3 ;; store3_all base n whd t
           else
             if negb (uni =? 0) then
               lw <- forP (Z.to_nat n) 0 (fun i l => v <- rd 7 ;; aset l (base + Z.of_nat i) v) lw ;;
               Ret (lw, lh, ld)
             else forP (Z.to_nat n) 0 (fun i '(lw, lh, ld) =>
               ' (w, h, d) <- rd_spread3 ;;
               lw <- aset lw (base + Z.of_nat i) w ;;
               lh <- aset lh (base + Z.of_nat i) h ;;
               ld <- aset ld (base + Z.of_nat i) d ;; Ret (lw, lh, ld)) t
         else
           if negb (uni =? 0) then v <- rd 7 ;; lw <- store_all lw 0 n v ;; Ret (lw, lh, ld)
           else whd <- rd_spread3 ;; store3_all base n whd t) ;;
  Ret (fs, t').

(** impeghd_ic_obj_md_ld_dec, impeghd_oam_dec_ld.c:486-664. *)
Definition intra_dec (c : oamc) (n base : Z) (w : raws) (x : fixs) : prog (raws * fixs) :=
  if n <=? 1 then
    v <- rd_signed 8 ;; az <- aset (r_az w) base v ;;
    v <- rd_signed 6 ;; el <- aset (r_el w) base v ;;
    v <- rd 4 ;; rad <- aset (r_rad w) base v ;;
    v <- rd_signed 7 ;; gain <- aset (r_gain w) base v ;;
    ' (sw, sh, sd) <-
      (if oc_uni c =? 0 then
         v <- rd 7 ;; sw <- aset (r_sw w) base v ;;
         v <- rd 5 ;; sh <- aset (r_sh w) base v ;;
         v <- rd 4 ;; sd <- aset (r_sd w) base v ;; Ret (sw, sh, sd)
       else v <- rd 7 ;; sw <- aset (r_sw w) base v ;; Ret (sw, r_sh w, r_sd w)) ;;
    pri <- (if negb (oc_dyn c =? 0) then v <- rd 3 ;; aset (r_pri w) base v else Ret (r_pri w)) ;;
    Ret (mkRaw az el rad gain sw sh sd pri, mkFix 0 0 0 0 0 0)
  else
    fa <- rd 1 ;; az <- param_dec (rd_signed 8) fa (r_az w) base n ;;
    fe <- rd 1 ;; el <- param_dec (rd_signed 6) fe (r_el w) base n ;;
    fr <- rd 1 ;; rad <- param_dec (rd 4) fr (r_rad w) base n ;;
    fg <- rd 1 ;; gain <- param_dec (rd_signed 7) fg (r_gain w) base n ;;
    ' (fs, (sw, sh, sd)) <- spread_dec (oc_uni c) base n (r_sw w, r_sh w, r_sd w) ;;
    ' (fp, pri) <-
      (if negb (oc_dyn c =? 0) then
         f <- rd 1 ;; l <- param_dec (rd 3) f (r_pri w) base n ;; Ret (f, l)
       else Ret (x_pri x, r_pri w)) ;;
    Ret (mkRaw az el rad gain sw sh sd pri, mkFix fa fe fr fg fs fp).

(** One flagged difference, e.g. impeghd_oam_dec_ld.c:303-311. *)
Definition diff (nb : Z) (l : list Z) (i : Z) : prog (list Z) :=
  f <- rd 1 ;;
  if f =? 0 then Ret l else v <- rd_signed nb ;; acc l i v.

(** impeghd_single_dyn_obj_md, differential part, impeghd_oam_dec_ld.c:296-393. *)
Definition single_diff (c : oamc) (x : fixs) (w : raws) (i : Z) : prog raws :=
  b <- rd 3 ;;
  let nb := b + 2 in
  az <- (if x_az x =? 0 then diff nb (r_az w) i else Ret (r_az w)) ;;
  el <- (if x_el x =? 0 then diff (Z.min 7 nb) (r_el w) i else Ret (r_el w)) ;;
  rad <- (if x_rad x =? 0 then diff (Z.min 5 nb) (r_rad w) i else Ret (r_rad w)) ;;
  gain <- (if x_gain x =? 0 then diff (Z.min 8 nb) (r_gain w) i else Ret (r_gain w)) ;;
  ' (sw, sh, sd) <-
    (if x_sp x =? 0 then
       if oc_uni c =? 0 then
         sw <- diff (Z.min 8 nb) (r_sw w) i ;;
         sh <- diff (Z.min 6 nb) (r_sh w) i ;;
         sd <- diff (Z.min 5 nb) (r_sd w) i ;; Ret (sw, sh, sd)
       else sw <- diff (Z.min 8 nb) (r_sw w) i ;; Ret (sw, r_sh w, r_sd w)
     else
       sw <- aset (r_sw w) i 0 ;; sh <- aset (r_sh w) i 0 ;; sd <- aset (r_sd w) i 0 ;;
       Ret (sw, sh, sd)) ;;
  pri <- (if negb (oc_dyn c =? 0) then diff (Z.min 4 nb) (r_pri w) i else Ret (r_pri w)) ;;
  Ret (mkRaw az el rad gain sw sh sd pri).

(** impeghd_single_dyn_obj_md, absolute part, impeghd_oam_dec_ld.c:394-470. The spread
    depth is read with OAM_SPREAD_HEIGHT_BITS (448-449) and the priority is read when its
    "fixed" flag is set (459-468). *)
Definition single_abs (c : oamc) (x : fixs) (w : raws) (i : Z) : prog raws :=
  az <- (if negb (x_az x =? 0) then aset (r_az w) i 0 else v <- rd_signed 8 ;; aset (r_az w) i v) ;;
  el <- (if negb (x_el x =? 0) then aset (r_el w) i 0 else v <- rd_signed 6 ;; aset (r_el w) i v) ;;
  rad <- (if negb (x_rad x =? 0) then aset (r_rad w) i 0 else v <- rd 4 ;; aset (r_rad w) i v) ;;
  gain <- (if negb (x_gain x =? 0) then aset (r_gain w) i 0 else v <- rd_signed 7 ;; aset (r_gain w) i v) ;;
  ' (sw, sh, sd) <-
    (if negb (x_sp x =? 0) then
       sw <- aset (r_sw w) i 0 ;; sh <- aset (r_sh w) i 0 ;; sd <- aset (r_sd w) i 0 ;;
       Ret (sw, sh, sd)
     else if oc_uni c =? 0 then
       v <- rd 7 ;; sw <- aset (r_sw w) i v ;;
       v <- rd 5 ;; sh <- aset (r_sh w) i v ;;
       v <- rd 5 ;; sd <- aset (r_sd w) i v ;; Ret (sw, sh, sd)
     else v <- rd 7 ;; sw <- aset (r_sw w) i v ;; Ret (sw, r_sh w, r_sd w)) ;;
  pri <- (if negb (oc_dyn c =? 0) then
            if x_pri x =? 0 then aset (r_pri w) i 0
            else v <- rd 3 ;; aset (r_pri w) i v
          else Ret (r_pri w)) ;;
  Ret (mkRaw az el rad gain sw sh sd pri).

(** Non-intra part of impeghd_obj_md_low_delay_dec, impeghd_oam_dec_ld.c:736-757; note the
    index [obj_start_idx] of has_obj_md (745). *)
Definition dyn_dec (c : oamc) (n base : Z) (x : fixs) (has : list Z) (w : raws) :
  prog (list Z * raws) :=
  ab <- rd 1 ;;
  forP (Z.to_nat n) 0 (fun i '(has, w) =>
    p <- rd 1 ;;
    has <- aset has base p ;;
    if p =? 0 then Ret (has, w)
    else w <- (if ab =? 0 then single_diff c x w (base + Z.of_nat i)
               else single_abs c x w (base + Z.of_nat i)) ;; Ret (has, w)) (has, w).

(** One loop of impeghd_descale_ld_obj_md: [out[o] = g raw[o]] for the entries of the
    sub-frame. *)
Definition descale_tab (g : Z -> f32) (base n : Z) (raw : list Z) (out : list f32) : prog (list f32) :=
  forP (Z.to_nat n) 0 (fun i out =>
    v <- aget raw (base + Z.of_nat i) ;; aset out (base + Z.of_nat i) (g v)) out.

(** The expressions of impeghd_descale_ld_obj_md, impeghd_oam_dec_ld.c:681-714. *)
Definition g_pri (v : Z) : f32 := of_int v.
Definition g_sw (v : Z) : f32 := f_mul (of_int v) (lit 15 10).
Definition g_sh (v : Z) : f32 := f_mul (of_int v) (lit 3 1).
Definition g_sd (pw : powers) (v : Z) : f32 := f_sub (p_dep pw v) (lit 5 10).
Definition g_rad (pw : powers) (v : Z) : f32 := f_div (p_rad pw v) (lit 2 1).
Definition g_el (v : Z) : f32 := f_mul (of_int v) (lit 3 1).
Definition g_az (v : Z) : f32 := f_mul (of_int v) (lit 15 10).
Definition g_gain (pw : powers) (v : Z) : f32 := p_gain pw v.

(** impeghd_descale_ld_obj_md, impeghd_oam_dec_ld.c:674-717. *)
Definition descale (pw : powers) (c : oamc) (base n : Z) (w : raws) (d : dscs) : prog dscs :=
  pri <- descale_tab g_pri base n (r_pri w) (d_pri d) ;;
  sw <- descale_tab g_sw base n (r_sw w) (d_sw d) ;;
  ' (sh, sd) <-
    (if negb (oc_uni c =? 1) then
       sh <- descale_tab g_sh base n (r_sh w) (d_sh d) ;;
       sd <- descale_tab (g_sd pw) base n (r_sd w) (d_sd d) ;; Ret (sh, sd)
     else Ret (d_sh d, d_sd d)) ;;
  rad <- descale_tab (g_rad pw) base n (r_rad w) (d_rad d) ;;
  el <- descale_tab g_el base n (r_el w) (d_el d) ;;
  az <- descale_tab g_az base n (r_az w) (d_az d) ;;
  gain <- descale_tab (g_gain pw) base n (r_gain w) (d_gain d) ;;
  Ret (mkDsc az el rad gain sw sh sd pri).

(** One loop of impeghd_limit_range_ld_obj_md: entries 0 .. num_objects - 1. *)
Definition limit_tab (lo hi : f32) (n : Z) (t : list f32) : prog (list f32) :=
  forP (Z.to_nat n) 0 (fun i t =>
    v <- aget t (Z.of_nat i) ;; aset t (Z.of_nat i) (clamp lo hi v)) t.

(** impeghd_limit_range_ld_obj_md, impeghd_oam_dec_ld.c:71-138. *)
Definition limit (c : oamc) (n : Z) (d : dscs) : prog dscs :=
  rad <- limit_tab (lit 5 10) (lit 16 1) n (d_rad d) ;;
  el <- limit_tab (lit (-90) 1) (lit 90 1) n (d_el d) ;;
  az <- limit_tab (lit (-180) 1) (lit 180 1) n (d_az d) ;;
  gain <- limit_tab (lit 4 1000) (lit 5957 1000) n (d_gain d) ;;
  sw <- limit_tab (lit 0 1) (lit 180 1) n (d_sw d) ;;
  ' (sd, sh) <-
    (if oc_uni c =? 0 then
       sd <- limit_tab (lit 0 1) (lit 155 10) n (d_sd d) ;;
       sh <- limit_tab (lit 0 1) (lit 90 1) n (d_sh d) ;; Ret (sd, sh)
     else Ret (d_sd d, d_sh d)) ;;
  pri <- limit_tab (lit 0 1) (lit 7 1) n (d_pri d) ;;
  Ret (mkDsc az el rad gain sw sh sd pri).

(** impeghd_obj_md_low_delay_dec, impeghd_oam_dec_ld.c:729-771 (no step of it returns an
    error code). *)
Definition low_delay_dec (pw : powers) (c : oamc) (st : oamst) : prog oamst :=
  let n := o_n st in
  let base := (o_sub st - 1) * n in
  intra <- rd 1 ;;
  ' (has, w, x) <-
    (if intra =? 0 then
       ' (has, w) <- dyn_dec c n base (o_fix st) (o_has st) (o_raw st) ;; Ret (has, w, o_fix st)
     else
       ' (w, x) <- intra_dec c n base (o_raw st) (o_fix st) ;; Ret (o_has st, w, x)) ;;
  d <- descale pw c base n w (o_dsc st) ;;
  d <- limit c n d ;;
  smp <- forP (Z.to_nat n) 0 (fun i l => acc l (Z.of_nat i) (oc_fl c)) (o_smp st) ;;
  Ret (mkO n (o_sub st) (o_pres st) has smp w d x).

(** impeghd_obj_md_dec, impeghd_oam_dec.c:72-86. *)
Definition obj_md_dec (pw : powers) (c : oamc) (st : oamst) : prog (Z * oamst) :=
  if negb (oc_ld c =? 0) then st <- low_delay_dec pw c st ;; Ret (0, st)
  else Ret (E_OAM_UNSUPPORTED, st).

Definition s_sub (st : oamst) (v : Z) : oamst :=
  mkO (o_n st) v (o_pres st) (o_has st) (o_smp st) (o_raw st) (o_dsc st) (o_fix st).
Definition s_pres (st : oamst) (v : list Z) : oamst :=
  mkO (o_n st) (o_sub st) v (o_has st) (o_smp st) (o_raw st) (o_dsc st) (o_fix st).

(** The object metadata extension payload of one access unit,
    ia_core_coder_decode_main.c:2005-2056; [ccfl] is output_samples, which is always 1024
    (ia_core_coder_create.c:416).  An empty payload is ignored (2011). *)
Definition oam_payload (pw : powers) (c : oamc) (ccfl : Z) (st : oamst) : prog (Z * oamst) :=
  bits <- avail ;;
  if bits <=? 0 then Ret (0, st) else
  if negb ((oc_fl c =? 256) || (oc_fl c =? 512) || (oc_fl c =? 1024)) then Ret (E_OAM_FRAMELEN, st) else
  if oc_fl c <? ccfl then
    forE (Z.to_nat (ccfl / oc_fl c)) 0 (fun i st =>
      p <- rd 1 ;;
      pres <- aset (o_pres st) (Z.of_nat i) p ;;
      let st := s_pres st pres in
      if p =? 0 then Ret (0, st)
      else obj_md_dec pw c (s_sub st (o_sub st + 1))) (s_sub st 0)
  else obj_md_dec pw c (s_sub st 1).

(** ** The renderer's choice of the metadata slot *)

(** impeghd_obj_md_dec_ren_process, ia_core_coder_decode_main.c:1387-1409: the value of
    sub_frame_number used for each of the [num_iter] sub-frames. *)
Fixpoint render_slots (num_iter : Z) (first : bool) (sub : Z) (pres : list Z) : list Z :=
  match pres with
  | [] => []
  | p :: ps =>
    let sub' :=
      if negb (p =? 0) then
        let s := sub + 1 in if num_iter <? s then s mod num_iter else s
      else if first then num_iter else sub in
    sub' :: render_slots num_iter false sub' ps
  end.

(** ** Enhanced object metadata frame *)

(** One object's entry of the exclusion tables: num_exclusion_sectors, and for 15 sectors
    use_predefined_sector, exclude_sector_index, min_az, max_az, min_ele, max_ele,
    impeghd_oam_dec_struct_def.h:46-55. *)
Record sector := mkSec { sc_pre : Z; sc_idx : Z; sc_minaz : f32; sc_maxaz : f32; sc_minel : f32; sc_maxel : f32 }.
Record exclu := mkEx { ex_num : Z; ex_sec : list sector }.

(** ia_enh_obj_md_frame_str, impeghd_oam_dec_struct_def.h:38-69, without the keep flags
    (written, never read again) and prev_has_divergence (never used). The tables prev_* are
    [e_pexc] .. [e_pdiv]. *)
Record enhst := mkEnh {
  e_close : list Z; e_exc : list exclu; e_diff : list f32; e_div : list f32;
  e_pexc : list exclu; e_pdiff : list f32; e_pdiv : list f32 }.

(** Lines 259-281 for one object: all fields but use_predefined_sector are pushed. *)
Definition push_sector (cur prev : sector) : sector :=
  mkSec (sc_pre prev) (sc_idx cur) (sc_minaz cur) (sc_maxaz cur) (sc_minel cur) (sc_maxel cur).
Fixpoint map2 {A B C} (f : A -> B -> C) (l : list A) (m : list B) : list C :=
  match l, m with a :: l, b :: m => f a b :: map2 f l m | _, _ => [] end.
Definition push_exclu (cur prev : exclu) : exclu :=
  mkEx (ex_num cur) (map2 push_sector (ex_sec cur) (ex_sec prev)).

(** Lines 256-281 (impeghd_oam_dec.c). *)
Definition enh_push (n : Z) (st : enhst) : prog enhst :=
  ' (pe, pf, pv) <- forP (Z.to_nat n) 0 (fun i '(pe, pf, pv) =>
     c <- aget (e_exc st) (Z.of_nat i) ;; p <- aget pe (Z.of_nat i) ;;
     pe <- aset pe (Z.of_nat i) (push_exclu c p) ;;
     v <- aget (e_div st) (Z.of_nat i) ;; pv <- aset pv (Z.of_nat i) v ;;
     f <- aget (e_diff st) (Z.of_nat i) ;; pf <- aset pf (Z.of_nat i) f ;;
     Ret (pe, pf, pv)) (e_pexc st, e_pdiff st, e_pdiv st) ;;
  Ret (mkEnh (e_close st) (e_exc st) (e_diff st) (e_div st) pe pf pv).

(** The angle expressions of lines 331-361 and 499-529, with ia_max_flt and ia_min_flt as
    functions (impeghd_intrinsics_flt.h, the variant that is not WIN32; with the macros of
    the WIN32 variant the argument, which reads bits, is evaluated several times). *)
Definition ang_az (v : Z) : f32 := clamp (lit (-180) 1) (lit 180 1) (f_mul (lit 3 1) (f_sub (of_int v) (lit 63 1))).
Definition ang_el (v : Z) : f32 := clamp (lit (-90) 1) (lit 90 1) (f_mul (lit 6 1) (f_sub (of_int v) (lit 15 1))).

(** One new sector, lines 311-365 and 480-531. *)
Definition sector_dec (only : Z) (s : sector) : prog sector :=
  if only =? 1 then
    i <- rd 4 ;; Ret (mkSec (sc_pre s) i (sc_minaz s) (sc_maxaz s) (sc_minel s) (sc_maxel s))
  else
    p <- rd 1 ;;
    if negb (p =? 1) then
      a <- rd 7 ;; b <- rd 7 ;; e <- rd 5 ;; f <- rd 5 ;;
      Ret (mkSec p (sc_idx s) (ang_az a) (ang_az b) (ang_el e) (ang_el f))
    else i <- rd 4 ;; Ret (mkSec p i (sc_minaz s) (sc_maxaz s) (sc_minel s) (sc_maxel s)).

(** Exclusion of one object (or of the group, object 0), lines 286-369 and 432-533. *)
Definition exclu_dec (indep only : Z) (obj : Z) (st : enhst) : prog enhst :=
  keep <- (if negb (indep =? 0) then Ret 0 else rd 1) ;;
  c <- aget (e_exc st) obj ;;
  c <- (if negb (keep =? 0) then
          p <- aget (e_pexc st) obj ;;
          secs <- forP (Z.to_nat (ex_num p)) 0 (fun i l =>
            s <- aget (ex_sec p) (Z.of_nat i) ;; aset l (Z.of_nat i) s) (ex_sec c) ;;
          Ret (mkEx (ex_num p) secs)
        else
          num <- rd 4 ;;
          secs <- forP (Z.to_nat num) 0 (fun i l =>
            s <- aget l (Z.of_nat i) ;; s <- sector_dec only s ;; aset l (Z.of_nat i) s) (ex_sec c) ;;
          Ret (mkEx num secs)) ;;
  exc <- aset (e_exc st) obj c ;;
  Ret (mkEnh (e_close st) exc (e_diff st) (e_div st) (e_pexc st) (e_pdiff st) (e_pdiv st)).

(** [keep, else 7 bits / 127], lines 372-391, 397-415, 416-431. *)
Definition keep7 (indep : Z) (prev : list f32) (obj : Z) (cur : list f32) : prog (list f32) :=
  keep <- (if negb (indep =? 0) then Ret 0 else rd 1) ;;
  v <- (if negb (keep =? 0) then aget prev obj
        else v <- rd 7 ;; Ret (f_div (of_int v) (lit 127 1))) ;;
  aset cur obj v.

(** impeghd_enh_obj_md_frame, impeghd_oam_dec.c:250-537. *)
Definition enh_frame (c : enhc) (n indep : Z) (st : enhst) : prog enhst :=
  st <- enh_push n st ;;
  st <- (if negb (en_cexc c =? 0) then
           only <- aget (en_pre c) 0 ;; exclu_dec indep only 0 st
         else Ret st) ;;
  st <- (if negb (en_diff c =? 0) && negb (en_cdiff c =? 0) then
           d <- keep7 indep (e_pdiff st) 0 (e_diff st) ;;
           Ret (mkEnh (e_close st) (e_exc st) d (e_div st) (e_pexc st) (e_pdiff st) (e_pdiv st))
         else Ret st) ;;
  forP (Z.to_nat n) 0 (fun i st =>
    cl <- rd 1 ;;
    close <- aset (e_close st) (Z.of_nat i) cl ;;
    hd <- aget (en_div c) (Z.of_nat i) ;;
    dv <- (if hd =? 1 then keep7 indep (e_pdiv st) (Z.of_nat i) (e_div st) else Ret (e_div st)) ;;
    df <- (if negb (en_diff c =? 0) && (en_cdiff c =? 0)
           then keep7 indep (e_pdiff st) (Z.of_nat i) (e_diff st) else Ret (e_diff st)) ;;
    let st := mkEnh close (e_exc st) df dv (e_pexc st) (e_pdiff st) (e_pdiv st) in
    if en_cexc c =? 0 then
      only <- aget (en_pre c) (Z.of_nat i) ;; exclu_dec indep only (Z.of_nat i) st
    else Ret st) st.

(** ** Earcons *)

(** The tables of ia_earcon_info used by the renderer, impeghd_mhas_parse.h:316-338. *)
Record ears := mkEars { ea_az : list Z; ea_el : list Z; ea_dist : list Z; ea_gain : list Z; ea_has_gain : Z }.

(** The metadata part of impeghd_earcon_obj_md_dec_ren_process,
    ia_core_coder_decode_main.c:1316-1339 and 1345: the decoder's object metadata tables are
    overwritten for the objects 0 .. bs_num_pcm_signals, then num_objects is restored.  The
    call of the renderer (1340-1344) is not modelled: [fst] of the result is the state it is
    called with, [snd] the state left behind. *)
Definition earcon_md (pw : powers) (num_pcm : Z) (e : ears) (st : oamst) : prog (oamst * oamst) :=
  let n := num_pcm + 1 in
  ' (w, d) <- forP (Z.to_nat n) 0 (fun i '(w, d) =>
    let k := Z.of_nat i in
    v <- aget (ea_dist e) 0 ;; rad <- aset (r_rad w) k v ;;
    v <- aget (ea_el e) 0 ;; el <- aset (r_el w) k v ;;
    v <- aget (ea_az e) 0 ;; az <- aset (r_az w) k v ;;
    gain <- (if negb (ea_has_gain e =? 0) then v <- aget (ea_gain e) 0 ;; aset (r_gain w) k v else Ret (r_gain w)) ;;
    v <- aget az k ;; daz <- aset (d_az d) k (g_az v) ;;
    v <- aget el k ;; del <- aset (d_el d) k (g_el v) ;;
    v <- aget rad k ;; drad <- aset (d_rad d) k (g_rad pw v) ;;
    v <- aget gain k ;; dgain <- aset (d_gain d) k (g_gain pw v) ;;
    Ret (mkRaw az el rad gain (r_sw w) (r_sh w) (r_sd w) (r_pri w),
         mkDsc daz del drad dgain (d_sw d) (d_sh d) (d_sd d) (d_pri d))) (o_raw st, o_dsc st) ;;
  Ret (mkO n 1 (o_pres st) (o_has st) (o_smp st) w d (o_fix st),
       mkO (o_n st) 1 (o_pres st) (o_has st) (o_smp st) w d (o_fix st)).
