(** * Ei: element interaction, scene displacement and local setup packets

    Models decoder/impeghd_ele_interaction_intrfc.c ("ei.c" below): the three packets an
    application hands to the decoder beside the audio stream.  They are read with the bit
    reader of BitBuf.v, so a short packet leaves by the jump of that reader. *)

From Coq Require Import ZArith List Lia Bool.
From Verif Require Import Bits BitBuf Prog Escape Asi Config.
Import ListNotations.
Open Scope Z_scope.

Definition E_EI_MODE := 0xFFFF9600.
Definition E_EI_NUM_GRPS := 0xFFFF9601.
Definition E_EI_ID := 0xFFFF9602.
Definition E_EI_POSITION := 0xFFFF9603.
Definition E_EI_GAIN := 0xFFFF9604.

(** The values of one group in ia_ele_intrctn, ele_interaction_intrfc.h:137-147; the C
    structure has one array of 128 entries per field, the model one array of records. *)
Record eg := mkEg {
  eg_id : Z; eg_on : Z; eg_wire : Z; eg_wireid : Z;
  eg_chpos : Z; eg_az : Z; eg_el : Z; eg_dist : Z;
  eg_chgain : Z; eg_gain : Z }.

(** ia_ele_intrctn, ele_interaction_intrfc.h:119-148. *)
Record ei := mkEi {
  ei_sign : list Z;          (* [256] *)
  ei_signlen : Z; ei_signtype : Z;
  ei_mode : Z; ei_num : Z; ei_preset : Z;
  ei_groups : list eg;       (* [128] *)
  ei_zoom : Z; ei_zaz : Z * Z; ei_zel : Z * Z;
  ei_present : Z }.

(** The scene the packet is checked against: asi_present and the scene information. *)
Definition scene_view := (bool * asi)%type.

(** Number of definitions with a given id (ei.c:313-319). *)
Fixpoint count_ids (n : nat) (i : nat) (id : Z) (gs : list gdef) : prog Z :=
  match n with
  | O => Ret 0
  | S m => g <- aget gs (Z.of_nat i) ;;
           r <- count_ids m (S i) id gs ;;
           Ret ((if g_id g =? id then 1 else 0) + r)
  end.

(** The same loop over the presets, ei.c:419-426: its bound is the number of GROUPS. *)
Fixpoint count_presets (n : nat) (i : nat) (id : Z) (ps : list pdef) : prog Z :=
  match n with
  | O => Ret 0
  | S m => p <- aget ps (Z.of_nat i) ;;
           r <- count_presets m (S i) id ps ;;
           Ret ((if p_id p =? id then 1 else 0) + r)
  end.

(** One iteration of impeghd_ei_grp_intrctvty_status, ei.c:310-375.  The state is the
    counter valid_id (never reset, 306) and the group array.  Each field is stored as
    soon as it is read; the route id is 16 bits cast to UWORD8 (334-335). *)
Definition ei_group_one (sv : scene_view) (grp : nat) (st : Z * list eg) : prog (Z * (Z * list eg)) :=
  let '(pres, a) := sv in
  let '(valid, gs) := st in
  let g := Z.of_nat grp in
  g0 <- aget gs g ;;
  id <- rd 7 ;;
  let g0 := mkEg id (eg_on g0) (eg_wire g0) (eg_wireid g0) (eg_chpos g0) (eg_az g0) (eg_el g0) (eg_dist g0) (eg_chgain g0) (eg_gain g0) in
  gs <- aset gs g g0 ;;
  n <- (if pres : bool then count_ids (Z.to_nat (a_ng a)) 0 id (a_groups a) else Ret 0) ;;
  let valid := valid + n in
  if (pres && (valid =? 0))%bool then Ret (E_EI_ID, (valid, gs)) else
  on <- rd 1 ;;
  w <- rd 1 ;;
  wid <- (if negb (w =? 1) then Ret (-1) else v <- rd 16 ;; Ret (u8 v)) ;;
  let g0 := mkEg id on w wid (eg_chpos g0) (eg_az g0) (eg_el g0) (eg_dist g0) (eg_chgain g0) (eg_gain g0) in
  gs <- aset gs g g0 ;;
  if negb (on =? 1) then Ret (0, (valid, gs)) else
  cp <- rd 1 ;;
  let g0 := mkEg id on w wid cp (eg_az g0) (eg_el g0) (eg_dist g0) (eg_chgain g0) (eg_gain g0) in
  gs <- aset gs g g0 ;;
  badp <- (if pres : bool then d <- aget (a_groups a) g ;; Ret ((g_pos d =? 1) && (cp =? 0))%bool else Ret false) ;;
  if badp : bool then Ret (E_EI_POSITION, (valid, gs)) else
  ' (az, el, di) <- (if negb (cp =? 0)
                     then x <- rd 8 ;; y <- rd 6 ;; z <- rd 4 ;; Ret (x, y, z)
                     else Ret (eg_az g0, eg_el g0, eg_dist g0)) ;;
  cg <- rd 1 ;;
  let g0 := mkEg id on w wid cp az el di cg (eg_gain g0) in
  gs <- aset gs g g0 ;;
  badg <- (if pres : bool then d <- aget (a_groups a) g ;; Ret ((g_gain d =? 1) && (cg =? 0))%bool else Ret false) ;;
  if badg : bool then Ret (E_EI_GAIN, (valid, gs)) else
  gn <- (if negb (cg =? 0) then rd 7 else Ret (eg_gain g0)) ;;
  gs <- aset gs g (mkEg id on w wid cp az el di cg gn) ;;
  Ret (0, (valid, gs)).

(** impeghd_ei_grp_intrctvty_status, ei.c:302-377: the error code and the array. *)
Definition ei_status (sv : scene_view) (num : Z) (gs : list eg) : prog (Z * list eg) :=
  ' (e, (_, gs)) <- forE (Z.to_nat num) 0 (ei_group_one sv) (0, gs) ;;
  Ret (e, gs).

(** impeghd_ele_interaction_data, ei.c:391-439.  The error code of the group loop is
    dropped (436). *)
Definition ei_data (sv : scene_view) (e : ei) : prog (res ei) :=
  let '(pres, a) := sv in
  mode <- rd 1 ;;
  if (pres && negb (a_np a =? 0) && negb (mode =? 1))%bool then Ret (Er E_EI_MODE) else
  num <- rd 7 ;;
  if (pres && negb (num =? a_ng a))%bool then Ret (Er E_EI_NUM_GRPS) else
  r <- (if negb (mode =? 0) then
          id <- rd 5 ;;
          if pres : bool then
            n <- count_presets (Z.to_nat (a_ng a)) 0 id (a_presets a) ;;
            if n =? 0 then Ret (Er E_EI_ID) else Ret (Ok id)
          else Ret (Ok id)
        else Ret (Ok (ei_preset e))) ;;
  match r with
  | Er c => Ret (Er c)
  | Ok pid =>
    ' (_, gs) <- ei_status sv num (ei_groups e) ;;
    Ret (Ok (mkEi (ei_sign e) (ei_signlen e) (ei_signtype e) mode num pid gs
                  (ei_zoom e) (ei_zaz e) (ei_zel e) 1))
  end.

(** impeghd_ele_interaction, ei.c:475-509, with impeghd_lcl_zoom_area_size (453-461), which
    casts its 10, 10, 9 and 10 bit values to UWORD8. *)
Definition ei_packet (sv : scene_view) (e : ei) : prog (res ei) :=
  len <- rd 8 ;;
  ' (ty, sg) <- (if 0 <? len then
                   t <- rd 8 ;;
                   s <- forP (Z.to_nat len) 0 (fun i s => v <- rd 8 ;; aset s (Z.of_nat i) v) (ei_sign e) ;;
                   Ret (t, s)
                 else Ret (ei_signtype e, ei_sign e)) ;;
  r <- ei_data sv (mkEi sg len ty (ei_mode e) (ei_num e) (ei_preset e) (ei_groups e)
                        (ei_zoom e) (ei_zaz e) (ei_zel e) (ei_present e)) ;;
  match r with
  | Er c => Ret (Er c)
  | Ok e =>
    z <- rd 1 ;;
    ' (za, ze) <- (if negb (z =? 0) then
                     a <- rd 10 ;; b <- rd 10 ;; c <- rd 9 ;; d <- rd 10 ;;
                     Ret ((u8 a, u8 b), (u8 c, u8 d))
                   else Ret (ei_zaz e, ei_zel e)) ;;
    Ret (Ok (mkEi (ei_sign e) (ei_signlen e) (ei_signtype e) (ei_mode e) (ei_num e)
                  (ei_preset e) (ei_groups e) z za ze 1))
  end.

(** A zeroed ia_ele_intrctn, as left by the memset of the persistent memory. *)
Definition eg0 : eg := mkEg 0 0 0 0 0 0 0 0 0 0.
Definition ei0 : ei := mkEi (repeat 0 256) 0 0 0 0 0 (repeat eg0 128) 0 (0, 0) (0, 0) 0.

(** ** Scene displacement *)

(** impeghd_scene_displacement_data, ei.c:521-532. *)
Record sdisp := mkSd { sd_yaw : Z; sd_pitch : Z; sd_roll : Z; sd_az : Z; sd_el : Z; sd_rad : Z }.
Definition scene_disp : prog sdisp :=
  y <- rd 9 ;; p <- rd 9 ;; r <- rd 9 ;; a <- rd 8 ;; e <- rd 6 ;; d <- rd 4 ;;
  Ret (mkSd y p r a e d).

(** The use of the displacement buffer by one call of ia_mpegh_dec_execute,
    impeghd_api.c:1011-1041: a triple is read when BITS_FOR_PSDI_DATA (45) bits are left
    (cnst.h:38); otherwise the previous one stays. *)
Definition sd_step (cur : sdisp) : prog sdisp :=
  c <- avail ;;
  if 45 <=? c then scene_disp else Ret cur.
Fixpoint sd_run (n : nat) (cur : sdisp) : prog (list sdisp) :=
  match n with
  | O => Ret []
  | S m => d <- sd_step cur ;; r <- sd_run m d ;; Ret (d :: r)
  end.

(** ** Local setup *)

(** One loudspeaker of ia_local_setup_struct, ele_interaction_intrfc.h:74-78; five arrays
    of 24 in C.  Azimuth, elevation and distance are whole numbers; the calibration gain
    is kept in half decibels once dequantised, so that it is a whole number as well. *)
Record lspk := mkLs { ls_known : Z; ls_azi : Z; ls_ele : Z; ls_dis : Z; ls_cal : Z }.
Record lsetup := mkLsu {
  lu_type : Z; lu_brir : Z;
  lu_spk : layout;            (* spk_config: index and flex arrays of 32 *)
  lu_num : Z; lu_hasdist : Z; lu_hasgain : Z; lu_track : Z;
  lu_ls : list lspk;          (* [24] *)
  lu_comp : Z;
  lu_wires : list Z;          (* [128] *)
  lu_screen : Z; lu_scr_az : Z; lu_scr_l : Z; lu_scr_r : Z;
  lu_hasel : Z; lu_scr_t : Z; lu_scr_b : Z }.

(** impeghd_speaker_config_3d, init_config.c:1730-1777, up to the geometry computation at
    1771, which reads no bits and is not modelled. *)
Definition spk_config_3d (l : layout) : prog (Z * layout) :=
  t <- rd 2 ;;
  let l := s_l_type l t in
  if t =? 0 then i <- rd 6 ;; Ret (0, s_l_idx l i)
  else if t <? 3 then
    n <- read_escape 5 8 16 ;;
    if 24 <? n + 1 then Ret (E_MAX_SPKS, s_l_num l 0) else
    let l := s_l_idx (s_l_num l (n + 1)) (-1) in
    if t =? 2 then l <- flexispk l (n + 1) ;; Ret (0, l)
    else
      a <- forP (Z.to_nat (n + 1)) 0 (fun i s => v <- rd 7 ;; aset s (Z.of_nat i) v) (l_spk l) ;;
      Ret (0, s_l_spk l a)
  else Ret (0, l).

Definition E_SPK_DIST := 0xFFFF9029.
Definition E_WIRES := 0xFFFF9036.

(** The loop body of impeghd_loud_spk_ren, ei.c:125-150.  The distance and the gain are
    read as ONE bit each (138, 149). *)
Definition loudspk_one (ty hasd hasg : Z) (i : nat) (ls : list lspk) : prog (Z * list lspk) :=
  let k := Z.of_nat i in
  ls <- (if ty <=? 1 then
           kn <- rd 1 ;;
           s <- aget ls k ;;
           if negb (kn =? 0) then
             a <- rd 9 ;; e <- rd 8 ;;
             aset ls k (mkLs kn a e (ls_dis s) (ls_cal s))
           else aset ls k (mkLs kn (ls_azi s) (ls_ele s) (ls_dis s) (ls_cal s))
         else Ret ls) ;;
  ' (e, ls) <- (if negb (hasd =? 0) then
                  d <- rd 1 ;;
                  s <- aget ls k ;;
                  ls <- aset ls k (mkLs (ls_known s) (ls_azi s) (ls_ele s) d (ls_cal s)) ;;
                  Ret (if d =? 0 then E_SPK_DIST else 0, ls)
                else Ret (0, ls)) ;;
  if negb (e =? 0) then Ret (e, ls) else
  if negb (hasg =? 0) then
    g <- rd 1 ;;
    s <- aget ls k ;;
    ls <- aset ls k (mkLs (ls_known s) (ls_azi s) (ls_ele s) (ls_dis s) g) ;;
    Ret (0, ls)
  else Ret (0, ls).

(** impeghd_loud_spk_ren, ei.c:103-155.  [num_spk] is only stored when the loop ends
    (153); the error code is dropped by the caller (569), and so is that of the speaker
    configuration (109). *)
Definition loud_spk_ren (u : lsetup) : prog (Z * lsetup) :=
  num <- rd 16 ;;
  ' (_, l) <- spk_config_3d (lu_spk u) ;;
  hd <- rd 1 ;;
  hg <- rd 1 ;;
  tr <- rd 1 ;;
  ' (e, ls) <- forE (Z.to_nat num) 0 (loudspk_one (l_type l) hd hg) (lu_ls u) ;;
  if negb (e =? 0) then
    Ret (e, mkLsu (lu_type u) (lu_brir u) l (lu_num u) hd hg tr ls (lu_comp u) (lu_wires u) (lu_screen u)
                  (lu_scr_az u) (lu_scr_l u) (lu_scr_r u) (lu_hasel u) (lu_scr_t u) (lu_scr_b u))
  else
  c <- rd 1 ;;
  Ret (0, mkLsu (lu_type u) (lu_brir u) l num hd hg tr ls c (lu_wires u) (lu_screen u)
                (lu_scr_az u) (lu_scr_l u) (lu_scr_r u) (lu_hasel u) (lu_scr_t u) (lu_scr_b u)).

Definition clampz (lo hi v : Z) : Z := Z.max (Z.min v hi) lo.

(** impeghd_loud_spk_inv_quant, ei.c:168-251.  Gains: (v - 64) / 2 limited to -32..31.5, in
    half decibels v - 64 limited to -64..63.  The single precision operations are exact on
    these values.  Of the flexible layout (210-249) only the array accesses are modelled. *)
Definition inv_quant (u : lsetup) : prog lsetup :=
  let n := Z.to_nat (lu_num u) in
  ls <- (if negb (lu_hasgain u =? 0) then
           forP n 0 (fun i ls => s <- aget ls (Z.of_nat i) ;;
             aset ls (Z.of_nat i) (mkLs (ls_known s) (ls_azi s) (ls_ele s) (ls_dis s)
                                        (clampz (-64) 63 (ls_cal s - 64)))) (lu_ls u)
         else Ret (lu_ls u)) ;;
  ls <- (if l_type (lu_spk u) <=? 1 then
           forP n 0 (fun i ls => s <- aget ls (Z.of_nat i) ;;
             if ls_known s =? 1 then
               aset ls (Z.of_nat i) (mkLs (ls_known s) (clampz (-180) 180 (ls_azi s - 256)) (ls_ele s)
                                          (ls_dis s) (ls_cal s))
             else Ret ls) ls
         else Ret ls) ;;
  ls <- (if l_type (lu_spk u) <=? 1 then
           forP n 0 (fun i ls => s <- aget ls (Z.of_nat i) ;;
             if ls_known s =? 1 then
               aset ls (Z.of_nat i) (mkLs (ls_known s) (ls_azi s) (clampz (-90) 90 (ls_ele s - 128))
                                          (ls_dis s) (ls_cal s))
             else Ret ls) ls
         else Ret ls) ;;
  (if l_type (lu_spk u) =? 2 then forP n 0 (fun i _ => chk (Z.of_nat i) 32) tt else Ret tt) ;;;
  Ret (mkLsu (lu_type u) (lu_brir u) (lu_spk u) (lu_num u) (lu_hasdist u) (lu_hasgain u) (lu_track u) ls
             (lu_comp u) (lu_wires u) (lu_screen u) (lu_scr_az u) (lu_scr_l u) (lu_scr_r u)
             (lu_hasel u) (lu_scr_t u) (lu_scr_b u)).

(** impeghd_lcl_scrn_sz_info, ei.c:266-288. *)
Definition scrn_sz (u : lsetup) : prog lsetup :=
  c <- rd 1 ;;
  ' (az, l, r) <- (if c =? 0 then a <- rd 10 ;; b <- rd 10 ;; Ret (lu_scr_az u, a, b)
                   else a <- rd 9 ;; Ret (a, lu_scr_l u, lu_scr_r u)) ;;
  h <- rd 1 ;;
  ' (t, b) <- (if negb (h =? 0) then x <- rd 9 ;; y <- rd 9 ;; Ret (x, y)
               else Ret (lu_scr_t u, lu_scr_b u)) ;;
  Ret (mkLsu (lu_type u) (lu_brir u) (lu_spk u) (lu_num u) (lu_hasdist u) (lu_hasgain u) (lu_track u) (lu_ls u)
             (lu_comp u) (lu_wires u) (lu_screen u) az l r h t b).

(** impeghd_3da_local_setup_information, ei.c:547-596.  [nsig] is the number of channels and
    objects known so far; [brir] stands for impeghd_read_brir_info (binaural.c), which is
    not modelled here. *)
Definition local_setup (brir : prog Z) (nsig : Z) (u : lsetup) : prog (res lsetup) :=
  ty <- rd 1 ;;
  let u := mkLsu ty (lu_brir u) (lu_spk u) (lu_num u) (lu_hasdist u) (lu_hasgain u) (lu_track u) (lu_ls u)
                 (lu_comp u) (lu_wires u) (lu_screen u) (lu_scr_az u) (lu_scr_l u) (lu_scr_r u)
                 (lu_hasel u) (lu_scr_t u) (lu_scr_b u) in
  r <- (if ty =? 1 then
          e <- brir ;;
          if negb (e =? 0) then Ret (Er e) else
          Ret (Ok (mkLsu ty 1 (lu_spk u) (lu_num u) (lu_hasdist u) (lu_hasgain u) (lu_track u) (lu_ls u)
                 (lu_comp u) (lu_wires u) (lu_screen u) (lu_scr_az u) (lu_scr_l u) (lu_scr_r u)
                 (lu_hasel u) (lu_scr_t u) (lu_scr_b u)))
        else
          ' (_, u) <- loud_spk_ren u ;;
          u <- inv_quant u ;;
          Ret (Ok (mkLsu ty 0 (lu_spk u) (lu_num u) (lu_hasdist u) (lu_hasgain u) (lu_track u) (lu_ls u)
                 (lu_comp u) (lu_wires u) (lu_screen u) (lu_scr_az u) (lu_scr_l u) (lu_scr_r u)
                 (lu_hasel u) (lu_scr_t u) (lu_scr_b u)))) ;;
  match r with
  | Er e => Ret (Er e)
  | Ok u =>
    nw <- rd 16 ;;
    if nsig <? nw then Ret (Er E_WIRES) else
    w <- forP (Z.to_nat nw) 0 (fun i w => v <- rd 16 ;; aset w (Z.of_nat i) v) (lu_wires u) ;;
    h <- rd 1 ;;
    let u := mkLsu (lu_type u) (lu_brir u) (lu_spk u) (lu_num u) (lu_hasdist u) (lu_hasgain u) (lu_track u) (lu_ls u)
                   (lu_comp u) w h (lu_scr_az u) (lu_scr_l u) (lu_scr_r u)
                   (lu_hasel u) (lu_scr_t u) (lu_scr_b u) in
    if negb (h =? 0) then u <- scrn_sz u ;; Ret (Ok u) else Ret (Ok u)
  end.

Definition lsetup0 : lsetup :=
  mkLsu 0 0 (mkLay 0 0 0 (repeat 0 32) 0 (repeat (mkFx 0 0 0 0 0 0 0 0) 32)) 0 0 0 0
        (repeat (mkLs 0 0 0 0 0) 24) 0 (repeat 0 128) 0 0 0 0 0 0 0.
