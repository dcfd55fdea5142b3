(** * Asi: the audio scene information parser

    Models decoder/impeghd_mhas_parse.c:51-692 and 969-1195 (MAX_* constants from
    decoder/impeghd_mhas_parse.h:80-106).  Arrays of the C structures are lists of
    their declared length, accessed with [aget]/[aset]/[chk], which are undefined
    outside.  Fields that the C code leaves untouched keep their old value, so every
    result is stated for arbitrary previous contents.  On an error return only the
    error code is kept: the partially written structure is not tracked. *)

From Coq Require Import ZArith List Lia Bool.
From Verif Require Import Bits BitBuf Prog.
Import ListNotations.
Open Scope Z_scope.

(** A C array access that is only checked for being inside an array of [n] entries. *)
Definition chk (i n : Z) : prog unit :=
  if (0 <=? i) && (i <? n) then Ret tt else Undef UOob.

(** C's [if ((x = read))] without else branch. *)
Definition ifnz (b : Z) (p : prog unit) : prog unit := if b =? 0 then Ret tt else p.

(** Payload followed by "skip what is left of [len] bytes" as in mhas_parse.c:1285-1297,
    1102-1108: the skip only happens when fewer bits were used than announced. *)
Definition framed {A} (len : Z) (p : prog (res A)) : prog (res A) :=
  c0 <- avail ;;
  r <- p ;;
  match r with
  | Er e => Ret (Er e)
  | Ok a =>
    c1 <- avail ;;
    (if c0 - c1 <? len * 8 then skip (len * 8 - (c0 - c1)) else Ret tt) ;;;
    Ret (Ok a)
  end.

(** decoder/impeghd_error_codes.h *)
Definition E_NUM_GROUP := 0xFFFF9009.
Definition E_NUM_SWITCH_GROUPS := 0xFFFF900B.
Definition E_NUM_PRESETS := 0xFFFF900C.
Definition E_NUM_DESCR_LANG := 0xFFFF9015.
Definition E_NUM_DESCR_BLKS := 0xFFFF9014.
Definition E_GRP_ID := 0xFFFF9031.
Definition E_PRESET_NUM_COND := 0xFFFF9033.
Definition E_ASI_PARSE := 0xFFFF902E.
Definition E_PRESET_DEF := 0xFFFF902F.
Definition E_PRESET_EXT := 0xFFFF9030.
Definition E_NUM_DM_ID := 0xFFFF9035.

(** ** Group definitions *)

(** ia_mae_group_def, mhas_parse.h:113-133. *)
Record gdef := mkG {
  g_id : Z; g_onoff : Z; g_def : Z;
  g_pos : Z; g_minaz : Z; g_maxaz : Z; g_minel : Z; g_maxel : Z; g_mindist : Z; g_maxdist : Z;
  g_gain : Z; g_mingain : Z; g_maxgain : Z;
  g_num : Z; g_conj : Z; g_start : Z; g_mem : list Z }.

(** The member loop, mhas_parse.c:399-403. *)
Definition read_members (n : Z) (mem : list Z) : prog (list Z) :=
  forP (Z.to_nat n) 0 (fun i m => v <- rd 7 ;; aset m (Z.of_nat i) (s8 v)) mem.

(** One iteration of impeghd_mae_asi_group_def, mhas_parse.c:344-404.  The duplicate
    scan (347-353, downwards) is order independent and modelled by [existsb].  Casts to
    WORD8 of values of at most 7 bits are the identity and left out, except for the
    member count (389), which is [(WORD8)read(7) + 1] stored in a WORD8. *)
Definition group_def_one (grp : Z) (arr : list gdef) : prog (res (list gdef)) :=
  g0 <- aget arr grp ;;
  id <- rd 7 ;;
  if existsb (fun g => g_id g =? id) (firstn (Z.to_nat grp) arr) then Ret (Er E_GRP_ID) else
  onoff <- rd 1 ;;
  def <- rd 1 ;;
  pos <- rd 1 ;;
  ' (a1, a2, e1, e2, d1, d2) <-
    (if pos =? 0 then Ret (g_minaz g0, g_maxaz g0, g_minel g0, g_maxel g0, g_mindist g0, g_maxdist g0)
     else a1 <- rd 7 ;; a2 <- rd 7 ;; e1 <- rd 5 ;; e2 <- rd 5 ;; d1 <- rd 4 ;; d2 <- rd 4 ;;
          Ret (a1, a2, e1, e2, d1, d2)) ;;
  gain <- rd 1 ;;
  ' (m1, m2) <-
    (if gain =? 0 then Ret (g_mingain g0, g_maxgain g0)
     else m1 <- rd 6 ;; m2 <- rd 5 ;; Ret (m1, m2)) ;;
  nm <- rd 7 ;;
  let num := s8 (s8 nm + 1) in
  conj <- rd 1 ;;
  ' (start, mem) <-
    (if conj =? 0 then mem <- read_members num (g_mem g0) ;; Ret (g_start g0, mem)
     else st <- rd 7 ;; Ret (st, g_mem g0)) ;;
  arr' <- aset arr grp (mkG id onoff def pos a1 a2 e1 e2 d1 d2 gain m1 m2 num conj start mem) ;;
  Ret (Ok arr').

(** impeghd_mae_asi_group_def, mhas_parse.c:339-407. *)
Definition group_defs (n : nat) (arr : list gdef) : prog (res (list gdef)) :=
  forR n 0 (fun i a => group_def_one (Z.of_nat i) a) arr.

(** ** Switch groups *)

(** ia_mae_switch_group_def, mhas_parse.h:135-143. *)
Record sdef := mkS { s_id : Z; s_onoff : Z; s_def : Z; s_num : Z; s_mem : list Z; s_dgrp : Z }.

(** One iteration of impeghd_mae_asi_switch_group_def, mhas_parse.c:428-457. *)
Definition switch_def_one (grp : Z) (arr : list sdef) : prog (res (list sdef)) :=
  g0 <- aget arr grp ;;
  id <- rd 5 ;;
  if existsb (fun g => s_id g =? id) (firstn (Z.to_nat grp) arr) then Ret (Er E_GRP_ID) else
  onoff <- rd 1 ;;
  def <- (if onoff =? 0 then Ret (s_def g0) else rd 1) ;;
  nm <- rd 5 ;;
  mem <- read_members (nm + 1) (s_mem g0) ;;
  dg <- rd 7 ;;
  arr' <- aset arr grp (mkS id onoff def (nm + 1) mem dg) ;;
  Ret (Ok arr').

(** impeghd_mae_asi_switch_group_def, mhas_parse.c:422-460. *)
Definition switch_defs (n : nat) (arr : list sdef) : prog (res (list sdef)) :=
  forR n 0 (fun i a => switch_def_one (Z.of_nat i) a) arr.

(** ** Group presets *)

(** One condition of a preset.  The C structure (mhas_parse.h:145-161) holds one array
    per field; the model transposes them into one array of records. *)
Record pcond := mkC {
  c_ref : Z; c_on : Z; c_disgain : Z; c_gainflag : Z; c_gain : Z;
  c_dispos : Z; c_posflag : Z; c_az : Z; c_el : Z; c_dist : Z }.

Record pdef := mkP { p_id : Z; p_kind : Z; p_num : Z; p_conds : list pcond }.

(** The condition loop body, mhas_parse.c:506-553.  [ag] and [ap] are
    allow_gain_interact and allow_pos_interact of group_definition[grp], where [grp] is
    the index of the PRESET (524, 548).  A gain is stored through (WORD8) into a UWORD8,
    an azimuth offset in a WORD8. *)
Definition cond_one (ag ap : Z) (cnt : Z) (cs : list pcond) : prog (res (list pcond)) :=
  c0 <- aget cs cnt ;;
  ref <- rd 7 ;;
  on <- rd 1 ;;
  if on =? 0 then
    cs' <- aset cs cnt (mkC ref on (c_disgain c0) (c_gainflag c0) (c_gain c0) (c_dispos c0)
                            (c_posflag c0) (c_az c0) (c_el c0) (c_dist c0)) ;;
    Ret (Ok cs')
  else
    dg <- rd 1 ;;
    gf <- rd 1 ;;
    gv <- (if gf =? 0 then Ret (c_gain c0) else v <- rd 8 ;; Ret (u8 (s8 v))) ;;
    if (ag =? 0) && negb (gf =? 0) then Ret (Er E_PRESET_DEF) else
    dp <- rd 1 ;;
    pf <- rd 1 ;;
    ' (az, el, di) <-
      (if pf =? 0 then Ret (c_az c0, c_el c0, c_dist c0)
       else a <- rd 8 ;; e <- rd 6 ;; d <- rd 4 ;; Ret (s8 a, e, d)) ;;
    if (ap =? 0) && negb (pf =? 0) then Ret (Er E_PRESET_DEF) else
    cs' <- aset cs cnt (mkC ref on dg gf gv dp pf az el di) ;;
    Ret (Ok cs').

(** One iteration of impeghd_mae_asi_group_presets_def, mhas_parse.c:482-555. *)
Definition preset_def_one (gs : list gdef) (grp : Z) (arr : list pdef) : prog (res (list pdef)) :=
  p0 <- aget arr grp ;;
  id <- rd 5 ;;
  if existsb (fun p => p_id p =? id) (firstn (Z.to_nat grp) arr) then Ret (Er E_GRP_ID) else
  kind <- rd 5 ;;
  nc <- rd 4 ;;
  let num := nc + 1 in
  if 16 <? num then Ret (Er E_PRESET_NUM_COND) else
  g <- aget gs grp ;;
  r <- forR (Z.to_nat num) 0 (fun i cs => cond_one (g_gain g) (g_pos g) (Z.of_nat i) cs) (p_conds p0) ;;
  match r with
  | Er e => Ret (Er e)
  | Ok cs =>
    arr' <- aset arr grp (mkP id kind num cs) ;;
    Ret (Ok arr')
  end.

(** impeghd_mae_asi_group_presets_def, mhas_parse.c:475-557. *)
Definition preset_defs (gs : list gdef) (n : nat) (arr : list pdef) : prog (res (list pdef)) :=
  forR n 0 (fun i a => preset_def_one gs (Z.of_nat i) a) arr.

(** ** Preset extension *)

(** Innermost loop body, mhas_parse.c:611-686; arrays are [8][32][16], only checked. *)
Definition ext_cond_one (ag ap : Z) (grp cnt idx : Z) : prog (res unit) :=
  chk grp 8 ;;; chk cnt 32 ;;; chk idx 16 ;;;
  sw <- rd 1 ;;
  _ <- (if sw =? 0 then rd 7 else rd 5) ;;
  on <- rd 1 ;;
  if on =? 0 then Ret (Ok tt) else
  dg <- rd 1 ;;
  if (ag =? 0) && negb (dg =? 1) then Ret (Er E_PRESET_EXT) else
  gf <- rd 1 ;;
  ifnz gf (rd 8 ;;; Ret tt) ;;;
  if (ag =? 0) && negb (gf =? 0) then Ret (Er E_PRESET_EXT) else
  dp <- rd 1 ;;
  if (ap =? 0) && negb (dp =? 1) then Ret (Er E_PRESET_EXT) else
  pf <- rd 1 ;;
  ifnz pf (rd 8 ;;; rd 6 ;;; rd 4 ;;; Ret tt) ;;;
  if (ap =? 0) && negb (pf =? 0) then Ret (Er E_PRESET_EXT) else
  Ret (Ok tt).

(** impeghd_mae_asi_group_presets_def_ext, mhas_parse.c:571-692; MAX_NUM_DM_ID is 8.
    [nc0] is the number of conditions of preset 0, used for every preset (1008). *)
Definition preset_ext_one (gs : list gdef) (nc0 : Z) (grp : Z) : prog (res unit) :=
  chk grp 8 ;;;
  sw <- rd 1 ;;
  ifnz sw (forP (Z.to_nat nc0) 0 (fun i _ => chk (Z.of_nat i) 16 ;;; rd 1 ;;; Ret tt) tt) ;;;
  dm <- rd 1 ;;
  if dm =? 0 then Ret (Ok tt) else
  n <- rd 5 ;;
  if 8 <? n + 1 then Ret (Er E_NUM_DM_ID) else
  forR (Z.to_nat (n + 1)) 0 (fun cnt _ =>
    chk (Z.of_nat cnt) 32 ;;;
    rd 7 ;;;
    m <- rd 4 ;;
    forR (Z.to_nat m) 0 (fun idx _ =>
      g <- aget gs grp ;;
      ext_cond_one (g_gain g) (g_pos g) grp (Z.of_nat cnt) (Z.of_nat idx)) tt) tt.

Definition preset_ext (gs : list gdef) (npre : nat) (nc0 : Z) : prog (res unit) :=
  forR npre 0 (fun grp _ => preset_ext_one gs nc0 (Z.of_nat grp)) tt.

(** ** Data blocks *)

(** impeghd_mae_parse_description_data, mhas_parse.c:67-106.  Returns, per block, the
    group id and per language the language code and the text read.  descr_data_length
    is a WORD8 (95-96), the loop at 98 runs to its value. *)
Definition descr_lang (blk cnt : Z) : prog (Z * list Z) :=
  chk blk 128 ;;; chk cnt 4 ;;;
  lang <- rd 24 ;;
  l <- rd 8 ;;
  let len := s8 (s8 l + 1) in
  txt <- forP (Z.to_nat len) 0 (fun i t => chk (Z.of_nat i) 256 ;;; v <- rd 8 ;; Ret (t ++ [s8 v])) [] ;;
  Ret (lang, txt).

Definition descr_blk (idbits : Z) (blk : Z) : prog (res (Z * list (Z * list Z))) :=
  chk blk 128 ;;;
  id <- rd idbits ;;
  nl <- rd 4 ;;
  if 4 <? nl + 1 then Ret (Er E_NUM_DESCR_LANG) else
  ls <- forP (Z.to_nat (nl + 1)) 0 (fun i t => x <- descr_lang blk (Z.of_nat i) ;; Ret (t ++ [x])) [] ;;
  Ret (Ok (id, ls)).

Definition description_data (idbits : Z) : prog (res (list (Z * list (Z * list Z)))) :=
  n <- rd 7 ;;
  let num := u8 (s8 n + 1) in
  if 128 <? num then Ret (Er E_NUM_DESCR_BLKS) else
  forR (Z.to_nat num) 0 (fun i t =>
    r <- descr_blk idbits (Z.of_nat i) ;;
    match r with Er e => Ret (Er e) | Ok b => Ret (Ok (t ++ [b])) end) [].

(** impeghd_mae_parse_content_data, mhas_parse.c:119-133. *)
Definition content_data : prog (list (Z * Z * option Z)) :=
  n <- rd 7 ;;
  forP (Z.to_nat (n + 1)) 0 (fun i t =>
    chk (Z.of_nat i) 128 ;;;
    id <- rd 7 ;; k <- rd 4 ;; h <- rd 1 ;;
    l <- (if h =? 0 then Ret None else v <- rd 24 ;; Ret (Some v)) ;;
    Ret (t ++ [(id, k, l)])) [].

(** impeghd_mae_parse_composite_pair, mhas_parse.c:146-155. *)
Definition composite_pair : prog (list (Z * Z)) :=
  n <- rd 7 ;;
  forP (Z.to_nat n) 0 (fun i t =>
    chk (Z.of_nat i) 128 ;;; a <- rd 7 ;; b <- rd 7 ;; Ret (t ++ [(a, b)])) [].

(** impeghd_mae_parse_prod_screen_sz_data, mhas_parse.c:168-179. *)
Definition screen_sz : prog (option (Z * Z * Z)) :=
  h <- rd 1 ;;
  if h =? 0 then Ret None else a <- rd 9 ;; e <- rd 9 ;; b <- rd 9 ;; Ret (Some (a, e, b)).

(** impeghd_mae_parse_prod_screen_sz_data_ext, mhas_parse.c:192-232. *)
Definition screen_sz_ext : prog unit :=
  o <- rd 1 ;;
  ifnz o (rd 10 ;;; rd 10 ;;; Ret tt) ;;;
  n <- rd 5 ;;
  forP (Z.to_nat n) 0 (fun i _ =>
    chk (Z.of_nat i) 31 ;;;
    rd 5 ;;;
    h <- rd 1 ;;
    ifnz h (c <- rd 1 ;;
            (if c =? 0 then rd 10 ;;; rd 10 ;;; Ret tt else rd 9 ;;; Ret tt) ;;;
            rd 9 ;;; rd 9 ;;; Ret tt)) tt.

(** impeghd_mae_parse_loudness_comp_data, mhas_parse.c:246-296. *)
Definition loudness_comp (ngrp npre : nat) : prog unit :=
  a <- rd 1 ;;
  ifnz a (forP ngrp 0 (fun i _ => chk (Z.of_nat i) 16 ;;; rd 8 ;;; Ret tt) tt) ;;;
  b <- rd 1 ;;
  ifnz b (forP ngrp 0 (fun i _ => chk (Z.of_nat i) 16 ;;; rd 1 ;;; Ret tt) tt ;;;
          m <- rd 1 ;; ifnz m (rd 4 ;;; rd 4 ;;; Ret tt)) ;;;
  forP npre 0 (fun j _ =>
    chk (Z.of_nat j) 8 ;;;
    p <- rd 1 ;;
    ifnz p (forP ngrp 0 (fun i _ => chk (Z.of_nat i) 16 ;;; rd 1 ;;; Ret tt) tt ;;;
            m <- rd 1 ;; ifnz m (rd 4 ;;; rd 4 ;;; Ret tt))) tt.

(** impeghd_mae_parse_drc_user_interface_info, mhas_parse.c:309-325.  Returns
    set_effect_available as stored: 16 bits read, cast to WORD8 (321-322). *)
Definition drc_ui : prog (list (Z * Z)) :=
  ver <- rd 2 ;;
  if negb (ver =? 0) then Ret [] else
  n <- rd 3 ;;
  forP (Z.to_nat n) 0 (fun i t =>
    chk (Z.of_nat i + 1) 8 ;;; chk (Z.of_nat i) 7 ;;;
    a <- rd 6 ;; b <- rd 16 ;; Ret (t ++ [(a, s8 b)])) [].

(** ** The scene *)

(** The parts of ia_mae_audio_scene_info (mhas_parse.h:296-330) used by the model; the
    [Ok] result of a parse also lists the data block types in the order read. *)
Record asi := mkA {
  a_main : Z; a_idp : Z; a_id : Z;
  a_ng : Z; a_groups : list gdef;
  a_ns : Z; a_switch : list sdef;
  a_np : Z; a_presets : list pdef;
  a_types : list Z;
  a_offset : Z; a_max : Z }.

(** The switch of impeghd_mae_asi_data_parse, mhas_parse.c:988-1101.  [seen] holds the
    types met so far in this call; the C code has one counter per known type, and
    rejects when it exceeds 1, i.e. when the type was met before. *)
Definition data_block (gs : list gdef) (ngrp npre : nat) (nc0 : Z) (seen : list Z) (ty len : Z)
  : prog (res unit) :=
  let once (p : prog (res unit)) :=
    if existsb (Z.eqb ty) seen then Ret (Er E_ASI_PARSE) else p in
  let plain {A} (p : prog A) := p ;;; Ret (Ok tt) in
  let fallible {A} (p : prog (res A)) :=
    r <- p ;; Ret (match r with Ok _ => Ok tt | Er e => Er e end) in
  if ty =? 9 then once (plain (loudness_comp ngrp npre))
  else if ty =? 8 then once (preset_ext gs npre nc0)
  else if ty =? 7 then once (plain screen_sz_ext)
  else if ty =? 6 then once (plain drc_ui)
  else if ty =? 5 then once (fallible (description_data 5))
  else if ty =? 4 then once (plain screen_sz)
  else if ty =? 3 then once (plain composite_pair)
  else if ty =? 2 then once (plain content_data)
  else if ty =? 1 then once (fallible (description_data 5))
  else if ty =? 0 then once (fallible (description_data 7))
  else plain (forP (Z.to_nat len) 0 (fun _ _ => rd 8 ;;; Ret tt) tt).

(** impeghd_mae_asi_data_parse, mhas_parse.c:969-1111.  The length used for skipping is
    the one stored in a WORD16 (986, 1103).  [data_len << 3] of a negative length is
    modelled as multiplication. *)
Definition asi_data (gs : list gdef) (ngrp npre : nat) (nc0 : Z) : prog (res (list Z)) :=
  n <- rd 4 ;;
  forR (Z.to_nat n) 0 (fun i seen =>
    chk (Z.of_nat i) 15 ;;;
    ty <- rd 4 ;;
    len <- rd 16 ;;
    r <- framed (s16 len) (data_block gs ngrp npre nc0 seen ty len) ;;
    match r with Er e => Ret (Er e) | Ok _ => Ret (Ok (seen ++ [ty])) end) [].

(** impeghd_mae_asi_parse, mhas_parse.c:1125-1195. *)
Definition asi_parse (a : asi) : prog (res asi) :=
  main <- rd 1 ;;
  if main =? 0 then
    o <- rd 7 ;; m <- rd 7 ;;
    Ret (Ok (mkA main (a_idp a) (a_id a) (a_ng a) (a_groups a) (a_ns a) (a_switch a) (a_np a)
                 (a_presets a) (a_types a) (o + 1) m))
  else
    idp <- rd 1 ;;
    id <- (if idp =? 0 then Ret (a_id a) else rd 8) ;;
    ng <- rd 7 ;;
    if 16 <? ng then Ret (Er E_NUM_GROUP) else
    r1 <- group_defs (Z.to_nat ng) (a_groups a) ;;
    match r1 with
    | Er e => Ret (Er e)
    | Ok gs =>
      ns <- rd 5 ;;
      if 8 <? ns then Ret (Er E_NUM_SWITCH_GROUPS) else
      r2 <- switch_defs (Z.to_nat ns) (a_switch a) ;;
      match r2 with
      | Er e => Ret (Er e)
      | Ok ss =>
        np <- rd 5 ;;
        if 8 <? np then Ret (Er E_NUM_PRESETS) else
        r3 <- preset_defs gs (Z.to_nat np) (a_presets a) ;;
        match r3 with
        | Er e => Ret (Er e)
        | Ok ps =>
          p0 <- aget ps 0 ;;
          r4 <- asi_data gs (Z.to_nat ng) (Z.to_nat np) (p_num p0) ;;
          match r4 with
          | Er e => Ret (Er e)
          | Ok tys =>
            m <- rd 7 ;;
            Ret (Ok (mkA main idp id ng gs ns ss np ps tys 0 m))
          end
        end
      end
    end.
