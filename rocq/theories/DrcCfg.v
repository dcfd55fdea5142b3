(** * DrcCfg: the dynamic range control configuration parser

    Models decoder/impd_drc_static_payload.c:66-243 and 546-1656 (everything in that file
    except the loudness information, which is in Loud.v).  Array bounds from
    impd_drc_common.h:40-110 and impd_drc_struct.h:140-300.

    - FLOAT32 values that the parser computes are multiples of 1/8 or 1/4 and are kept as
      the exact integer numerators (the unit is given at each field).
    - A field that the C code leaves untouched because the stream does not carry it keeps
      its old contents in C and is 0 (or -1 where noted) here.
    - [fix] is not in the C code: with [fix = true] the two missing capacity tests are
      added.  The C code is [fix = false]. *)

From Coq Require Import ZArith List Lia Bool.
From Verif Require Import Bits BitBuf Prog Asi Loud.
Import ListNotations.
Open Scope Z_scope.

(** impeghd_error_codes.h:72-79, 159-171 *)
Definition E_DRC_CH_GROUPS := 0x1103.
Definition E_DRC_COEFF_MAX := 0x1104.
Definition E_DRC_DUCKING := 0x1106.
Definition E_DRC_INSTR_MAX := 0x1107.
Definition E_DRC_GAIN_SET_INDEX := 0xFFFF9101.
Definition E_DRC_FATAL := 0xFFFF9103.
Definition E_DRC_LC := 0xFFFF910C.
(** Error code of the added tests only. *)
Definition E_DRC_FIX := -1.

(** impd_drc_common.h:46-105 *)
Definition BAND_MAX := 4.
Definition DMX_ID_MAX := 8.
Definition COEFF_MAX := 4.
Definition INSTR_MAX := 32.
Definition CHANNEL_MAX := 16.
Definition SEQUENCE_MAX := 24.
Definition GAIN_SET_MAX := 24.
Definition GROUP_MAX := 24.

Definition zlen {A} (l : list A) : Z := Z.of_nat (length l).

(** ia_drc_gain_set_params_struct with its gain_params[], impd_drc_struct.h:137-184:
    [gs_bands] holds (gain_seq_idx, drc_characteristic) per band, [gs_edges] the
    start_subband_index (band type 0) or crossover_freq_idx (band type 1) of the bands
    from the second one. *)
Record gset := mkGS {
  gs_prof : Z; gs_interp : Z; gs_full : Z; gs_align : Z; gs_tflag : Z; gs_tmin : Z;
  gs_count : Z; gs_btype : Z; gs_bands : list (Z * Z); gs_edges : list Z }.

(** ia_drc_uni_drc_coeffs_struct, impd_drc_struct.h:192-200. *)
Record coef := mkCo { co_loc : Z; co_sets : list gset }.

(** ia_drc_gain_modifiers_struct, impd_drc_struct.h:160-168: one value written to all
    bands of the group, [gm_bands] of them.  Scale factors in eighths, offset in
    quarters. *)
Record gmod := mkGM { gm_bands : Z; gm_sflag : Z; gm_att : Z; gm_amp : Z; gm_oflag : Z; gm_off : Z }.

(** The derived data of one channel group, impd_drc_struct.h:235-243. *)
Record gderived := mkGD { gd_interp : Z; gd_tmin : Z; gd_align : Z; gd_bands : Z }.

(** ia_drc_instructions_struct, impd_drc_struct.h:214-250.  [in_lim] is the limiter
    target code (-1 = absent), [in_dep] the set depended on (-1 = absent), [in_gsi] the
    gain set index of every channel (-1 = none), [in_duck] the ducking scaling in eighths
    of every channel, [in_cg] the channel group of every channel, [in_sets] the gain set
    index of every group, [in_mods] the gain modifiers of every group, [in_scal] the
    ducking scaling of every group. *)
Record instr := mkIn {
  in_type : Z; in_group : Z; in_preset : Z;
  in_set : Z; in_loc : Z; in_dmx : list Z; in_effect : Z; in_lim : Z;
  in_tflag : Z; in_upper : Z; in_lower : Z; in_dep : Z; in_noind : Z;
  in_gsi : list Z; in_duck : list Z; in_cg : list Z;
  in_sets : list Z; in_mods : list gmod; in_scal : list Z;
  in_der : list gderived }.

(** ia_drc_config, impd_drc_struct.h:287-318.  [dc_off] lists (drc_set_id, downmix_id[0])
    of the entries appended for "no DRC". *)
Record drccfg := mkDC { dc_base : Z; dc_coefs : list coef; dc_instr : list instr;
                        dc_off : list (Z * Z) }.

(** impd_drc_parse_gain_set_params, static_payload.c:580-674, called with version 0 only.
    [seq] is *gain_seq_index (WORD8; it stays below 64 when the number of gain sets is
    within the array, so it does not wrap).  The C code keeps an old drc_band_type when
    there are fewer than two bands, where nothing depends on it; it is 0 here.
    start_subband_index is a WORD8 assigned from 10 bits (649-650). *)
Definition to_word8 (v : Z) : Z := (v + 128) mod 256 - 128.

Definition gain_set_params (seq : Z) : prog (res (gset * Z)) :=
  t <- rd 6 ;;
  let prof := t / 16 mod 4 in
  let interp := t / 8 mod 2 in
  let full := t / 4 mod 2 in
  let align := t / 2 mod 2 in
  let tflag := t mod 2 in
  tmin <- (if tflag =? 0 then Ret 0 else v <- rd 11 ;; Ret (v + 1)) ;;
  if prof =? 3 then
    Ret (Ok (mkGS prof interp full align tflag tmin 1 0 [] [], seq + 1))
  else
  n <- rd 4 ;;
  if BAND_MAX <? n then Ret (Er E_DRC_UNEXPECTED) else
  bt <- (if 1 <? n then rd 1 else Ret 0) ;;
  r <- forR (Z.to_nat n) 0 (fun i '(bands, seq) =>
         let seq := seq + 1 in
         if SEQUENCE_MAX <=? seq then Ret (Er E_DRC_UNEXPECTED) else
         chk (Z.of_nat i) BAND_MAX ;;;
         c <- rd 7 ;;
         Ret (Ok (bands ++ [(seq, c)], seq))) ([], seq) ;;
  match r with Er e => Ret (Er e) | Ok (bands, seq) =>
  edges <- forP (Z.to_nat (n - 1)) 1 (fun i acc =>
             chk (Z.of_nat i) BAND_MAX ;;;
             if bt =? 0 then v <- rd 10 ;; Ret (acc ++ [to_word8 v])
             else v <- rd 4 ;; Ret (acc ++ [v])) [] ;;
  Ret (Ok (mkGS prof interp full align tflag tmin n bt bands edges, seq))
  end.

(** impd_drc_parse_coeff, static_payload.c:689-756, version 0.  The count (6 bits) is not
    compared with the array gain_set_params[GAIN_SET_COUNT_MAX].  Lines 735-750 are only
    reached with time_delt_min_flag = 0 and do nothing. *)
Definition parse_coeff (fix_ : bool) : prog (res coef) :=
  t <- rd 5 ;;
  if negb (t mod 2 =? 0) then Ret (Er E_DRC_LC) else
  let loc := t / 2 mod 16 in
  n <- rd 6 ;;
  if fix_ && (GAIN_SET_MAX <? n) then Ret (Er E_DRC_FIX) else
  r <- forR (Z.to_nat n) 0 (fun i '(sets, seq) =>
         chk (Z.of_nat i) GAIN_SET_MAX ;;;
         r <- gain_set_params seq ;;
         match r with Er e => Ret (Er e) | Ok (g, seq) =>
         if negb (gs_tflag g =? 0) || negb (gs_interp g =? 1) then Ret (Er E_DRC_LC)
         else Ret (Ok (sets ++ [g], seq)) end) ([], -1) ;;
  match r with Er e => Ret (Er e) | Ok (sets, _) => Ret (Ok (mkCo loc sets)) end.

(** impd_drc_parse_downmix_id, static_payload.c:850-885. *)
Definition parse_downmix_id : prog (list Z) :=
  d <- rd 7 ;;
  f <- rd 1 ;;
  if f =? 0 then Ret [d] else
  n <- rd 3 ;;
  forP (Z.to_nat n) 1 (fun i acc =>
    chk (Z.of_nat i) DMX_ID_MAX ;;; v <- rd 7 ;; Ret (acc ++ [v])) [d].

(** impd_drc_parse_target_loudness, static_payload.c:769-796. *)
Definition parse_target_loudness : prog (Z * Z * Z) :=
  f <- rd 1 ;;
  if f =? 0 then Ret (f, 0, -63) else
  u <- rd 6 ;;
  g <- rd 1 ;;
  l <- (if g =? 0 then Ret (-63) else v <- rd 6 ;; Ret (v - 63)) ;;
  Ret (f, u - 63, l).

(** impd_drc_update_uni_drc_coeff, static_payload.c:811-836: the last one with the
    location. *)
Definition last_coef (cs : list coef) (loc : Z) : option coef :=
  fold_left (fun r c => if co_loc c =? loc then Some c else r) cs None.

(** static_payload.c:180-193: the first one with the location. *)
Definition first_coef (cs : list coef) (loc : Z) : option coef :=
  find (fun c => co_loc c =? loc) cs.

(** impd_drc_update_ch_count, static_payload.c:899-931.  [dmxs] is
    mpegh3da_dwnmix_instructions[] as (downmix_id, target_channel_count). *)
Definition update_ch_count (dmxs : list (Z * Z)) (ids : list Z) (base : Z) : res Z :=
  let d0 := hd 0 ids in
  let r :=
    if negb (d0 =? 0) && negb (d0 =? 127) && (zlen ids =? 1) then
      match find (fun x => fst x =? d0) dmxs with
      | None => Er E_DRC_UNEXPECTED
      | Some x => Ok (snd x)
      end
    else if (d0 =? 127) || (1 <? zlen ids) then Ok 1 else Ok base in
  match r with
  | Er e => Er e
  | Ok n => if CHANNEL_MAX <? n then Er E_DRC_UNEXPECTED else Ok n
  end.

(** impd_drc_decode_gain_modifiers, static_payload.c:945-985.  The loop 976-983 writes
    the bands [band_cnt - 1] down to 0 of arrays of size BAND_COUNT_MAX. *)
Definition gain_modifiers (band_cnt : Z) : prog gmod :=
  sf <- rd 1 ;;
  ' (att, amp) <- (if sf =? 0 then Ret (8, 8) else t <- rd 8 ;; Ret (t / 16 mod 16, t mod 16)) ;;
  of <- rd 1 ;;
  off <- (if of =? 0 then Ret 0 else
          t <- rd 6 ;;
          let v := 1 + t mod 32 in
          Ret (if t / 32 mod 2 =? 0 then v else - v)) ;;
  (if 0 <? band_cnt then chk (band_cnt - 1) BAND_MAX else Ret tt) ;;;
  Ret (mkGM band_cnt sf att amp of off).

(** The loops 1015-1051 and 1318-1359: read the parameters of one channel ([item], which
    also reads the repeat flag) and repeat them for further channels.  Both loops have
    the same shape; they differ in [item].  Every round adds a channel, so [cnt] rounds
    are enough. *)
Fixpoint channel_loop {A} (fuel : nat) (item : prog (res (A * Z))) (cnt : Z) (acc : list A)
  : prog (res (list A)) :=
  if cnt <=? zlen acc then Ret (Ok acc) else
  match fuel with
  | O => Undef UFuel
  | S f =>
    r <- item ;;
    match r with Er e => Ret (Er e) | Ok (a, rep) =>
    chk (zlen acc) CHANNEL_MAX ;;;
    let acc := acc ++ [a] in
    if rep =? 1 then
      n <- rd 5 ;;
      if CHANNEL_MAX <? zlen acc + (n + 1) then Ret (Er E_DRC_UNEXPECTED) else
      acc <- forP (Z.to_nat (n + 1)) 0 (fun _ l => chk (zlen l) CHANNEL_MAX ;;; Ret (l ++ [a])) acc ;;
      channel_loop f item cnt acc
    else channel_loop f item cnt acc
    end
  end.

(** The body of 1018-1030. *)
Definition plain_item : prog (res (Z * Z)) :=
  t <- rd 7 ;;
  let b := t / 2 mod 128 in
  if GAIN_SET_MAX <? b then Ret (Er E_DRC_UNEXPECTED) else Ret (Ok (b - 1, t mod 2)).

(** impd_drc_decode_ducking_scaling, static_payload.c:1142-1172, in eighths. *)
Definition ducking_scaling : prog Z :=
  f <- rd 1 ;;
  if f =? 0 then Ret 8 else
  v <- rd 4 ;;
  let mu := v mod 8 in
  Ret (if v / 8 =? 0 then 8 + (1 + mu) else 8 - (1 + mu)).

(** The body of 1321-1342. *)
Definition duck_item : prog (res ((Z * Z) * Z)) :=
  b <- rd 6 ;;
  if GAIN_SET_MAX <? b then Ret (Er E_DRC_UNEXPECTED) else
  s <- ducking_scaling ;;
  rep <- rd 1 ;;
  Ret (Ok ((b - 1, s), rep)).

(** Position of the first equal element: the searches 1076-1084, 1211-1219, 1264-1272. *)
Fixpoint find_pos {A} (eqb : A -> A -> bool) (x : A) (u : list A) (n : Z) : option Z :=
  match u with
  | [] => None
  | y :: t => if eqb x y then Some n else find_pos eqb x t (n + 1)
  end.

(** The grouping loops 1067-1092 (key = index) and 1195-1224 (key = index and scaling):
    channels without gain set get group -1, the others the group with their key. *)
Fixpoint group_loop {A} (eqb : A -> A -> bool) (unused : A -> bool) (l : list A)
    (uniq : list A) (cg : list Z) : prog (list A * list Z) :=
  match l with
  | [] => Ret (uniq, cg)
  | x :: t =>
    if unused x then group_loop eqb unused t uniq (cg ++ [-1]) else
    match find_pos eqb x uniq 0 with
    | Some n => group_loop eqb unused t uniq (cg ++ [n])
    | None =>
      chk (zlen uniq) CHANNEL_MAX ;;;
      group_loop eqb unused t (uniq ++ [x]) (cg ++ [zlen uniq])
    end
  end.

Definition pair_eqb (a b : Z * Z) : bool := (fst a =? fst b) && (snd a =? snd b).

(** impd_drc_update_ch_group_info_duck_other, static_payload.c:1242-1290. *)
Fixpoint duck_other_loop (l : list (Z * Z)) (uniq : list Z) (cg : list Z) (seq : Z)
  : prog (res (list Z * list Z * Z)) :=
  match l with
  | [] => if seq =? -1 then Ret (Er E_DRC_DUCKING) else Ret (Ok (uniq, cg, seq))
  | (idx, f) :: t =>
    if 0 <=? idx then
      if negb (idx =? seq) && (0 <? seq) then Ret (Er E_DRC_DUCKING)
      else duck_other_loop t uniq (cg ++ [-1]) idx
    else
    match find_pos Z.eqb f uniq 0 with
    | Some n => duck_other_loop t uniq (cg ++ [n]) seq
    | None =>
      chk (zlen uniq) CHANNEL_MAX ;;;
      duck_other_loop t (uniq ++ [f]) (cg ++ [zlen uniq]) seq
    end
  end.

(** What the two functions below return: gain set index per channel, scaling per channel,
    group per channel, gain set per group, modifiers per group, scaling per group. *)
Record chpart := mkCP { cp_gsi : list Z; cp_duck : list Z; cp_cg : list Z;
                        cp_sets : list Z; cp_mods : list gmod; cp_scal : list Z }.

(** impd_drc_parse_instrns_effect_not_self_other, static_payload.c:1002-1128.  With
    ID_FOR_ANY_DOWNMIX or several downmix ids channel_group_of_ch[] is not written. *)
Definition band_count_of (c : coef) (i : Z) : prog Z :=
  if i <? zlen (co_sets c) then g <- aget (co_sets c) i ;; Ret (gs_count g) else Ret 1.

Definition not_self_other (dmxs : list (Z * Z)) (ids : list Z) (base : Z) (c : coef)
  : prog (res chpart) :=
  match update_ch_count dmxs ids base with Er e => Ret (Er e) | Ok cnt =>
  r <- channel_loop (Z.to_nat cnt) plain_item cnt [] ;;
  match r with Er e => Ret (Er e) | Ok gsi =>
  if cnt <? zlen gsi then Ret (Er E_DRC_UNEXPECTED) else
  ' (uniq, cg) <-
    (if (hd 0 ids =? 127) || (1 <? zlen ids) then
       i <- aget gsi 0 ;;
       Ret (if 0 <=? i then ([i], []) else ([], []))
     else group_loop Z.eqb (fun i => i <? 0) gsi [] []) ;;
  if CHANNEL_MAX <? zlen uniq then Ret (Er E_DRC_CH_GROUPS) else
  r <- forR (length uniq) 0 (fun g acc =>
         i <- aget uniq (Z.of_nat g) ;;
         if i <? 0 then Ret (Er E_DRC_UNEXPECTED) else
         chk (Z.of_nat g) GROUP_MAX ;;;
         bc <- band_count_of c i ;;
         m <- gain_modifiers bc ;;
         Ret (Ok (acc ++ [m]))) [] ;;
  match r with Er e => Ret (Er e) | Ok mods =>
  Ret (Ok (mkCP gsi [] cg uniq mods []))
  end end end.

(** impd_drc_parse_instrns_effect_self_other, static_payload.c:1306-1407. *)
Definition duck_bits (effect : Z) : bool := negb (Z.land effect 0xC00 =? 0).
Definition duck_self (effect : Z) : bool := negb (Z.land effect 0x800 =? 0).
Definition duck_other (effect : Z) : bool := negb (Z.land effect 0x400 =? 0).

Definition self_other (effect base : Z) : prog (res chpart) :=
  r <- channel_loop (Z.to_nat base) duck_item base [] ;;
  match r with Er e => Ret (Er e) | Ok chs =>
  if base <? zlen chs then Ret (Er E_DRC_UNEXPECTED) else
  r <- (if duck_self effect then
          ' (uniq, cg) <- group_loop pair_eqb (fun x => fst x <? 0) chs [] [] ;;
          Ret (Ok (map fst uniq, map snd uniq, cg, -1))
        else
          r <- duck_other_loop chs [] [] (-1) ;;
          match r with Er e => Ret (Er e)
          | Ok (uniq, cg, seq) => Ret (Ok (map (fun _ => -1) uniq, uniq, cg, seq)) end) ;;
  match r with Er e => Ret (Er e) | Ok (uidx, uscal, cg, seq) =>
  if CHANNEL_MAX <? zlen uscal then Ret (Er E_DRC_CH_GROUPS) else
  r <- forR (length uscal) 0 (fun g acc =>
         i <- aget uidx (Z.of_nat g) ;;
         let set := if duck_other effect then seq else i in
         if set <? 0 then Ret (Er E_DRC_UNEXPECTED) else
         chk (Z.of_nat g) GROUP_MAX ;;;
         Ret (Ok (acc ++ [set]))) [] ;;
  match r with Er e => Ret (Er e) | Ok sets =>
  Ret (Ok (mkCP (map fst chs) (map snd chs) cg sets [] uscal))
  end end end.

(** impd_drc_parse_drc_instructions, static_payload.c:1422-1531.  [ty], [grp], [pre] are
    the fields written by the caller (1586-1609). *)
Definition parse_instructions (dmxs : list (Z * Z)) (base : Z) (cs : list coef) (ty grp pre : Z)
  : prog (res instr) :=
  id <- rd 6 ;;
  if INSTR_MAX <=? id then Ret (Er E_DRC_UNEXPECTED) else
  loc <- rd 4 ;;
  ids <- parse_downmix_id ;;
  eff <- rd 16 ;;
  lim <- (if duck_bits eff then Ret (-1) else
          f <- rd 1 ;; if f =? 0 then Ret (-1) else rd 8) ;;
  ' (tf, up, lo) <- parse_target_loudness ;;
  dp <- rd 1 ;;
  if (hd 0 ids =? 0) && negb (dp =? 0) then Ret (Er E_DRC_LC) else
  ' (dep, noind) <- (if dp =? 0 then v <- rd 1 ;; Ret (-1, v) else v <- rd 6 ;; Ret (v, 0)) ;;
  match last_coef cs loc with None => Ret (Er E_DRC_FATAL) | Some c =>
  if CHANNEL_MAX <? base then Ret (Er E_DRC_UNEXPECTED) else
  r <- (if duck_bits eff then self_other eff base else not_self_other dmxs ids base c) ;;
  match r with Er e => Ret (Er e) | Ok p =>
  if negb (hd 0 ids =? 0) && negb (zlen (cp_sets p) =? 1) then Ret (Er E_DRC_LC) else
  Ret (Ok (mkIn ty grp pre id loc ids eff lim tf up lo dep noind
             (cp_gsi p) (cp_duck p) (cp_cg p) (cp_sets p) (cp_mods p) (cp_scal p) []))
  end end.

(** impd_drc_parse_config_ext, static_payload.c:125-158: at most one extension, whose
    payload is skipped.  A second one is an error, so the while loop is unrolled. *)
Definition config_ext : prog (res unit) :=
  ty <- rd 4 ;;
  if ty =? 0 then Ret (Ok tt) else
  l <- rd 4 ;; b <- rd (l + 4) ;;
  read_ones (b + 1) ;;;
  ty2 <- rd 4 ;;
  if ty2 =? 0 then Ret (Ok tt) else Ret (Er E_DRC_UNEXPECTED).

(** impd_drc_gen_instructions_derived_data, static_payload.c:172-243.  [tdef] is
    delta_tmin_def.  For ducking sets band_count_of_ch_group was set to 1 at 1404. *)
Definition derived_data (tdef : Z) (cs : list coef) (i : instr) : prog (res instr) :=
  match first_coef cs (in_loc i) with None => Ret (Er E_DRC_FATAL) | Some c =>
  r <- forR (length (in_sets i)) 0 (fun g acc =>
         seq <- aget (in_sets i) (Z.of_nat g) ;;
         if zlen (co_sets c) <=? seq then Ret (Er E_DRC_GAIN_SET_INDEX) else
         p <- aget (co_sets c) seq ;;
         Ret (Ok (acc ++ [mkGD (gs_interp p) (if gs_tflag p =? 0 then tdef else gs_tmin p)
                            (gs_align p) (if duck_bits (in_effect i) then 1 else gs_count p)]))) [] ;;
  match r with Er e => Ret (Er e) | Ok d =>
  Ret (Ok (mkIn (in_type i) (in_group i) (in_preset i) (in_set i) (in_loc i) (in_dmx i)
             (in_effect i) (in_lim i) (in_tflag i) (in_upper i) (in_lower i) (in_dep i)
             (in_noind i) (in_gsi i) (in_duck i) (in_cg i) (in_sets i) (in_mods i)
             (in_scal i) d))
  end end.

(** The instruction loop, static_payload.c:1584-1614. *)
Definition parse_instr_one (dmxs : list (Z * Z)) (base : Z) (cs : list coef) : prog (res instr) :=
  t <- rd 1 ;;
  ' (ty, grp, pre) <-
    (if t =? 0 then Ret (0, -1, -1) else
     u <- rd 1 ;;
     if u =? 0 then g <- rd 7 ;; Ret (2, g, 0) else p <- rd 5 ;; Ret (3, 0, p)) ;;
  parse_instructions dmxs base cs ty grp pre.

(** impd_drc_parse_config, static_payload.c:1546-1656, with
    impd_drc_mpegh3da_parse_drc_channel_layout (559-566) and
    impd_drc_gen_instructions_for_drc_off (66-111).  drc_dwnmix_instructions_count is 0
    before the call: impd_drc_init.c:127 runs just before every call
    (ia_core_coder_decode_main.c:3269-3328). *)
Definition parse_config (fix_ : bool) (dmxs : list (Z * Z)) (tdef : Z) : prog (res drccfg) :=
  nc <- rd 3 ;;
  if COEFF_MAX <? nc then Ret (Er E_DRC_COEFF_MAX) else
  ni <- rd 6 ;;
  if INSTR_MAX <? ni then Ret (Er E_DRC_INSTR_MAX) else
  base <- rd 7 ;;
  r <- forR (Z.to_nat nc) 0 (fun i acc =>
         chk (Z.of_nat i) COEFF_MAX ;;;
         r <- parse_coeff fix_ ;;
         match r with Er e => Ret (Er e) | Ok c => Ret (Ok (acc ++ [c])) end) [] ;;
  match r with Er e => Ret (Er e) | Ok cs =>
  r <- forR (Z.to_nat ni) 0 (fun i acc =>
         chk (Z.of_nat i) INSTR_MAX ;;;
         r <- parse_instr_one dmxs base cs ;;
         match r with Er e => Ret (Er e) | Ok x => Ret (Ok (acc ++ [x])) end) [] ;;
  match r with Er e => Ret (Er e) | Ok is =>
  ep <- rd 1 ;;
  r <- (if ep =? 1 then config_ext else Ret (Ok tt)) ;;
  match r with Er e => Ret (Er e) | Ok _ =>
  lp <- rd 1 ;;
  if negb (lp =? 0) then Ret (Er E_DRC_LC) else
  r <- forR (length is) 0 (fun k acc =>
         i <- aget is (Z.of_nat k) ;;
         r <- derived_data tdef cs i ;;
         match r with Er e => Ret (Er e) | Ok x => Ret (Ok (acc ++ [x])) end) [] ;;
  match r with Er e => Ret (Er e) | Ok is =>
  if INSTR_MAX <=? ni then Ret (Er E_DRC_INSTR_MAX) else
  if fix_ && (INSTR_MAX <=? ni + 1) then Ret (Er E_DRC_FIX) else
  chk ni INSTR_MAX ;;;
  chk (ni + 1) INSTR_MAX ;;;
  Ret (Ok (mkDC base cs is [(-1, 0); (-2, -1)]))
  end end end end.
