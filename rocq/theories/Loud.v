(** * Loud: the loudness information set parser

    Models decoder/impd_drc_static_payload.c:257-544 (loudness measures, loudness info,
    loudness info set and its extension).  Array bounds from impd_drc_common.h:40-110
    and impd_drc_struct.h:232-300 (default build, LC_LEVEL_4 off).

    Levels are kept as exact integers instead of FLOAT32: method values in quarters
    (value * 4), peak levels as the 12-bit code that was read (0 = absent); all these
    FLOAT32 computations are exact, so nothing is lost. *)

From Coq Require Import ZArith List Lia Bool.
From Verif Require Import Bits BitBuf Prog Asi.
Import ListNotations.
Open Scope Z_scope.

(** impeghd_error_codes.h:72-79, 159-171 *)
Definition E_DRC_UNEXPECTED := 0x1101.
Definition E_DRC_METHOD := 0xFFFF9102.

Definition LOUDNESS_INFO_MAX := 36.
Definition MEASUREMENT_MAX := 16.
Definition EXT_MAX := 2.

(** ia_drc_loudness_measure_struct, impd_drc_struct.h:252-258. *)
Record lmeas := mkLM { lm_method : Z; lm_val : Z; lm_sys : Z; lm_rel : Z }.

(** ia_drc_loudness_info_struct, impd_drc_struct.h:260-277.  The peak fields hold the
    12-bit code; 0 stands for "not present" as in lines 377-381 and 394-398. *)
Record linfo := mkLI {
  li_type : Z; li_group : Z; li_preset : Z;
  li_set : Z; li_dmx : Z; li_peak : Z;
  li_true : Z; li_tsys : Z; li_trel : Z; li_meas : list lmeas }.

(** Width of the method value field, and its value in quarters:
    impd_drc_decode_method_value, static_payload.c:257-305. *)
Definition method_bits (m : Z) : Z :=
  if m =? 8 then 2 else if m =? 7 then 5 else 8.

Definition method_value (m t : Z) : Z :=
  if m =? 9 then -464 + 2 * t
  else if m =? 8 then 4 * t
  else if m =? 7 then 4 * t + 320
  else if m =? 6 then
    (if t =? 0 then 0 else if t <=? 128 then t
     else if t <=? 204 then 2 * t - 128 else 4 * t - 536)
  else -231 + t.

(** impd_drc_parse_loudness_measure, static_payload.c:318-343. *)
Definition loudness_measure : prog (res lmeas) :=
  m <- rd 4 ;;
  if 9 <? m then Ret (Er E_DRC_METHOD) else
  t <- rd (method_bits m) ;;
  x <- rd 6 ;;
  let sys := x / 4 in
  if 11 <? sys then Ret (Er E_DRC_UNEXPECTED) else
  Ret (Ok (mkLM m (method_value m t) sys (x mod 4))).

(** The measurement loop, static_payload.c:407-413; [chk] is the array bound of
    [loudness_measure[MEASUREMENT_COUNT_MAX]]. *)
Definition loudness_measures (n : Z) : prog (res (list lmeas)) :=
  forR (Z.to_nat n) 0 (fun i acc =>
    chk (Z.of_nat i) MEASUREMENT_MAX ;;;
    r <- loudness_measure ;;
    match r with Er e => Ret (Er e) | Ok m => Ret (Ok (acc ++ [m])) end) [].

(** impd_drc_parse_loudness_info, static_payload.c:356-416.  [ty], [grp], [pre] are the
    fields written by the caller (489-506). *)
Definition loudness_info (ty grp pre : Z) : prog (res linfo) :=
  id <- rd 6 ;;
  t <- rd 8 ;;
  pk <- (if t mod 2 =? 0 then Ret 0 else rd 12) ;;
  tp <- rd 1 ;;
  ' (tl, ts, tr) <-
    (if tp =? 0 then Ret (0, 0, 0)
     else l <- rd 12 ;; x <- rd 6 ;; Ret (l, x / 4, x mod 4)) ;;
  n <- rd 4 ;;
  r <- loudness_measures n ;;
  match r with
  | Er e => Ret (Er e)
  | Ok ms => Ret (Ok (mkLI ty grp pre id (t / 2) pk tl ts tr ms))
  end.

(** Single-bit reads of the extension payload, static_payload.c:454-458. *)
Definition read_ones (n : Z) : prog unit :=
  forP (Z.to_nat n) 0 (fun _ _ => _ <- rd 1 ;; Ret tt) tt.

(** impd_drc_parse_loudness_info_set_ext, static_payload.c:429-465.  At most one
    extension can be stored (EXT_COUNT_MAX - 1); a second one is an error, so the
    while loop runs at most twice and is unrolled.  The payload is ignored. *)
Definition loudness_ext : prog (res unit) :=
  ty <- rd 4 ;;
  if ty =? 0 then Ret (Ok tt) else
  l <- rd 4 ;; b <- rd (l + 4) ;;
  read_ones (b + 1) ;;;
  ty2 <- rd 4 ;;
  if ty2 =? 0 then Ret (Ok tt) else
  l2 <- rd 4 ;; b2 <- rd (l2 + 4) ;;
  Ret (Er E_DRC_UNEXPECTED).

(** ia_drc_loudness_info_set_struct (only the entries in force). *)
Record lset := mkLS { ls_info : list linfo; ls_album : list linfo }.

(** The loop over the infos, static_payload.c:487-512.  [chk] is the bound of
    [loudness_info[LOUDNESS_INFO_COUNT_MAX]]; the count (6 bits) is not compared with
    it in the C code.  For types 1-3 the id that is not read keeps its old contents in
    C and is 0 here. *)
Definition loudness_infos (n : Z) : prog (res (list linfo)) :=
  forR (Z.to_nat n) 0 (fun i acc =>
    chk (Z.of_nat i) LOUDNESS_INFO_MAX ;;;
    ty <- rd 2 ;;
    ' (grp, pre) <-
      (if ty =? 3 then p <- rd 5 ;; Ret (0, p)
       else if ty =? 0 then Ret (-1, -1)
       else g <- rd 7 ;; Ret (g, 0)) ;;
    r <- loudness_info ty grp pre ;;
    match r with Er e => Ret (Er e) | Ok x => Ret (Ok (acc ++ [x])) end) [].

(** The album loop, static_payload.c:523-530: besides storing the album entry it clears
    the type of the plain entry with the same index (525). *)
Definition loudness_albums (n : Z) (infos : list linfo)
  : prog (res (list linfo * list linfo)) :=
  forR (Z.to_nat n) 0 (fun i '(al, inf) =>
    chk (Z.of_nat i) LOUDNESS_INFO_MAX ;;;
    let inf' := match nth_error inf i with
                | Some x => firstn i inf ++
                    mkLI 0 (li_group x) (li_preset x) (li_set x) (li_dmx x) (li_peak x)
                         (li_true x) (li_tsys x) (li_trel x) (li_meas x) :: skipn (S i) inf
                | None => inf end in
    r <- loudness_info 0 0 0 ;;
    match r with Er e => Ret (Er e) | Ok x => Ret (Ok (al ++ [x], inf')) end) ([], infos).

(** impd_drc_mpegh3da_parse_loudness_info_set, static_payload.c:478-544. *)
Definition loudness_info_set : prog (res lset) :=
  n <- rd 6 ;;
  r <- loudness_infos n ;;
  match r with Er e => Ret (Er e) | Ok infos =>
  ap <- rd 1 ;;
  r <- (if ap =? 0 then Ret (Ok ([], infos)) else na <- rd 6 ;; loudness_albums na infos) ;;
  match r with Er e => Ret (Er e) | Ok (al, infos) =>
  ep <- rd 1 ;;
  r <- (if ep =? 0 then Ret (Ok tt) else loudness_ext) ;;
  match r with Er e => Ret (Er e) | Ok _ =>
  Ret (Ok (mkLS infos al)) end end end.
