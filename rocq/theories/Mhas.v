(** * Mhas: the MHAS packet parser

    Models decoder/impeghd_mhas_parse.c:704-957 (earcon, PCM config and PCM data
    packets) and 1210-1386 (the packet loop).  Structures from impeghd_mhas_parse.h. *)

From Coq Require Import ZArith List Lia Bool.
From Verif Require Import Bits BitBuf Prog Asi Loud.
Import ListNotations.
Open Scope Z_scope.

Definition E_SYNC := 0xFFFF900D.
Definition E_NUM_EARCONS := 0xFFFF9013.
Definition E_NUM_PCM_SIG := 0xFFFF9017.

(** ** Earcons *)

(** One column of ia_earcon_info, mhas_parse.h:317-338.  A text is kept as the list of
    its characters (at most 255, the C array has room for 256). *)
Record earcon := mkEC {
  e_indep : Z; e_id : Z; e_type : Z; e_active : Z; e_ptype : Z; e_spk : Z;
  e_az : Z; e_el : Z; e_dist : Z; e_gain : Z; e_nlang : Z; e_lang : list (Z * list Z) }.

(** Body of the text loop, mhas_parse.c:944-954: language, length and characters are
    stored in arrays of MAX_NUM_EARCON_LANGUAGES = 16 and of 256 characters. *)
Definition read_text (len : Z) : prog (list Z) :=
  forP (Z.to_nat len) 0 (fun i acc => chk (Z.of_nat i) 256 ;;; c <- rd 8 ;; Ret (acc ++ [c])) [].
Definition read_langs (n : Z) (old : list (Z * list Z)) : prog (list (Z * list Z)) :=
  forP (Z.to_nat n) 0 (fun i l =>
    g <- rd 24 ;; len <- rd 8 ;; t <- read_text len ;; aset l (Z.of_nat i) (g, t)) old.

(** Position of an earcon, mhas_parse.c:912-934. *)
Definition earcon_position (o : earcon) : prog (Z * Z * Z * Z * Z) :=
  pt <- rd 2 ;;
  if pt =? 0 then k <- rd 7 ;; Ret (pt, k, e_az o, e_el o, e_dist o)
  else if pt =? 1 then a <- rd 8 ;; l <- rd 6 ;; d <- rd 9 ;; Ret (pt, e_spk o, a, l, d)
  else Ret (pt, e_spk o, 0, 0, 177).

(** One iteration of the loop, mhas_parse.c:905-955. *)
Definition earcon_one (i : Z) (tab : list earcon) : prog (list earcon) :=
  o <- aget tab i ;;
  ind <- rd 1 ;; id <- rd 7 ;; ty <- rd 4 ;; act <- rd 1 ;;
  ' (pt, k, a, l, d) <- earcon_position o ;;
  hg <- rd 1 ;;
  g <- (if hg =? 0 then Ret (e_gain o) else rd 7) ;;
  ht <- rd 1 ;;
  nl <- (if ht =? 0 then Ret (e_nlang o) else rd 4) ;;
  lang <- read_langs nl (e_lang o) ;;
  aset tab i (mkEC ind id ty act pt k a l d g nl lang).

(** impeghd_econ_config_info, mhas_parse.c:896-957. *)
Definition earcon_info (tab : list earcon) : prog (res (list earcon)) :=
  n <- rd 7 ;;
  if 16 <? n then Ret (Er E_NUM_EARCONS) else
  t <- forP (Z.to_nat (n + 1)) 0 (fun i t => earcon_one (Z.of_nat i) t) tab ;;
  Ret (Ok t).

(** ** PCM packets *)

(** ia_pcm_data_config, mhas_parse.h:286-315; [k_samples] has one row per sample time
    holding the integer sample of every signal (the C code stores the same number as
    FLOAT32, scaled to 16 bit). *)
Record pcm := mkPCM {
  k_num : Z; k_align : Z; k_rate : Z; k_bits : Z; k_fs : Z; k_fix : Z; k_var : Z;
  k_ids : list Z; k_loud : Z; k_att : Z; k_attg : Z; k_nsig : Z;
  k_samples : list (list Z) }.

(** ia_core_coder_rom.c:1240-1242, 1285-1286. *)
Definition sampling_rate_tbl : list Z :=
  [0;0;0;48000;44100;32000;24000;22050;16000;14700;29400;0;0;0;0;0;
   0;0;0;0;0;0;0;0;0;0;0;0;0;0;0;0].
Definition pcm_bits_tbl : list Z := [16;24;32].
Definition pcm_frame_tbl : list Z := [0;768;1024;2048;4096].

(** The signal id loops, mhas_parse.c:760-763 and 871-874 (array of 128). *)
Definition read_ids (n : Z) (ids : list Z) : prog (list Z) :=
  forP (Z.to_nat n) 0 (fun i l => v <- rd 7 ;; aset l (Z.of_nat i) v) ids.

(** impeghd_pcm_data_config, mhas_parse.c:845-884. *)
Definition pcm_config (c : pcm) : prog pcm :=
  num <- rd 7 ;; al <- rd 1 ;; si <- rd 5 ;;
  r0 <- aget sampling_rate_tbl si ;;
  rate <- (if si =? 31 then rd 24 else Ret r0) ;;
  bi <- rd 3 ;;
  if 2 <? bi then
    Ret (mkPCM num al rate (k_bits c) (k_fs c) (k_fix c) (k_var c) (k_ids c) (k_loud c)
           (k_att c) (k_attg c) (k_nsig c) (k_samples c))
  else
  bits <- aget pcm_bits_tbl bi ;;
  fs <- rd 3 ;;
  fix_ <- (if fs =? 5 then rd 16 else Ret (k_fix c)) ;;
  ids <- read_ids (num + 1) (k_ids c) ;;
  lo <- rd 8 ;; att <- rd 2 ;;
  ag <- (if att =? 1 then rd 8 else Ret (k_attg c)) ;;
  Ret (mkPCM num al rate bits fs fix_ (k_var c) ids lo att ag (k_nsig c) (k_samples c)).

(** ia_sign_extend_16 / _24, mhas_parse.c:704-734. *)
Definition sign_extend_16 (v : Z) : Z :=
  let w := Z.land v 0xFFFF in if Z.land v 0x8000 =? 0 then w else s32 (w + 0xFFFF0000).
Definition sign_extend_24 (v : Z) : Z :=
  let w := Z.land v 0xFFFFFF in if Z.land v 0x800000 =? 0 then w else s32 (w + 0xFF000000).

(** One sample, mhas_parse.c:794-828.  [pcm_sample <<= 8] (812) is taken to wrap, as
    compilers implement it. *)
Definition pcm_sample (bits : Z) : prog Z :=
  if bits =? 16 then v <- rd 16 ;; Ret (sign_extend_16 v)
  else if bits =? 24 then v <- rd 24 ;; Ret (sign_extend_24 v)
  else if bits =? 32 then
    forP 4 0 (fun _ a => t <- rd 8 ;; Ret (s32 (Z.lor (s32 (a * 256)) t))) 0
  else rd bits.

(** The sample loops, mhas_parse.c:790-830; [chk] are the bounds of
    [pcm_sample[MAX_NUM_CHANNELS = 24][MAX_NUM_PCM_SAMPLES = 1024]]. *)
Definition pcm_row (bits nsig : Z) (t : Z) : prog (list Z) :=
  forP (Z.to_nat nsig) 0 (fun i row =>
    v <- pcm_sample bits ;; chk (Z.of_nat i) 24 ;;; chk t 1024 ;;; Ret (row ++ [v])) [].
Definition pcm_rows (bits nsig n : Z) : prog (list (list Z)) :=
  forP (Z.to_nat n) 0 (fun t rows => r <- pcm_row bits nsig (Z.of_nat t) ;; Ret (rows ++ [r])) [].

(** impeghd_pcm_data_payload, mhas_parse.c:746-833; the error code for too many signals
    is ignored by the caller (1351), so only the resulting state is returned. *)
Definition pcm_payload (c : pcm) : prog pcm :=
  ns <- rd 7 ;;
  if 23 <? ns then
    Ret (mkPCM (k_num c) (k_align c) (k_rate c) (k_bits c) (k_fs c) (k_fix c) (k_var c)
           (k_ids c) (k_loud c) (k_att c) (k_attg c) 0 (k_samples c))
  else
  ids <- read_ids (ns + 1) (k_ids c) ;;
  ag <- (if k_att c =? 2 then rd 8 else Ret (k_attg c)) ;;
  var <- (if k_fs c =? 6 then rd 16 else Ret (k_var c)) ;;
  if k_fs c =? 0 then
    Ret (mkPCM (k_num c) (k_align c) (k_rate c) (k_bits c) (k_fs c) (k_fix c) var
           ids (k_loud c) (k_att c) ag ns (k_samples c))
  else
  let fs := if k_fs c =? 5 then k_fix c else if k_fs c =? 6 then var else k_fs c in
  n <- aget pcm_frame_tbl fs ;;
  rows <- pcm_rows (k_bits c) (ns + 1) n ;;
  Ret (mkPCM (k_num c) (k_align c) (k_rate c) (k_bits c) fs (k_fix c) var
         ids (k_loud c) (k_att c) ag ns rows).

(** ** Packets *)

(** An escaped header field, e.g. mhas_parse.c:1221-1241: the additions are done in
    WORD32 on values that cannot overflow for 8 and 24 bits. *)
Definition hdr_field (n1 n2 n3 : Z) : prog Z :=
  v <- rd n1 ;;
  if v =? 2 ^ n1 - 1 then
    v2 <- rd n2 ;;
    if v2 =? 2 ^ n2 - 1 then v3 <- rd n3 ;; Ret (s32 (v + v2 + v3))
    else Ret (v + v2)
  else Ret v.

(** mhas_parse.c:1221-1280: type, label, length. *)
Definition mhas_header : prog (Z * Z * Z) :=
  ty <- hdr_field 3 8 8 ;;
  lb <- hdr_field 2 8 32 ;;
  len <- hdr_field 11 24 24 ;;
  Ret (ty, lb, len).

(** The part of ia_mae_audio_scene_info the packet loop works on (mhas_parse.h:340-370);
    [m_err] is the local variable [err_code]. *)
Record mst := mkM {
  m_asi : asi; m_asip : Z; m_eip : Z;
  m_ear : list earcon; m_earp : Z;
  m_pcm : pcm; m_ptype : Z; m_pdata : Z; m_pcfg : Z; m_err : Z }.

Definition CFG := 1.
Definition FRAME := 2.

(** A parser without error return, as a framed payload. *)
Definition noerr {A} (p : prog A) : prog (res A) := a <- p ;; Ret (Ok a).

(** The switch, mhas_parse.c:1282-1374.  In the LOUDNESS case the result goes to a local
    variable and is dropped; only the error code survives (1363). *)
Definition packet_body (ty len : Z) (s : mst) : prog (res mst) :=
  if ty =? 3 then
    r <- framed len (asi_parse (m_asi s)) ;;
    match r with
    | Er e => Ret (Er e)
    | Ok a => Ret (Ok (mkM a 1 (m_eip s) (m_ear s) (m_earp s) (m_pcm s) (m_ptype s) (m_pdata s) (m_pcfg s) 0))
    end
  else if ty =? 6 then
    v <- rd 8 ;;
    if negb (v =? 0xA5) || negb (len =? 1) then Ret (Er E_SYNC) else Ret (Ok s)
  else if ty =? 12 then
    skip (len * 8) ;;;
    Ret (Ok (mkM (m_asi s) (m_asip s) 1 (m_ear s) (m_earp s) (m_pcm s) (m_ptype s) (m_pdata s) (m_pcfg s) (m_err s)))
  else if ty =? 19 then
    r <- framed len (earcon_info (m_ear s)) ;;
    match r with
    | Er e => Ret (Er e)
    | Ok t => Ret (Ok (mkM (m_asi s) (m_asip s) (m_eip s) t 1 (m_pcm s) (m_ptype s) (m_pdata s) (m_pcfg s) 0))
    end
  else if ty =? 20 then
    r <- framed len (noerr (pcm_config (m_pcm s))) ;;
    match r with
    | Er e => Ret (Er e)
    | Ok c => Ret (Ok (mkM (m_asi s) (m_asip s) (m_eip s) (m_ear s) (m_earp s) c 1 (m_pdata s) (m_pcfg s) (m_err s)))
    end
  else if ty =? 21 then
    r <- framed len (noerr (pcm_payload (m_pcm s))) ;;
    match r with
    | Er e => Ret (Er e)
    | Ok c => Ret (Ok (mkM (m_asi s) (m_asip s) (m_eip s) (m_ear s) (m_earp s) c 1 1 1 (m_err s)))
    end
  else if ty =? 22 then
    r <- loudness_info_set ;;
    let e := match r with Ok _ => 0 | Er e => e end in
    Ret (Ok (mkM (m_asi s) (m_asip s) (m_eip s) (m_ear s) (m_earp s) (m_pcm s) (m_ptype s) (m_pdata s) (m_pcfg s) e))
  else if (ty =? CFG) || (ty =? FRAME) then Ret (Ok s)
  else skip (len * 8) ;;; Ret (Ok s).

(** The do-while loop, mhas_parse.c:1219-1376.  [fuel] bounds the model's recursion
    only (C50 shows that it is never the reason for stopping). *)
Fixpoint mhas_loop (fuel : nat) (s : mst) : prog (res (mst * (Z * Z * Z))) :=
  match fuel with
  | O => Undef UFuel
  | S f =>
    ' (ty, lb, len) <- mhas_header ;;
    r <- packet_body ty len s ;;
    match r with
    | Er e => Ret (Er e)
    | Ok s' =>
      if (ty =? CFG) || (ty =? FRAME) || (m_ptype s' =? 1)
      then Ret (Ok (s', (ty, lb, len)))
      else mhas_loop f s'
    end
  end.

(** impeghd_mhas_parse, mhas_parse.c:1210-1386: clears the PCM flags and returns the
    packet found, or the error code kept from a LOUDNESS packet. *)
Definition mhas_parse (fuel : nat) (s : mst) : prog (res (mst * (Z * Z * Z))) :=
  r <- mhas_loop fuel (mkM (m_asi s) (m_asip s) (m_eip s) (m_ear s) (m_earp s) (m_pcm s) 0 0 (m_pcfg s) 0) ;;
  match r with
  | Er e => Ret (Er e)
  | Ok (s', p) => if m_err s' =? 0 then Ret (Ok (s', p)) else Ret (Er (m_err s'))
  end.
