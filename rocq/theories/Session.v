(** * Session: the calls of the decoder API and their byte accounting
    (decoder/impeghd_api.c, ia_core_coder_headerdecode.c, ia_core_coder_decode_main.c)

    [api_init] and [api_execute] are ia_mpegh_dec_init and ia_mpegh_dec_execute with
    everything that decides the return code, the number of bytes reported as consumed and
    the initialised flag.  Packets and configurations are parsed by the models of Mhas.v
    and Config.v on the bytes supplied.  What the rest of the decoder answers in one call
    (rendering set-up, decoding of an access unit, the side-information parsers) is the
    record [env] / [aux], which the theorems quantify over.  Codes are the unsigned values
    of impeghd_error_codes.h; [fatal] is the test [< 0] of the C code on WORD32. *)

From Coq Require Import ZArith List Lia Bool.
From Verif Require Import Bits BitBuf Prog Asi Mhas Config.
Import ListNotations.
Open Scope Z_scope.

(** impeghd_error_codes.h:64-69,98,102,109,113,224-225,249-250,252 *)
Definition I_INPUT := 0x1000.
Definition I_EI := 0x1001.
Definition I_LSI := 0x1002.
Definition I_BRIR := 0x1003.
Definition I_MAE := 0x1005.
Definition X_INPUT := 0x1800.
Definition X_SD := 0x1801.
Definition E_STREAM_CHAN := 0xFFFF9001.
Definition E_NO_CONFIG := 0xFFFF9005.
Definition E_ASI_GROUPS := 0xFFFF900C.
Definition E_NOT_INIT := 0xFFFF9010.
Definition E_CHAN_CONFIG := 0xFFFF9813.
Definition E_PKT_TYPE := 0xFFFF9814.
Definition E_DEC_FRAME := 0xFFFF9816.
Definition fatal (c : Z) : bool := 0x80000000 <=? c.

(** MAX_CFG_DATA_LENGTH, ia_core_coder_config.h:279; MAX_NUM_CHANNELS, ia_core_coder_cnst.h:170 *)
Definition MAX_CFG : Z := 768.
Definition MAX_CH : Z := 24.

(** ** State *)

(** The fields of ia_mpegh_dec_state_struct (ia_core_coder_struct_def.h:110-190),
    ia_mpegh_dec_config_struct and ia_dec_data_struct the two calls depend on. *)
Record sess := mkS {
  s_init : bool;     (* p_state_mpeghd->ui_init_done *)
  s_hdr : bool;      (* p_state_mpeghd->header_dec_done *)
  s_freq : Z;        (* mpeghd_config.ui_samp_freq *)
  s_cons : Z;        (* p_state_mpeghd->i_bytes_consumed *)
  s_out : Z;         (* p_state_mpeghd->ui_out_bytes *)
  s_nch : Z;         (* p_state_mpeghd->num_of_output_ch *)
  s_plen : Z;        (* prev_cfg_len *)
  s_prev : list Z;   (* prev_cfg_data[MAX_CFG_DATA_LENGTH] *)
  s_fc : Z;          (* frame_counter *)
  s_size : Z;        (* dec_bit_buf.size *)
  s_cnt : Z;         (* dec_bit_buf.cnt_bits *)
  s_flush : bool;    (* flush *)
  s_disc : bool;     (* mpeghd_config.discard_au_preroll *)
  s_pre : Z * Z }.   (* preroll_bytes[0], preroll_bytes[1] *)

Definition w_init s v := mkS v (s_hdr s) (s_freq s) (s_cons s) (s_out s) (s_nch s) (s_plen s) (s_prev s) (s_fc s) (s_size s) (s_cnt s) (s_flush s) (s_disc s) (s_pre s).
Definition w_hdr s v := mkS (s_init s) v (s_freq s) (s_cons s) (s_out s) (s_nch s) (s_plen s) (s_prev s) (s_fc s) (s_size s) (s_cnt s) (s_flush s) (s_disc s) (s_pre s).
Definition w_freq s v := mkS (s_init s) (s_hdr s) v (s_cons s) (s_out s) (s_nch s) (s_plen s) (s_prev s) (s_fc s) (s_size s) (s_cnt s) (s_flush s) (s_disc s) (s_pre s).
Definition w_cons s v := mkS (s_init s) (s_hdr s) (s_freq s) v (s_out s) (s_nch s) (s_plen s) (s_prev s) (s_fc s) (s_size s) (s_cnt s) (s_flush s) (s_disc s) (s_pre s).
Definition w_out s v := mkS (s_init s) (s_hdr s) (s_freq s) (s_cons s) v (s_nch s) (s_plen s) (s_prev s) (s_fc s) (s_size s) (s_cnt s) (s_flush s) (s_disc s) (s_pre s).
Definition w_nch s v := mkS (s_init s) (s_hdr s) (s_freq s) (s_cons s) (s_out s) v (s_plen s) (s_prev s) (s_fc s) (s_size s) (s_cnt s) (s_flush s) (s_disc s) (s_pre s).
Definition w_prev s n v := mkS (s_init s) (s_hdr s) (s_freq s) (s_cons s) (s_out s) (s_nch s) n v (s_fc s) (s_size s) (s_cnt s) (s_flush s) (s_disc s) (s_pre s).
Definition w_fc s v := mkS (s_init s) (s_hdr s) (s_freq s) (s_cons s) (s_out s) (s_nch s) (s_plen s) (s_prev s) v (s_size s) (s_cnt s) (s_flush s) (s_disc s) (s_pre s).
Definition w_buf s n c := mkS (s_init s) (s_hdr s) (s_freq s) (s_cons s) (s_out s) (s_nch s) (s_plen s) (s_prev s) (s_fc s) n c (s_flush s) (s_disc s) (s_pre s).
Definition w_flush s v := mkS (s_init s) (s_hdr s) (s_freq s) (s_cons s) (s_out s) (s_nch s) (s_plen s) (s_prev s) (s_fc s) (s_size s) (s_cnt s) v (s_disc s) (s_pre s).
Definition w_disc s v := mkS (s_init s) (s_hdr s) (s_freq s) (s_cons s) (s_out s) (s_nch s) (s_plen s) (s_prev s) (s_fc s) (s_size s) (s_cnt s) (s_flush s) v (s_pre s).
Definition w_pre s v := mkS (s_init s) (s_hdr s) (s_freq s) (s_cons s) (s_out s) (s_nch s) (s_plen s) (s_prev s) (s_fc s) (s_size s) (s_cnt s) (s_flush s) (s_disc s) v.

(** After ia_mpegh_dec_create: the persistent memory is zeroed (impeghd_api.c:530,
    ia_core_coder_create.c:554). *)
Definition created : sess :=
  mkS false false 0 0 0 0 0 (repeat 0 (Z.to_nat MAX_CFG)) 0 0 0 false false (0, 0).

(** The answer of the access-unit part of ia_core_coder_dec_main (decode_main.c:2603-2932):
    [AJmp]: a read past the end; [ARet err out nch cnt pre disc]: return code, bytes
    written, channels, bits left in the input, bytes per access unit; [disc] tells whether
    line 2714 was reached. *)
Inductive au := AJmp (disc : bool) (pre : Z * Z) | ARet (err out nch cnt : Z) (disc : bool) (pre : Z * Z).

(** What the surrounding code contributes to one call. *)
Record env := mkE {
  e_raw : bool;      (* ui_raw_flag: the input is not in packets *)
  e_mhas : bool;     (* ui_mhas_flag (a flag of ia_input_config) *)
  e_asi : mst;       (* scene information kept from earlier calls *)
  e_cfg : ucfg;      (* configuration as prepared by headerdecode.c:95-101 *)
  e_user : Z;        (* output layout chosen by the caller *)
  e_chan0 : bool;    (* decode_main.c:2407-2412 accepts the configuration before frame zero *)
  e_zero : Z;        (* return code of ia_core_coder_dec_process_frame_zero *)
  e_nch : Z;         (* channels it reports *)
  e_chan : bool;     (* the same test in the execute call *)
  e_ear : Z;         (* error of the earcon set-up, decode_main.c:2441-2449 *)
  e_drc : Z;         (* error of the loudness set-up, decode_main.c:2468-2495 *)
  e_create : Z;      (* error of ia_core_coder_decode_create, decode_main.c:2589-2598 *)
  e_au : au }.

Definition zlen (l : list Z) : Z := Z.of_nat (length l).

(** ** headerdecode *)

(** Loop of headerdecode.c:189-203 and decode_main.c:2536-2551: copy of [len] bytes of the
    packet into prev_cfg_data; it reads while there is input and writes without looking at
    the size of the array.  [None]: out-of-bounds write.  The boolean tells whether all
    bytes were there (otherwise the loop ends in [longjmp] with a partial copy). *)
Definition whole_bytes (b : rbuf) : Z := r_cnt b / 8.
Fixpoint take_bytes (n : nat) (b : rbuf) : list Z :=
  match n with
  | O => []
  | S m => match read_bits 8 b with
           | Done (v, b') => v :: take_bytes m b'
           | _ => []
           end
  end.
Definition copy_cfg (len : Z) (b : rbuf) (old : list Z) : option (bool * list Z) :=
  let k := Z.max 0 (Z.min len (whole_bytes b)) in
  if MAX_CFG <? k then None
  else Some (len <=? whole_bytes b, take_bytes (Z.to_nat k) b ++ skipn (Z.to_nat k) old).

(** impegh_3daudio_config_dec, headerdecode.c:117-128: bytes used, from the pointer and
    bit position; the size was cast to WORD16 (line 165). *)
Definition used_bytes (n : Z) (b : rbuf) : Z :=
  if r_ptr b =? 0 then s16 n else (8 * r_ptr b + 7 - r_pos b + 7) / 8.

(** ui_samp_freq is assigned inside the configuration parser (init_config.c:1271), so it
    survives a later error or [longjmp]; this is the parser up to that line. *)
Definition freq_part : prog Z :=
  _ <- rd 8 ;;
  fi <- rd 5 ;;
  if negb (fi =? 31) && (8 <? fi) then Ret 0 else
  fr <- (if negb (fi =? 31) then aget sampling_rate_tbl fi else rd 24) ;;
  if (48000 <? fr) || (fr =? 0) then Ret 0 else Ret fr.
Definition freq_after (b : rbuf) (old : Z) : Z :=
  match exec freq_part b with
  | Done (f, _) => if f =? 0 then old else f
  | _ => old
  end.

Inductive hres := HRet (code used : Z) (s : sess) | HJmp (s : sess) | HUb (r : ubreason).

(** ia_core_coder_headerdecode, headerdecode.c:186-219: the configuration after the packet
    header.  [len] is packet_length, [n] the number of bytes supplied. *)
Definition header_config (e : env) (n len : Z) (b : rbuf) (s : sess) : hres :=
  let body (s : sess) :=
    let s := w_freq s (freq_after b (s_freq s)) in
    match exec (mpegh_3da_config (e_user e) (e_cfg e)) b with
    | UB r => HUb r
    | Jmp _ => HJmp s
    | Done ((c, _), b') =>
      if negb (c =? 0) then HRet c 0 (w_cons s len)
      else if negb (e_raw e) && (len <? (r_cnt b - r_cnt b' + 7) / 8)
      then HRet E_DEC_FRAME (used_bytes n b') s
      else HRet 0 (used_bytes n b') s
    end in
  if s_plen s =? 0 then
    match copy_cfg len b (s_prev s) with
    | None => HUb UOob
    | Some (true, d) => body (w_prev s len d)
    | Some (false, d) => HJmp (w_prev s len d)
    end
  else body s.

(** ia_core_coder_headerdecode, headerdecode.c:143-223.  The return code of
    impeghd_mhas_parse is ignored (line 180); after an error the packet information still
    has its initial zeros. *)
Definition mhas_fuel (bs : list Z) : nat := S (length bs).
Definition mhas_start (m : mst) : mst :=
  mkM (m_asi m) (m_asip m) (m_eip m) (m_ear m) (m_earp m) (m_pcm m) 0 0 (m_pcfg m) 0.
Definition header (e : env) (bs : list Z) (s : sess) : hres :=
  if e_mhas e || e_raw e then
    if e_raw e then header_config e (zlen bs) 0 (fresh bs) s
    else
      match exec (mhas_loop (mhas_fuel bs) (mhas_start (e_asi e))) (fresh bs) with
      | UB r => HUb r
      | Jmp _ => HJmp s
      | Done (r, b) =>
        let '(ty, len) := match r with Ok (_, (ty, _, len)) => (ty, len) | Er _ => (0, 0) end in
        if negb (ty =? CFG) then HRet E_NO_CONFIG 0 (w_cons s len)
        else header_config e (zlen bs) len b s
      end
  else HRet 0 0 s.

(** ** ia_core_coder_dec_init *)

Inductive mres := MRet (code out : Z) (s : sess) | MJmp (s : sess) | MUb (r : ubreason).

(** ia_core_coder_dec_main for frame zero (decode_main.c:2405-2416): no input is read. *)
Definition frame_zero (e : env) (s : sess) : mres :=
  let s := w_flush s false in
  if negb (e_chan0 e) then MRet E_CHAN_CONFIG 0 s
  else MRet (e_zero e) 0 (w_nch s (e_nch e)).

(** ia_core_coder_dec_init, impeghd_api.c:1199-1345; [main] is the call of
    ia_core_coder_dec_main at line 1296. *)
Definition dec_init_with (main : sess -> mres) (e : env) (bs : list Z) (s : sess)
  : outcome (Z * sess) :=
  let n := zlen bs in
  let jmp s := Done (I_INPUT, w_out (w_cons s n) 0) in
  if negb (s_hdr s) then
    if s_freq s =? 0 then
      if n =? 0 then Done (0, w_cons s 0)
      else
        match header e bs s with
        | HUb r => UB r
        | HJmp s => jmp s
        | HRet c used s =>
          if fatal c then
            Done (c, if c =? E_STREAM_CHAN then w_cons s used else s)
          else if c =? X_INPUT then Done (c, w_cons s used)
          else if c =? 0 then
            match main (w_cons s used) with
            | MUb r => UB r
            | MJmp s => jmp s
            | MRet c0 _ s =>
              if negb (c0 =? 0) then Done (c0, s)
              else Done (0, w_init (w_fc s (s_fc s + 1)) true)
            end
          else Done (0, w_cons s used)
        end
    else Done (0, w_cons (w_hdr s true) 0)
  else
    let s := w_out s 0 in
    if n =? 0 then Done (0, w_cons s 0) else Done (0, s).

(** ia_core_coder_decoder_flush_api, impeghd_api.c:1156-1186: frame_counter is 0 in the
    inner call, so its call of ia_core_coder_dec_main is the one for frame zero. *)
Definition flush_api (e : env) (bs : list Z) (s : sess) : outcome (Z * sess) :=
  match dec_init_with (frame_zero e) e bs (w_fc (w_freq s 0) 0) with
  | Done (c, s) => Done (c, w_flush s true)
  | Jmp c => Jmp c
  | UB r => UB r
  end.

(** ** ia_core_coder_dec_main, frames after the first *)
(** memcmp, decode_main.c:2520. *)
Fixpoint same_bytes (a b : list Z) : bool :=
  match a, b with
  | [], [] => true
  | x :: a, y :: b => (x =? y) && same_bytes a b
  | _, _ => false
  end.

(** decode_main.c:2503-2600: a configuration packet.  [b] is the reader after the packet
    header. *)
Definition main_config (e : env) (bs : list Z) (len : Z) (b : rbuf) (s : sess) : mres :=
  let body (s : sess) :=
    let s := w_freq s (freq_after b (s_freq s)) in
    match exec (mpegh_3da_config (e_user e) (e_cfg e)) b with
    | UB r => MUb r
    | Jmp _ => MJmp s
    | Done ((c, _), b') =>
      let s := w_buf s (8 * zlen bs) (r_cnt b') in
      if negb (c =? 0) then MRet c 0 (w_init s false)
      else MRet (e_create e) 0 (w_init s true)
    end in
  if negb (s_plen s =? 0) then
    if whole_bytes b <? len then MJmp s     (* 2515-2518 into the scratch memory *)
    else
      let new := take_bytes (Z.to_nat len) b in
      if negb (len =? s_plen s) || negb (same_bytes new (firstn (Z.to_nat len) (s_prev s))) then
        if MAX_CFG <? len then MUb UOob     (* memcpy, 2523 *)
        else
          let s := w_prev s len (new ++ skipn (Z.to_nat len) (s_prev s)) in
          match flush_api e bs (w_buf s (8 * zlen bs) (r_cnt b)) with
          | Done (c, s) => MRet c 0 s
          | Jmp _ => MJmp s
          | UB r => MUb r
          end
      else body s
  else
    match copy_cfg len b (s_prev s) with
    | None => MUb UOob
    | Some (true, d) => body (w_prev s len d)
    | Some (false, d) => MJmp (w_prev s len d)
    end.

(** decode_main.c:2603-2932, as answered by [e_au]. *)
Definition main_unit (e : env) (bs : list Z) (s : sess) : mres :=
  match e_au e with
  | AJmp d p => MJmp (w_pre (w_disc s (s_disc s || d)) p)
  | ARet c out nch cnt d p =>
    MRet c out (w_pre (w_disc (w_nch (w_buf s (8 * zlen bs) cnt) nch) (s_disc s || d)) p)
  end.

(** ia_core_coder_dec_main, decode_main.c:2364-2934. *)
Definition dec_main (e : env) (bs : list Z) (s : sess) : mres :=
  let s := w_flush s false in
  if negb (e_chan e) then MRet E_CHAN_CONFIG 0 s
  else if s_fc s =? 0 then MRet (e_zero e) 0 (w_nch s (e_nch e))
  else
    let s := w_buf s (8 * zlen bs) (8 * zlen bs) in
    if e_raw e then
      if negb (e_ear e =? 0) then MRet (e_ear e) 0 s
      else if m_ptype (e_asi e) =? 1 then MRet 0 0 s
      else if negb (e_drc e =? 0) then MRet (e_drc e) 0 s
      else main_unit e bs s
    else
      match exec (mhas_loop (mhas_fuel bs) (mhas_start (e_asi e))) (fresh bs) with
      | UB r => MUb r
      | Jmp _ => MJmp s
      | Done (r, b) =>
        let s := w_buf s (8 * zlen bs) (r_cnt b) in
        match r with
        | Er c => MRet c 0 s
        | Ok (m, (ty, _, len)) =>
          if negb (m_err m =? 0) then MRet (m_err m) 0 s
          else if negb (e_ear e =? 0) then MRet (e_ear e) 0 s
          else if m_ptype m =? 1 then MRet 0 0 s
          else if negb (e_drc e =? 0) then MRet (e_drc e) 0 s
          else if ty =? CFG then main_config e bs len b s
          else if ty =? FRAME then main_unit e bs s
          else MRet E_PKT_TYPE 0 s
        end
      end.

(** ia_core_coder_dec_init as called from the API: usually for frame zero, but
    frame_counter can be non-zero with ui_samp_freq = 0 after a failed restart. *)
Definition dec_init (e : env) (bs : list Z) (s : sess) : outcome (Z * sess) :=
  dec_init_with (fun s => if s_fc s =? 0 then frame_zero e s else dec_main e bs s) e bs s.

(** ** ia_core_coder_dec_execute, impeghd_api.c:1357-1455 *)
Definition bytes_of_buf (s : sess) : Z :=
  if negb (s_size s =? 0) && (0 <=? s_cnt s) then (s_size s - s_cnt s + 7) / 8 else 1.
Definition dec_execute (e : env) (bs : list Z) (s : sess) : outcome (Z * sess) :=
  let s := w_pre (w_cons s 0) (0, 0) in
  if MAX_CH <? s_nch s then Done (E_STREAM_CHAN, s)
  else
    match dec_main e bs s with
    | MUb r => UB r
    | MJmp s => Done (X_INPUT, w_out (w_cons s (zlen bs)) 0)
    | MRet c out s =>
      if negb (c =? 0) then Done (c, w_cons s (bytes_of_buf s))
      else
        let s := if s_flush s then s else w_cons (w_fc s (s_fc s + 1)) (bytes_of_buf s) in
        Done (0, w_out s out)
    end.

(** ** The two API calls *)

(** The fields of ia_output_config the calls write that matter here. *)
Record outc := mkO { o_cons : Z; o_done : bool; o_bytes : Z }.

(** A side-information buffer passed with a call: absent, parsed, cut short, rejected. *)
Inductive side := NoInfo | Parsed | CutShort | Rejected (code : Z).
Record aux := mkA {
  a_ei : side; a_lsi : side; a_brir : side; a_mae : list side;
  a_bin : bool;      (* binaural rendering asked for (directly or by the local set-up) *)
  a_binerr : Z;      (* return code of impeghd_binaural_renderer_init *)
  a_groups : bool }. (* the test of impeghd_api.c:968-971 *)

Fixpoint any_short (l : list side) : bool :=
  match l with [] => false | CutShort :: _ => true | _ :: t => any_short t end.

(** ia_mpegh_dec_init, impeghd_api.c:595-978.  The sampling-rate and speaker outputs
    (785-806, 851-964) are left out.  The error of ia_core_coder_dec_init is overwritten by
    the one of the binaural set-up (826). *)
Definition api_init (e : env) (a : aux) (bs : list Z) (s : sess) (o : outc)
  : outcome (Z * sess * outc) :=
  let ret c s k := Done (c, s, mkO k (o_done o) (o_bytes o)) in
  match a_ei a with
  | CutShort => ret I_EI s 1
  | Rejected c => ret c s 0
  | _ =>
    match a_lsi a with
    | CutShort => ret I_LSI s 1
    | Rejected c => ret c s 1
    | _ =>
      match a_brir a with
      | CutShort => ret I_BRIR s 1
      | Rejected c => ret c s 1
      | _ =>
        if any_short (a_mae a) then ret I_MAE s 1
        else
          match dec_init e bs s with
          | UB r => UB r
          | Jmp c => Jmp c
          | Done (c, s) =>
            if a_bin a && negb (a_binerr a =? 0) then ret (a_binerr a) s 0
            else
              let c := if a_bin a then 0 else c in
              let k := if s_cons s =? 0 then 1 else s_cons s in
              let o := mkO k (s_init s && (c =? 0)) (o_bytes o) in
              Done (if a_groups a then E_ASI_GROUPS else c, s, o)
          end
      end
    end
  end.

(** The number of access units with output, impeghd_api.c:1062-1068. *)
Definition num_units (p : Z * Z) : Z :=
  if fst p =? 0 then 0 else if snd p =? 0 then 1 else 2.

(** ia_mpegh_dec_execute, impeghd_api.c:992-1118; [sd] is the scene-displacement buffer
    (1011-1046).  The sampling-rate and metadata outputs (1092-1116) are left out; the
    move of the output samples (1071-1086) is [Preroll.v]. *)
Definition api_execute (e : env) (sd : side) (bs : list Z) (s : sess) (o : outc)
  : outcome (Z * sess * outc) :=
  if negb (s_init s) then Done (E_NOT_INIT, w_cons s 1, mkO 1 (o_done o) (o_bytes o))
  else
    match sd with
    | CutShort => Done (X_SD, s, mkO 1 (o_done o) (o_bytes o))
    | Rejected c => Done (c, s, o)
    | _ =>
      match dec_execute e bs (w_cons s 0) with
      | UB r => UB r
      | Jmp c => Jmp c
      | Done (c, s) =>
        let s := if negb (c =? 0) && (s_cons s =? 0) then w_cons s 1 else s in
        let out := if s_disc s then fst (s_pre s) else s_out s in
        Done (c, s, mkO (s_cons s) (o_done o) out)
      end
    end.
