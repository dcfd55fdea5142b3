(** * The decoder API: configuration, memory and deletion (decoder/impeghd_api.c)

    Integers of the C code are [Z]; the wrap of unsigned arithmetic is written out. *)
From Coq Require Import ZArith List Bool Lia.
From Verif Require Import Bits.
Import ListNotations.
Open Scope Z_scope.

(** impeghd_error_codes.h:46,53-57,68,113 *)
Definition E_MEM_ALLOC := 0xFFFF8000.
Definition E_PCM_WDSZ := 0x800.
Definition E_TARGET_LOUDNESS := 0x801.
Definition E_EFFECT_TYPE := 0x802.
Definition E_CICP_INDEX := 0x803.
Definition E_PRESET_ID := 0x804.
Definition E_RATIO := 0x1004.

(** The fields of ia_input_config (impeghd_memory_standards.h:60-102) that configuration
    reads. *)
Record incfg := mkIn {
  i_wdsz : Z;      (* ui_pcm_wd_sz, UWORD32 *)
  i_effect : Z;    (* ui_effect, WORD32 *)
  i_tl0 : Z;       (* ui_target_loudness[0] *)
  i_tl1 : Z;       (* ui_target_loudness[1] *)
  i_mhas : Z;
  i_cicp : Z;      (* ui_cicp_layout_idx, WORD32 *)
  i_preset : Z;    (* i_preset_id, WORD8 *)
  i_resamp : Z;    (* enable_resamp *)
  i_fs : Z }.      (* out_samp_freq *)

(** The fields of ia_mpegh_dec_config_struct (ia_core_coder_struct_def.h:67-108) that
    configuration writes. *)
Record dcfg := mkD {
  c_pcm : Z; c_effect : Z; c_tl : Z; c_tlset : Z; c_drc : Z; c_norm : Z; c_cicp : Z;
  c_preset : Z; c_mhas : Z; c_resamp : Z; c_flen : Z; c_down : Z; c_up : Z;
  c_ofs : Z; c_sfs : Z; c_maxch : Z; c_nch : Z }.

(** The object is zeroed (impeghd_api.c:530) before the defaults are set. *)
Definition zero_cfg : dcfg := mkD 0 0 0 0 0 0 0 0 0 0 0 0 0 0 0 0 0.

(** impeghd_set_default_config, impeghd_api.c:220-238, with the values of
    impeghd_config_params.h:40-52.  ui_target_loudness_set and ui_mhas_flag are not
    written. *)
Definition default_config (c : dcfg) : dcfg :=
  mkD 16 0 (-24) (c_tlset c) 0 0 0 (-1) (c_mhas c) 0 1024 1 1 48000 48000 24 2.

Definition s_c_mhas (c : dcfg) v := mkD (c_pcm c) (c_effect c) (c_tl c) (c_tlset c) (c_drc c) (c_norm c) (c_cicp c) (c_preset c) v (c_resamp c) (c_flen c) (c_down c) (c_up c) (c_ofs c) (c_sfs c) (c_maxch c) (c_nch c).
Definition s_c_cicp (c : dcfg) v := mkD (c_pcm c) (c_effect c) (c_tl c) (c_tlset c) (c_drc c) (c_norm c) v (c_preset c) (c_mhas c) (c_resamp c) (c_flen c) (c_down c) (c_up c) (c_ofs c) (c_sfs c) (c_maxch c) (c_nch c).
Definition s_c_preset (c : dcfg) v := mkD (c_pcm c) (c_effect c) (c_tl c) (c_tlset c) (c_drc c) (c_norm c) (c_cicp c) v (c_mhas c) (c_resamp c) (c_flen c) (c_down c) (c_up c) (c_ofs c) (c_sfs c) (c_maxch c) (c_nch c).
Definition s_c_pcm (c : dcfg) v := mkD v (c_effect c) (c_tl c) (c_tlset c) (c_drc c) (c_norm c) (c_cicp c) (c_preset c) (c_mhas c) (c_resamp c) (c_flen c) (c_down c) (c_up c) (c_ofs c) (c_sfs c) (c_maxch c) (c_nch c).
Definition s_c_resamp (c : dcfg) v f := mkD (c_pcm c) (c_effect c) (c_tl c) (c_tlset c) (c_drc c) (c_norm c) (c_cicp c) (c_preset c) (c_mhas c) v (c_flen c) (c_down c) (c_up c) f (c_sfs c) (c_maxch c) (c_nch c).
Definition s_c_effect (c : dcfg) v := mkD (c_pcm c) v (c_tl c) (c_tlset c) (c_drc c) (c_norm c) (c_cicp c) (c_preset c) (c_mhas c) (c_resamp c) (c_flen c) (c_down c) (c_up c) (c_ofs c) (c_sfs c) (c_maxch c) (c_nch c).
Definition s_c_drc (c : dcfg) v := mkD (c_pcm c) (c_effect c) (c_tl c) (c_tlset c) v (c_norm c) (c_cicp c) (c_preset c) (c_mhas c) (c_resamp c) (c_flen c) (c_down c) (c_up c) (c_ofs c) (c_sfs c) (c_maxch c) (c_nch c).
Definition s_c_norm (c : dcfg) v := mkD (c_pcm c) (c_effect c) (c_tl c) (c_tlset c) (c_drc c) v (c_cicp c) (c_preset c) (c_mhas c) (c_resamp c) (c_flen c) (c_down c) (c_up c) (c_ofs c) (c_sfs c) (c_maxch c) (c_nch c).
Definition s_c_tl (c : dcfg) v := mkD (c_pcm c) (c_effect c) v (c_tlset c) (c_drc c) (c_norm c) (c_cicp c) (c_preset c) (c_mhas c) (c_resamp c) (c_flen c) (c_down c) (c_up c) (c_ofs c) (c_sfs c) (c_maxch c) (c_nch c).
Definition s_c_tlset (c : dcfg) v := mkD (c_pcm c) (c_effect c) (c_tl c) v (c_drc c) (c_norm c) (c_cicp c) (c_preset c) (c_mhas c) (c_resamp c) (c_flen c) (c_down c) (c_up c) (c_ofs c) (c_sfs c) (c_maxch c) (c_nch c).
Definition s_c_ratio (c : dcfg) (r fl dn up : Z) := mkD (c_pcm c) (c_effect c) (c_tl c) (c_tlset c) (c_drc c) (c_norm c) (c_cicp c) (c_preset c) (c_mhas c) r fl dn up (c_ofs c) (c_sfs c) (c_maxch c) (c_nch c).
Definition s_i_tl1 (i : incfg) v := mkIn (i_wdsz i) (i_effect i) (i_tl0 i) v (i_mhas i) (i_cicp i) (i_preset i) (i_resamp i) (i_fs i).

(** NUM_LS_CFGS, impeghd_cicp_defines.h:131 *)
Definition NUM_LS_CFGS := 20.

(** impeghd_set_config_params, impeghd_api.c:250-322, statement by statement; each step
    returns either the error and the two structures as they stand at the return, or the
    structures to go on with.  [x >> 2] of a negative WORD32 is the arithmetic shift the
    target compilers use; [-(x >> 2)] cannot overflow. *)
Inductive step := Stop (e : Z) (c : dcfg) (i : incfg) | Go (c : dcfg) (i : incfg).

Definition then_ (s : step) (f : dcfg -> incfg -> step) : step :=
  match s with Stop e c i => Stop e c i | Go c i => f c i end.

(** impeghd_api.c:254-257 *)
Definition st_mhas (c : dcfg) (i : incfg) : step :=
  if i_mhas i =? 1 then Go (s_c_mhas c (i_mhas i)) i else Go c i.
(** impeghd_api.c:259-267 *)
Definition st_cicp (c : dcfg) (i : incfg) : step :=
  if negb (i_cicp i =? 0) && (i_cicp i <? NUM_LS_CFGS) then Go (s_c_cicp c (i_cicp i)) i
  else if negb (i_cicp i =? 0) then Stop E_CICP_INDEX c i
  else Go c i.
(** impeghd_api.c:269-277 *)
Definition st_preset (c : dcfg) (i : incfg) : step :=
  if negb (i_preset i =? -1) && (i_preset i <? 32) then Go (s_c_preset c (i_preset i)) i
  else if negb (i_preset i =? -1) then Stop E_PRESET_ID c i
  else Go c i.
(** impeghd_api.c:279-285 *)
Definition st_pcm (c : dcfg) (i : incfg) : step :=
  if negb (i_wdsz i =? 16) && negb (i_wdsz i =? 24) && negb (i_wdsz i =? 32)
  then Stop E_PCM_WDSZ (s_c_pcm c 16) i
  else Go (s_c_pcm c (i_wdsz i)) i.
(** impeghd_api.c:287-291 *)
Definition st_resamp (c : dcfg) (i : incfg) : step :=
  if negb (i_resamp i =? 0) then Go (s_c_resamp c 1 (i_fs i)) i else Go c i.
(** impeghd_api.c:292-301 *)
Definition st_effect (c : dcfg) (i : incfg) : step :=
  if negb (i_effect i =? 0) then
    if (8 <? i_effect i) || (i_effect i <? 0)
    then Stop E_EFFECT_TYPE (s_c_drc (s_c_effect c 0) 1) i
    else Go (s_c_effect c (i_effect i)) i
  else Go c i.
(** impeghd_api.c:303-320: the caller's own structure is overwritten (310). *)
Definition st_loud (c : dcfg) (i : incfg) : step :=
  if i_tl0 i =? 1 then
    let c1 := if 0 <=? i_tl1 i then s_c_drc (s_c_norm c 1) 1 else c in
    let i1 := s_i_tl1 i (- (Z.shiftr (i_tl1 i) 2)) in
    if (0 <? i_tl1 i1) || (i_tl1 i1 <? -63)
    then Stop E_TARGET_LOUDNESS (s_c_drc (s_c_tl c1 0) 0) i1
    else Go (s_c_tlset (s_c_tl c1 (i_tl1 i1)) 1) i1
  else Go c i.

Definition set_config_params (c : dcfg) (i : incfg) : Z * dcfg * incfg :=
  match
    then_ (then_ (then_ (then_ (then_ (then_ (st_mhas c i) st_cicp) st_preset) st_pcm)
      st_resamp) st_effect) st_loud
  with
  | Stop e c' i' => (e, c', i')
  | Go c' i' => (0, c', i')
  end.

(** impeghd_resampler_get_sampling_ratio, impeghd_api.c:132-208.  AUDIO_CODEC_FRAME_SIZE_MAX
    is 1024.  [None] is the division by zero of line 206. *)
Definition ratio_of (stream : Z) : option (Z * Z * Z) := (* required output rate, down, up *)
  if stream =? 48000 then Some (48000, 1, 1)
  else if stream =? 44100 then Some (44100, 1, 1)
  else if stream =? 32000 then Some (48000, 2, 3)
  else if stream =? 29400 then Some (44100, 2, 3)
  else if stream =? 24000 then Some (48000, 1, 2)
  else if stream =? 22050 then Some (44100, 1, 2)
  else if stream =? 16000 then Some (48000, 1, 3)
  else if stream =? 14700 then Some (44100, 1, 3)
  else None.

Definition get_sampling_ratio (c : dcfg) : option (Z * dcfg) :=
  let c := s_c_ratio c 1 1024 (c_down c) (c_up c) in
  match ratio_of (c_sfs c) with
  | Some (o, dn, up) =>
    if negb (c_ofs c =? o) then Some (E_RATIO, c)
    else
      let r := if (c_sfs c =? 48000) || (c_sfs c =? 44100) then 0 else 1 in
      Some (0, s_c_ratio c r (Z.quot (1024 * up) dn) dn up)
  | None =>
    if c_down c =? 0 then None
    else Some (0, s_c_ratio c (c_resamp c) (Z.quot (1024 * c_up c) (c_down c)) (c_down c) (c_up c))
  end.

(** impeghd_api.c:786-807, the rate selection of init: [fs] is the stream's sampling rate
    (mpeghd_config.ui_samp_freq), [i] the caller's structure.  The error of the selection is
    stored in a variable of the inner block only (788) and so is not returned. *)
Definition s_i_resamp (i : incfg) v :=
  mkIn (i_wdsz i) (i_effect i) (i_tl0 i) (i_tl1 i) (i_mhas i) (i_cicp i) (i_preset i) v (i_fs i).
Definition s_c_rates (c : dcfg) o s :=
  mkD (c_pcm c) (c_effect c) (c_tl c) (c_tlset c) (c_drc c) (c_norm c) (c_cicp c) (c_preset c)
      (c_mhas c) (c_resamp c) (c_flen c) (c_down c) (c_up c) o s (c_maxch c) (c_nch c).
Definition init_rate (fs : Z) (c : dcfg) (i : incfg) : option (dcfg * incfg) :=
  if i_resamp i =? 1 then
    if negb (fs =? i_fs i) then
      match get_sampling_ratio (s_c_rates c (i_fs i) fs) with
      | None => None
      | Some (e, c') => Some (c', if negb (e =? 0) then s_i_resamp i 0 else i)
      end
    else Some (c, i)
  else Some (s_c_rates c fs fs, i).

(** The rate reported to the caller, impeghd_api.c:847-854. *)
Definition reported_rate (fs : Z) (c : dcfg) (i : incfg) : Z :=
  if negb (i_resamp i =? 0) then c_ofs c else fs.

(** Samples per channel of one access unit of 1024 samples: frame zero keeps resampling only
    if the rates differ (ia_core_coder_decode_main.c:1887-1898), and the resampler makes
    1024*up/down samples (1516-1530, and 2873-2875). *)
Definition samples_out (fs : Z) (c : dcfg) : Z :=
  if negb (fs =? c_ofs c) && negb (c_resamp c =? 0) then Z.quot (1024 * c_up c) (c_down c) else 1024.

(** ** Memory

    The allocator is the caller's function; it may return anything, so it is a function
    from the number of the call (and its arguments) to an address, [0] for NULL. *)
Definition allocator := nat -> Z -> Z -> Z.

(** Sizes fixed by the compiler: sizeof of the API object, of the decoder state, of the
    decoder data, and of a pointer. *)
Record sizes := mkSz { z_api : Z; z_state : Z; z_dec : Z; z_ptr : Z }.

Definition IN_BUF_SIZE := 18560.        (* 768*24+128, ia_core_coder_definitions.h:57 *)
Definition OUT_BUF_SIZE := 196608.      (* 24*1*1024*4*2, ia_core_coder_definitions.h:59-61 *)

(** ia_core_coder_fill_mpeghd_mem_tables, impeghd_api.c:407-444: size and alignment of
    the four tables, in order PERSIST, SCRATCH, INPUT, OUTPUT. *)
Definition mem_tables (z : sizes) : list (Z * Z) :=
  [ (u32 (u32 (z_state z + z_dec z) + IN_BUF_SIZE), 8);
    (Z.max (1024 * 24 * 4 * 40) (34816 * 4), 8);
    (IN_BUF_SIZE, 8);
    (OUT_BUF_SIZE, 8) ].

(** sizeof(ia_mem_info_struct) is 8 words (impeghd_memory_standards.h:42-50). *)
Definition tabs_size (z : sizes) : Z := (32 + z_ptr z) * 4.

(** One block: what was asked for, what came back, the pointer made from it. *)
Record block := mkB { b_size : Z; b_align : Z; b_base : Z; b_ptr : Z }.

(** What a call can do to memory and to the caller's table of allocations
    (ia_output_config.arr_alloc_memory[100] and malloc_count): the blocks obtained, the
    ranges written, the blocks given back, and whether the table was left. *)
Record mem := mkMem {
  m_calls : nat;              (* allocator calls so far *)
  m_count : Z;                (* malloc_count *)
  m_arr : list Z;             (* arr_alloc_memory *)
  m_blocks : list block;
  m_writes : list (Z * Z);    (* address, length *)
  m_freed : list Z;
  m_oob : bool }.

Definition ARR := 100.

(** arr_alloc_memory[malloc_count] = p: an index outside 0..99 is outside the array. *)
Definition put_slot (m : mem) (p : Z) : mem :=
  if (0 <=? m_count m) && (m_count m <? ARR)
  then mkMem (m_calls m) (m_count m) (firstn (Z.to_nat (m_count m)) (m_arr m) ++ p :: skipn (S (Z.to_nat (m_count m))) (m_arr m))
         (m_blocks m) (m_writes m) (m_freed m) (m_oob m)
  else mkMem (m_calls m) (m_count m) (m_arr m) (m_blocks m) (m_writes m) (m_freed m) true.

(** One allocation as all six are made (impeghd_api.c:508-530, 543-563, 351-372): call the
    allocator, store the result, stop on NULL, clear [size] bytes at the raw address, form
    the pointer [base + align - base mod align], clear [size] bytes there, count.
    [& 3] and [% alignment] are the same function of the address here. *)
Definition alloc_one (al : allocator) (size align : Z) (m : mem) : option block * mem :=
  let p := al (m_calls m) size align in
  let m1 := put_slot (mkMem (S (m_calls m)) (m_count m) (m_arr m) (m_blocks m) (m_writes m) (m_freed m) (m_oob m)) p in
  if p =? 0 then (None, m1)
  else
    let q := p + align - p mod align in
    let b := mkB size align p q in
    (Some b, mkMem (m_calls m1) (u32 (m_count m1 + 1)) (m_arr m1) (m_blocks m1 ++ [b])
               (m_writes m1 ++ [(p, size); (q, size)]) (m_freed m1) (m_oob m1)).

(** impeghd_alloc_and_assign_mem, impeghd_api.c:335-395. *)
Fixpoint alloc_tables (al : allocator) (ts : list (Z * Z)) (m : mem) : Z * mem :=
  match ts with
  | [] => (0, m)
  | (size, align) :: r =>
    match alloc_one al size align m with
    | (None, m') => (E_MEM_ALLOC, m')
    | (Some _, m') => alloc_tables al r m'
    end
  end.

(** ia_mpegh_dec_create, impeghd_api.c:499-581.  The result of impeghd_set_config_params
    goes to [err_code] (541), which line 573 overwrites. *)
Definition create (al : allocator) (z : sizes) (i : incfg) (m : mem)
  : Z * option dcfg * incfg * mem :=
  match alloc_one al (z_api z) 4 m with
  | (None, m1) => (E_MEM_ALLOC, None, i, m1)
  | (Some _, m1) =>
    let '(_, c, i') := set_config_params (default_config zero_cfg) i in
    match alloc_one al (tabs_size z) 4 m1 with
    | (None, m2) => (E_MEM_ALLOC, Some c, i', m2)
    | (Some _, m2) =>
      let '(e, m3) := alloc_tables al (mem_tables z) m2 in
      (e, Some c, i', m3)
    end
  end.

(** The decoder data inside the persistent block, impeghd_api.c:376-386: with
    PERSIST_IDX = 0 the size read back is the size of that table. *)
Definition dec_data_ptr (z : sizes) (b : block) : Z :=
  b_ptr b + b_size b - (z_dec z + IN_BUF_SIZE).

(** ia_mpegh_dec_delete, impeghd_api.c:1130-1143: every recorded block, last first; the
    count and the table are left as they are. *)
Fixpoint free_from (n : nat) (arr : list Z) : list Z :=
  match n with
  | O => []
  | S k => (if nth k arr 0 =? 0 then [] else [nth k arr 0]) ++ free_from k arr
  end.

Definition delete (m : mem) : mem :=
  let n := s32 (m_count m) in
  mkMem (m_calls m) (m_count m) (m_arr m) (m_blocks m) (m_writes m)
    (m_freed m ++ free_from (Z.to_nat n) (m_arr m))
    (m_oob m || (ARR <? n)).

(** The caller's structure is cleared before first use (test/impeghd_main.c:498). *)
Definition fresh_mem : mem := mkMem 0 0 (repeat 0 100) [] [] [] false.
