(** * Creation, configuration and deletion: properties C17-C20, C23, C73-C76 *)
From Coq Require Import ZArith List Bool Lia.
From Verif Require Import Api Spec_Api Lem_Api.
Import ListNotations.
Open Scope Z_scope.

(** C17 is false: with any allocator that does not fail, create returns success for a
    configuration in which every setting is out of range. *)
Theorem C17_create_reports_refuted : forall al z m, (forall n s a, al n s a <> 0) ->
  ~ pcm_ok (i_wdsz bad_cfg) /\ ~ effect_ok (i_effect bad_cfg) /\ ~ loud_ok (i_tl0 bad_cfg) (i_tl1 bad_cfg) /\
  ~ layout_ok (i_cicp bad_cfg) /\ ~ preset_ok (i_preset bad_cfg) /\ typed bad_cfg /\
  code (create al z bad_cfg m) = 0.
Proof. exact bad_accepted. Qed.
Print Assumptions C17_create_reports_refuted.
(** More: the result of create never depends on the configuration. *)
Theorem C17_only_memory_errors_refuted : forall al z i m, code (create al z i m) = 0 \/ code (create al z i m) = E_MEM_ALLOC.
Proof. exact create_code. Qed.
Print Assumptions C17_only_memory_errors_refuted.
(** C17 for the step whose result create discards, and for layout and preset numbers that
    are not below the "not set" value: success exactly for valid settings, otherwise the
    error of a setting that is invalid. *)
Theorem C17_settings_partial : forall c i, 0 <= i_cicp i -> -1 <= i_preset i ->
  let e := fst (fst (set_config_params c i)) in
  (e = 0 <-> valid i) /\
  (e = E_CICP_INDEX -> ~ layout_ok (i_cicp i)) /\
  (e = E_PRESET_ID -> ~ preset_ok (i_preset i)) /\
  (e = E_PCM_WDSZ -> ~ pcm_ok (i_wdsz i)) /\
  (e = E_EFFECT_TYPE -> ~ effect_ok (i_effect i)) /\
  (e = E_TARGET_LOUDNESS -> ~ loud_ok (i_tl0 i) (i_tl1 i)) /\
  In e [0; E_CICP_INDEX; E_PRESET_ID; E_PCM_WDSZ; E_EFFECT_TYPE; E_TARGET_LOUDNESS].
Proof. exact settings_reported. Qed.
Print Assumptions C17_settings_partial.
Example C17_case : valid plain_cfg /\ fst (fst (set_config_params (default_config zero_cfg) plain_cfg)) = 0 /\
  fst (fst (set_config_params (default_config zero_cfg) bad_cfg)) = E_CICP_INDEX.
Proof. split; [unfold valid, pcm_ok, effect_ok, loud_ok, layout_ok, preset_ok; cbn; lia|]. split; reflexivity. Qed.

(** C18 is false: a negative layout index and preset id are stored, and an invalid loudness
    is stored as 0 dB instead of the default of -24 dB. *)
Theorem C18_negative_refuted : forall al z m, (forall n s a, al n s a <> 0) ->
  let i := mkIn 16 0 0 0 0 (-5) (-7) 0 0 in
  typed i /\ code (create al z i m) = 0 /\
  exists c, conf (create al z i m) = Some c /\ c_cicp c = -5 /\ c_preset c = -7.
Proof. exact negative_stored. Qed.
Print Assumptions C18_negative_refuted.
Theorem C18_loudness_refuted : forall al z m, (forall n s a, al n s a <> 0) ->
  let i := mkIn 16 0 1 1000 0 0 (-1) 0 0 in
  typed i /\ code (create al z i m) = 0 /\ exists c, conf (create al z i m) = Some c /\ c_tl c = 0.
Proof. exact loudness_zero. Qed.
Print Assumptions C18_loudness_refuted.
(** C18 otherwise: in range, the caller's value or the default (or 0 dB), and exactly the
    caller's values if all are valid. *)
Theorem C18_in_range_partial : forall i, 0 <= i_cicp i -> -1 <= i_preset i ->
  let c := snd (fst (set_config_params (default_config zero_cfg) i)) in
  pcm_ok (c_pcm c) /\ (c_pcm c = i_wdsz i \/ c_pcm c = 16) /\
  layout_ok (c_cicp c) /\ (c_cicp c = i_cicp i \/ c_cicp c = 0) /\
  preset_ok (c_preset c) /\ (c_preset c = i_preset i \/ c_preset c = -1) /\
  effect_ok (c_effect c) /\ (c_effect c = i_effect i \/ c_effect c = 0) /\
  -63 <= c_tl c <= 0 /\
  (c_tl c = - Z.shiftr (i_tl1 i) 2 \/ c_tl c = -24 \/ c_tl c = 0) /\
  (valid i -> c_pcm c = i_wdsz i /\ c_cicp c = i_cicp i /\ c_preset c = i_preset i /\
    c_effect c = i_effect i /\
    (i_tl0 i = 1 -> c_tl c = - (i_tl1 i / 4) /\ c_tlset c = 1 /\ c_norm c = 1 /\ c_drc c = 1) /\
    (i_tl0 i <> 1 -> c_tl c = -24)).
Proof. exact settings_in_range. Qed.
Print Assumptions C18_in_range_partial.
Theorem C18_is_stored_partial : forall al z i m, (forall n s a, al n s a <> 0) ->
  conf (create al z i m) = Some (snd (fst (set_config_params (default_config zero_cfg) i))) /\
  input (create al z i m) = after i.
Proof. exact create_conf. Qed.
Print Assumptions C18_is_stored_partial.
Example C18_case : c_tl (stored plain_cfg) = -24 /\ c_pcm (stored plain_cfg) = 24 /\ c_effect (stored plain_cfg) = 3.
Proof. repeat split; reflexivity. Qed.

(** C19: for every allocator, whatever it returned and wherever it failed. *)
Theorem C19_layout : forall al z i m, sane z -> m_blocks m = [] -> m_writes m = [] ->
  let m' := memory (create al z i m) in
  reserved (m_blocks m') ->
  (forall b, In b (m_blocks m') ->
     In (b_size b, b_align b) (requests z) /\
     b_ptr b mod b_align b = 0 /\
     within (b_ptr b) (b_size b) (b_base b) (b_size b + b_align b)) /\
  (forall x y b c, x <> y -> nth_error (m_blocks m') x = Some b -> nth_error (m_blocks m') y = Some c ->
     apart (b_ptr b) (b_size b) (b_ptr c) (b_size c)) /\
  (forall a l, In (a, l) (m_writes m') ->
     exists b, In b (m_blocks m') /\ b_base b <> 0 /\ within a l (b_base b) (b_size b + b_align b)).
Proof. exact create_layout. Qed.
Print Assumptions C19_layout.
(** The decoder state and its data share the third block without overlap. *)
Theorem C19_state_and_data : forall al z i m b, sane z -> m_blocks m = [] -> z_state z mod 8 = 0 ->
  let m' := memory (create al z i m) in
  nth_error (m_blocks m') 2 = Some b ->
  dec_data_ptr z b mod 8 = 0 /\
  within (dec_data_ptr z b) (z_dec z) (b_ptr b) (b_size b) /\
  apart (b_ptr b) (z_state z) (dec_data_ptr z b) (z_dec z).
Proof. exact dec_data_inside. Qed.
Print Assumptions C19_state_and_data.
Example C19_case : sane small_sizes /\ length (m_blocks (memory (create spaced small_sizes plain_cfg fresh_mem))) = 6%nat /\
  reserved (m_blocks (memory (create spaced small_sizes plain_cfg fresh_mem))).
Proof.
  split; [unfold sane, IN_BUF_SIZE; cbn; lia|]. split; [reflexivity|].
  exact spaced_reserved.
Qed.

(** C20: any block that is refused makes create fail; by C19 everything written lies in
    blocks that were obtained. *)
Theorem C20_failure_reported : forall al z i m k s a,
  nth_error (requests z) k = Some (s, a) -> al (m_calls m + k)%nat s a = 0 ->
  code (create al z i m) = E_MEM_ALLOC.
Proof. exact create_failure. Qed.
Print Assumptions C20_failure_reported.
Theorem C20_success : forall al z i m, (forall n s a, al n s a <> 0) -> code (create al z i m) = 0.
Proof. exact create_success. Qed.
Print Assumptions C20_success.
Example C20_case : code (create (fun n s a => if Nat.eqb n 3 then 0 else spaced n s a) small_sizes plain_cfg fresh_mem) = E_MEM_ALLOC.
Proof. reflexivity. Qed.

(** C23 for the stream rates of the table: the factors map the stream rate to the requested
    rate exactly, or the request is refused and the factors are kept. *)
Theorem C23_table_partial : forall c, ratio_of (c_sfs c) <> None ->
  exists e c', get_sampling_ratio c = Some (e, c') /\
  (e = 0 \/ e = E_RATIO) /\
  c_sfs c' = c_sfs c /\ c_ofs c' = c_ofs c /\
  (e = 0 -> c_up c' * c_sfs c = c_down c' * c_ofs c /\ c_flen c' * c_down c' = 1024 * c_up c' /\
     (c_resamp c' = 0 <-> c_ofs c = c_sfs c) /\ 1 <= c_down c' <= 2 /\ 1 <= c_up c' <= 3) /\
  (e = E_RATIO -> c_up c' = c_up c /\ c_down c' = c_down c).
Proof. exact ratio_supported. Qed.
Print Assumptions C23_table_partial.
(** All other stream rates, at the first init: 1/1. *)
Theorem C23_others_partial : forall i fs, valid i -> i_resamp i = 1 -> ratio_of fs = None -> fs <> i_fs i ->
  exists c' i', init_rate fs (stored i) (after i) = Some (c', i') /\
  c_up c' = 1 /\ c_down c' = 1 /\ samples_out fs c' = 1024 /\ reported_rate fs c' i' = i_fs i.
Proof. exact unknown_rate. Qed.
Print Assumptions C23_others_partial.
(** C23 is false after an earlier init: 12000 Hz is then resampled with the 2/1 of a
    24000 Hz stream. *)
Theorem C23_history_refuted : let i := mkIn 16 0 0 0 0 0 (-1) 1 48000 in
  valid i /\ exists c1 i1 c2 i2, init_rate 24000 (stored i) (after i) = Some (c1, i1) /\
  init_rate 12000 c1 i1 = Some (c2, i2) /\ c_up c2 = 2 /\ c_down c2 = 1.
Proof. exact stale_ratio. Qed.
Print Assumptions C23_history_refuted.
Example C23_case : ratio_of 32000 = Some (48000, 2, 3) /\ ratio_of 12000 = None.
Proof. split; reflexivity. Qed.

(** C73 is false: creating two decoders from one valid configuration gives two different
    decoders, because create rewrites the caller's loudness. *)
Theorem C73_input_kept_refuted : forall al z m, (forall n s a, al n s a <> 0) ->
  let i := mkIn 16 0 1 96 0 0 (-1) 0 0 in
  let r1 := create al z i m in
  let r2 := create al z (input r1) (memory r1) in
  valid i /\ (exists c, conf r1 = Some c /\ c_tl c = -24 /\ c_tlset c = 1) /\
  ~ valid (input r1) /\ (exists c, conf r2 = Some c /\ c_tl c = 0 /\ c_tlset c = 0).
Proof. exact second_create. Qed.
Print Assumptions C73_input_kept_refuted.
(** C73: nothing but a requested loudness is ever changed. *)
Theorem C73_input_kept_partial : forall i, after i = i \/
  after i = s_i_tl1 i (- Z.shiftr (i_tl1 i) 2) /\ i_tl0 i = 1.
Proof. exact after_unchanged. Qed.
Print Assumptions C73_input_kept_partial.
Example C73_case : after (mkIn 32 4 0 7 0 6 3 0 0) = mkIn 32 4 0 7 0 6 3 0 0.
Proof. reflexivity. Qed.

(** C74 for one create, successful or not, and one delete: each block obtained is given
    back once, nothing else is. *)
Theorem C74_delete_partial : forall al z i,
  let m := memory (create al z i fresh_mem) in
  m_oob (delete m) = false /\
  m_freed (delete m) = rev (map b_base (m_blocks m)) /\
  (code (create al z i fresh_mem) = 0 -> length (m_blocks m) = 6%nat) /\
  Forall (fun b => b_base b <> 0) (m_blocks m).
Proof. exact create_delete. Qed.
Print Assumptions C74_delete_partial.
(** C74 is false for two deletes and for seventeen creates. *)
Theorem C74_double_free_refuted : forall al z i, (forall n s a, al n s a <> 0) ->
  let m := memory (create al z i fresh_mem) in
  m_freed (delete (delete m)) = rev (map b_base (m_blocks m)) ++ rev (map b_base (m_blocks m)) /\
  length (m_blocks m) = 6%nat.
Proof. exact delete_twice. Qed.
Print Assumptions C74_double_free_refuted.
Theorem C74_table_refuted : forall al z i, (forall n s a, al n s a <> 0) ->
  m_oob (creates 17 al z i fresh_mem) = true.
Proof. exact table_overflow. Qed.
Print Assumptions C74_table_refuted.
Example C74_case : m_freed (delete (memory (create (fun n s a => if Nat.eqb n 2 then 0 else spaced n s a) small_sizes plain_cfg fresh_mem)))
  = [2 ^ 25; 2 ^ 24].
Proof. reflexivity. Qed.

(** C75 is false: the object that holds the decoder's pointers is put at an odd multiple of
    4 whenever the allocator returns a multiple of 8. *)
Theorem C75_object_alignment_refuted : forall al z i b, m_blocks (memory (create al z i fresh_mem)) <> [] ->
  nth_error (m_blocks (memory (create al z i fresh_mem))) 0 = Some b ->
  b_base b mod 8 = 0 -> b_ptr b mod 8 = 4 /\ b_size b = z_api z.
Proof. exact api_object_misaligned. Qed.
Print Assumptions C75_object_alignment_refuted.
Example C75_case : exists b, nth_error (m_blocks (memory (create spaced small_sizes plain_cfg fresh_mem))) 0 = Some b /\
  b_base b mod 8 = 0.
Proof. eexists; split; reflexivity. Qed.

(** C76 without resampling, and for stream rates of the table or equal to the requested
    rate. *)
Theorem C76_rate_partial : forall i fs, valid i -> (i_resamp i = 1 -> ratio_of fs <> None \/ fs = i_fs i) ->
  exists c' i', init_rate fs (stored i) (after i) = Some (c', i') /\
  samples_out fs c' * fs = 1024 * reported_rate fs c' i'.
Proof. exact rate_reported. Qed.
Print Assumptions C76_rate_partial.
(** C76 is false for every other stream rate: the requested rate is reported, but no
    conversion is made. *)
Theorem C76_rate_refuted : forall i fs, valid i -> i_resamp i = 1 -> ratio_of fs = None -> fs <> i_fs i ->
  exists c' i', init_rate fs (stored i) (after i) = Some (c', i') /\
  c_up c' = 1 /\ c_down c' = 1 /\ samples_out fs c' = 1024 /\ reported_rate fs c' i' = i_fs i.
Proof. exact unknown_rate. Qed.
Print Assumptions C76_rate_refuted.
Example C76_case : valid (mkIn 16 0 0 0 0 0 (-1) 1 48000) /\ ratio_of 12000 = None.
Proof. split; [unfold valid, pcm_ok, effect_ok, loud_ok, layout_ok, preset_ok; cbn; lia|reflexivity]. Qed.
