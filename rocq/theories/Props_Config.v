(** * Properties C26-C32 and C56-C65: the stream configuration

    Vocabulary: [mpegh_3da_config user u] parses a stream configuration (user: the output
    layout configured by the caller, u: the configuration structure as the previous
    configuration left it; [config_zero] when there was none), answering 0 or an error
    code and the new structure.  [cfg_ok u]: every table of u has its declared size.
    [upto_signals], [upto_elements], [upto_ext user j]: the parser run up to the end of the
    signal groups, of the elements, of the first j configuration extensions.
    Spec_Config.v defines the values and encodings used below. *)

From Coq Require Import ZArith List Lia Bool.
From Verif Require Import Bits BitBuf BitWrite Prog Escape Asi Wp Frame Cicp Hoa Mhas Config Leaf Spec_Asi Spec_Config
  Lem_Config Lem_ConfigSafe Lem_Hoa Lem_HoaMat Lem_ConfigMem Lem_ConfigFrame Lem_ConfigWhole Lem_Dmx Lem_ConfigProps
  Lem_ConfigRT Lem_ConfigFin.
Import ListNotations.
Open Scope Z_scope.

(** C26 is false: two groups of 24 objects each make the enhanced object metadata
    configuration write past its 24 entries. *)
Theorem C26_object_tables_refuted : exists d,
  exec (mpegh_3da_config 0 config_zero) (fresh d) = UB UOob.
Proof. exists many_objects. exact many_objects_ub. Qed.
Print Assumptions C26_object_tables_refuted.

(** C26 for the configuration, up to 24 objects in total. *)
Theorem C26_object_tables_partial : forall user u s u1 s1 r, cfg_ok u -> wf s ->
  exec (upto_signals user u) s = Done ((0, u1), s1) -> q_obj (u_sig u1) <= 24 ->
  exec (upto_elements user u) s <> UB r.
Proof. exact decoder_config_safe. Qed.
Print Assumptions C26_object_tables_partial.

Definition ok_part (o : outcome ((Z * ucfg) * rbuf)) : option Z :=
  match o with Done ((0, u), _) => Some (q_obj (u_sig u)) | _ => None end.
Example C26_case : cfg_ok config_zero /\
  ok_part (exec (upto_signals 0 config_zero) (fresh (small_config 0x0D 6 6 (repeat false 9)))) = Some 0.
Proof. split; [apply config_zero_ok|]. vm_compute. reflexivity. Qed.

Theorem C27_profile_limits : forall user u s u' s',
  exec (mpegh_3da_config user u) s = Done ((0, u'), s') ->
  1 <= u_freq u' <= 48000 /\
  (exists lim, level_limit (d_prof (u_dec u')) = Some lim /\ core_channels u' <= lim /\ ref_channels u' <= lim) /\
  (16 < core_channels u' \/ 16 < ref_channels u' ->
     q_gch (u_sig u') = 0 /\ q_ghoa (u_sig u') = 0 /\
     forall i, (i < Z.to_nat (d_num (u_dec u')))%nat ->
       (nth i (d_type (u_dec u')) 255 = 0 /\ el_nf (nth i (d_elem (u_dec u')) elem0) = 0 /\ el_enf (nth i (d_elem (u_dec u')) elem0) = 0) \/
       (nth i (d_type (u_dec u')) 255 = 3 /\ nth i (d_etype (u_dec u')) 0 <> 9)).
Proof. exact accepted_limits. Qed.
Print Assumptions C27_profile_limits.
(** Six channels are accepted at level 3 and refused at level 1. *)
Example C27_case : end_of (exec (mpegh_3da_config 0 config_zero) (fresh (small_config 0x0D 6 6 (repeat false 9)))) = Some 52 /\
  exists u s, exec (mpegh_3da_config 0 config_zero) (fresh without_compat) = Done ((E_CHAN_GT_MAX, u), s).
Proof. split; [vm_compute; reflexivity|exact fresh_rejects]. Qed.

(** C28 is false for every number of groups: one pair too many is read. *)
Theorem C28_sig_group_info_refuted : forall g s g' s', 0 <= q_num g -> 0 <= r_cnt s ->
  exec (sig_group_info g) s = Done (g', s') ->
  r_cnt s - r_cnt s' = 4 * (q_num g + 1) /\ r_cnt s - r_cnt s' <> 4 * q_num g.
Proof. intros g s g' s' A B E. split; [exact (sig_group_info_bits g s g' s' A B E)|exact (sig_group_info_not_exact g s g' s' A B E)]. Qed.
Print Assumptions C28_sig_group_info_refuted.
Example C28_case : exists g' s', exec (sig_group_info (s_q_num sigs_zero 2)) (fresh [0x12; 0x34; 0x56]) = Done (g', s') /\
  r_cnt (fresh [0x12; 0x34; 0x56]) - r_cnt s' = 12.
Proof. do 2 eexists. split; [vm_compute; reflexivity|]. vm_compute. reflexivity. Qed.

(** C29 is false: a compatible profile extension of declared length 10 bytes is left after
    2 bytes, a downmix extension of declared length 0 is left after 22 bits. *)
Theorem C29_config_ext_framing_refuted : exists d s1 s' u',
  exec config_ext_header (fresh d) = Done ((7, 10), s1) /\
  exec (config_ext_one 0 0 config_zero) (fresh d) = Done ((0, u'), s') /\ bitpos s' - bitpos s1 = 16.
Proof. exists short_ext. exact short_ext_run. Qed.
Print Assumptions C29_config_ext_framing_refuted.
Theorem C29_config_ext_overlong_refuted : exists d s1 s' u',
  exec config_ext_header (fresh d) = Done ((1, 0), s1) /\
  exec (config_ext_one 0 0 config_zero) (fresh d) = Done ((0, u'), s') /\ bitpos s' - bitpos s1 = 22.
Proof. exists long_ext. exact long_ext_run. Qed.
Print Assumptions C29_config_ext_overlong_refuted.
(** C29 for fill, loudness, fill bytes and unknown extensions exactly; the downmix, the
    scene and the HOA matrix never leave part of their length unread. *)
Theorem C29_config_ext_framing_partial : forall cicp j u s u' s', 0 <= r_cnt s ->
  exec (config_ext_one cicp j u) s = Done ((0, u'), s') ->
  exists ty len s1, exec config_ext_header s = Done ((ty, len), s1) /\
    (ty = 0 \/ ty = 2 \/ ty = 5 \/ 7 < ty -> r_cnt s1 - r_cnt s' = 8 * len) /\
    (ty = 1 \/ ty = 3 \/ ty = 4 -> 8 * len <= r_cnt s1 - r_cnt s') /\
    (ty = 6 -> 0 <= q_num (u_sig u) -> r_cnt s1 - r_cnt s' = 4 * (q_num (u_sig u) + 1)).
Proof. exact config_ext_framed. Qed.
Print Assumptions C29_config_ext_framing_partial.
Example C29_case : end_of (exec (config_ext_one 0 0 config_zero) (fresh [0x93; 0x12; 0x34; 0x56; 0x78])) = Some 32.
Proof. vm_compute. reflexivity. Qed.

(** C30 is false: every downmix configuration with a matrix of more than 2048 bits in front
    writes past the 256 bytes of the matrix. *)
Theorem C30_downmix_refuted : forall cicp id lay t ts l s rest, (length l < 6)%nat -> (length ts < 8)%nat ->
  0 < id < 127 -> 0 <= lay < 64 -> valid_mtx t -> (2048 < length (t_bits t))%nat -> wf s ->
  rest_bits s = enc_dmx (mkDent id lay (Some (t :: ts)) :: l) ++ rest ->
  exec (dmx_config cicp dmxc0) s = UB UOob.
Proof. exact dmx_config_exec_over. Qed.
Print Assumptions C30_downmix_refuted.
(** C30: that is the only way one matrix leaves its buffer. *)
Theorem C30_downmix_partial : forall l m s r, (l < 8)%nat -> dims m -> wf s -> exec (dmx_one l m) s = UB r ->
  exists n len s1, exec mtx_header s = Done ((n, len), s1) /\ 0 <= n < 16 /\ 2048 < len.
Proof. exact dmx_one_ub. Qed.
Print Assumptions C30_downmix_partial.
Example C30_case : valid_mtx (mkMtx [3] (repeat true (Z.to_nat 2049))) /\ valid_mtx (mkMtx [3; 4] [true; false; true]) /\ dims dmat0.
Proof.
  split; [|split; [|exact dims_dmat0]]; (split; [cbn; lia|split; [repeat constructor; lia|]]).
  - cbn [t_bits]. rewrite repeat_length. lia.
  - cbn. lia.
Qed.

(** C31 is false: azimuth index 63 at 5 degree precision (315 degrees) is reported by the
    speaker description and stored all the same. *)
Theorem C31_flexible_speakers_refuted : exists d d' f s1 l' f' s',
  exec (spk_description flex_zero 0) (fresh (pack d)) = Done ((E_AZ_ANG, f), s1) /\
  exec (flexispk lay_zero 1) (fresh (pack (d' ++ d))) = Done (l', s') /\ d' = [false] /\
  nth_error (l_flex l') 0 = Some f' /\ f_cicp f' = 0 /\ f_az f' = 315.
Proof.
  exists (tl bad_spk ++ repeat false 30), [false].
  destruct bad_angle_run as (f & s1 & l' & f' & s' & A & B & C). exists f, s1, l', f', s'.
  split; [exact A|]. split; [exact B|]. split; [reflexivity|exact C].
Qed.
Print Assumptions C31_flexible_speakers_refuted.
(** C31: no overrun, symmetric pairs included ... *)
Theorem C31_flexible_speakers_partial : forall l n s r, n <= 24 -> lay_dim l -> wf s -> exec (flexispk l n) s <> UB r.
Proof. exact flexispk_safe. Qed.
Print Assumptions C31_flexible_speakers_partial.
(** ... and a speaker description that reports no error has legal angles. *)
Theorem C31_speaker_angles_partial : forall f prec s f' s',
  exec (spk_description f prec) s = Done ((0, f'), s') -> f_cicp f' = 0 ->
  let k := if prec =? 0 then 5 else 1 in
  0 <= k * f_az f' <= 180 /\ (f_elc f' = 3 -> -90 <= k * f_el f' <= 90).
Proof. exact spk_description_legal. Qed.
Print Assumptions C31_speaker_angles_partial.
Example C31_case : lay_dim lay_zero /\ exists f s', exec (spk_description flex_zero 0)
   (fresh (pack ([false] ++ bits_of 2 3 ++ bits_of 5 7 ++ [true] ++ bits_of 6 6 ++ [true; false] ++ repeat false 30))) = Done ((0, f), s') /\
   f_az f = 6 /\ f_el f = -7.
Proof. split; [split; reflexivity|]. do 2 eexists. split; [vm_compute; reflexivity|]. vm_compute. auto. Qed.

Theorem C32_hoa_consistent : forall h0 s h s', 0 <= h_ntc h0 -> wf s ->
  exec (fill_config h0) s = Done (Ok h, s') ->
  0 <= h_order h <= 6 /\ h_coef h = (h_order h + 1) ^ 2 /\
  -1 <= h_minamb h <= h_order h /\ h_minco h = (h_minamb h + 1) ^ 2 /\
  (h_minamb h < h_order h -> h_dob h = Z.log2_up (h_order h - h_minamb h + 1)) /\
  h_vqb h = Z.log2_up (Z.log2_up (h_coef h + 1)) /\ h_aab h = Z.log2_up (h_maxadd h) /\ h_apb h = Z.log2_up (h_coef h) /\
  h_gcb h = Z.log2_up (Z.log2_up (3 * h_coef h / 2) + h_mgc h + 1) /\ hoa_ok h0 h.
Proof.
  intros h0 s h s' H W E. pose proof (fill_config_exec h0 s h s' H W E) as K. assert (K' := K). destruct K'.
  repeat split; try tauto; try lia; apply ho_dob; assumption.
Qed.
Print Assumptions C32_hoa_consistent.
(** No table is left and every loop ends within its bound. *)
Theorem C32_hoa_safe : forall h0 s r, 0 <= h_ntc h0 -> wf s -> exec (fill_config h0) s <> UB r.
Proof. exact fill_config_safe. Qed.
Print Assumptions C32_hoa_safe.
Example C32_case : exists h s', exec (fill_config (hoa_in 9)) (fresh (pack (hoa_bits 3 1 1 2 ++ repeat false 16))) = Done (Ok h, s') /\
  h_order h = 3 /\ h_coef h = 16 /\ h_minamb h = 1 /\ h_maxord h = 2.
Proof. do 2 eexists. split; [vm_compute; reflexivity|]. vm_compute. auto. Qed.

(** C56 is false (C26, C30); apart from these two cases no stream configuration makes the
    parser leave its tables, shift out of range or run past a loop bound. *)
Theorem C56_config_memory_refuted : exists d, exec (mpegh_3da_config 0 config_zero) (fresh d) = UB UOob.
Proof. exists many_objects. exact many_objects_ub. Qed.
Print Assumptions C56_config_memory_refuted.
Theorem C56_config_memory_partial : forall user u s r, cfg_ok u -> wf s -> exec (mpegh_3da_config user u) s = UB r ->
  (exists u1 s1, exec (upto_signals user u) s = Done ((0, u1), s1) /\ 24 < q_obj (u_sig u1)) \/
  (exists cicp j u1 s1, exec (upto_ext user j u) s = Done ((0, u1), s1) /\
     exec (config_ext_one cicp j u1) s1 = UB r /\ at_downmix s1).
Proof. exact config_ub. Qed.
Print Assumptions C56_config_memory_partial.
Example C56_case : cfg_ok config_zero /\ ok_part (exec (upto_signals 0 config_zero) (fresh many_objects)) = Some 48.
Proof. split; [apply config_zero_ok|]. vm_compute. reflexivity. Qed.

Theorem C57_ext_element_framing : forall i u s u' s', 0 <= r_cnt s ->
  exec (ext_element i u) s = Done ((0, u'), s') ->
  exists ty len s1, exec ext_element_header s = Done ((ty, len), s1) /\ r_cnt s1 - r_cnt s' = 8 * len.
Proof. exact ext_element_framed. Qed.
Print Assumptions C57_ext_element_framing.
Example C57_case : end_of (exec (ext_element 0 config_zero) (fresh (pack (bits_of 4 12 ++ bits_of 4 3 ++ [false; false] ++ repeat true 40)))) = Some 34.
Proof. vm_compute. reflexivity. Qed.

Theorem C58_signal_totals : forall user u s u' s',
  exec (mpegh_3da_config user u) s = Done ((0, u'), s') ->
  let g := u_sig u' in let n := Z.to_nat (q_num g) in
  1 <= q_num g <= 16 /\ 1 <= d_num (u_dec u') <= 50 /\ 0 <= u_flen u' <= 4 /\
  q_ch g = signals_of 0 (firstn n (q_type g)) (firstn n (q_nsig g)) /\
  q_obj g = signals_of 1 (firstn n (q_type g)) (firstn n (q_nsig g)) /\
  q_hoa g = signals_of 3 (firstn n (q_type g)) (firstn n (q_nsig g)) /\
  q_gch g = groups_of 0 (firstn n (q_type g)) /\ q_gobj g = groups_of 1 (firstn n (q_type g)) /\
  q_ghoa g = groups_of 3 (firstn n (q_type g)) /\
  Forall (fun t => 0 <= t <= 3) (firstn n (q_type g)) /\ Forall (fun k => 1 <= k) (firstn n (q_nsig g)).
Proof. exact accepted_totals. Qed.
Print Assumptions C58_signal_totals.
Definition totals (o : outcome ((Z * ucfg) * rbuf)) : option (Z * Z * Z * Z) :=
  match o with Done ((0, u), _) => Some (q_num (u_sig u), q_ch (u_sig u), q_obj (u_sig u), q_hoa (u_sig u)) | _ => None end.
Definition mixed : scfg := mkSC 0x0D (inl 3) 1 1 6 [(0, 6); (1, 2); (3, 4)] 0
  [CSce (mkCT 0 1 None); CCpe (mkCT 1 0 (Some [1; 0; 1; 0; 17; 9; 1])) 1; CLfe].
Example C58_case : totals (exec (mpegh_3da_config 0 config_zero) (fresh (pack (enc_config mixed ++ repeat false 7)))) = Some (3, 6, 2, 4).
Proof. vm_compute. reflexivity. Qed.

Theorem C59_downmix_stored_partial : forall cicp l s rest, (length l <= 6)%nat -> Forall valid_dent l -> Forall dent_fits l -> wf s ->
  rest_bits s = enc_dmx l ++ rest ->
  exists x s', exec (dmx_config cicp dmxc0) s = Done ((0, x), s') /\ wf s' /\ rest_bits s' = rest /\
    dx_type x = 1 /\ dx_cnt x = Z.of_nat (length l) /\ dx_id x = chosen cicp l /\
    forall i e, nth_error l i = Some e -> exists m, nth_error (dx_mat x) i = Some m /\ holds_dent e m.
Proof. exact dmx_config_exec. Qed.
Print Assumptions C59_downmix_stored_partial.
Example C59_case : valid_dent (mkDent 5 6 (Some [mkMtx [3; 4] [true; false; true]])) /\ dent_fits (mkDent 5 6 (Some [mkMtx [3; 4] [true; false; true]])) /\
  valid_dent (mkDent 7 2 None).
Proof. repeat split; cbn; try lia; repeat constructor; cbn; lia. Qed.

Theorem C60_hoa_matrix_safe : forall k cicp m s r, 0 <= k <= 7 -> hm_ok m -> wf s -> exec (hoa_matrix (k * k) cicp m) s <> UB r.
Proof. exact hoa_matrix_safe. Qed.
Print Assumptions C60_hoa_matrix_safe.
Example C60_case : hm_ok hmat_zero.
Proof. destruct (cg_dec _ config_zero_ok). exact do_hm. Qed.

(** C61 is false: order 2 with a maximum ambience order of 3 is accepted. *)
Theorem C61_hoa_max_order_refuted : exists d h s', exec (fill_config (hoa_in 4)) (fresh d) = Done (Ok h, s') /\
  h_order h = 2 /\ h_maxord h = 3.
Proof. eexists. exact hoa_max_order. Qed.
Print Assumptions C61_hoa_max_order_refuted.

(** C62 is false: after a rejected configuration another one makes the parser leave its
    tables, although a fresh decoder handles it. *)
Theorem C62_rejected_config_harmless_refuted : exists d1 d2 e u s,
  exec (mpegh_3da_config 0 config_zero) (fresh d1) = Done ((e, u), s) /\ e <> 0 /\
  exec (mpegh_3da_config 0 u) (fresh d2) = UB UOob.
Proof. exists bad_layout, list_layout. exact stale_layout. Qed.
Print Assumptions C62_rejected_config_harmless_refuted.
Example C62_case : match exec (mpegh_3da_config 0 config_zero) (fresh list_layout) with UB _ => false | _ => true end = true.
Proof. vm_compute. reflexivity. Qed.

(** C63 is false: the compatibility set of an accepted configuration is applied to the
    next one, which names none; a fresh decoder rejects it. *)
Theorem C63_config_history_refuted : exists d1 d2 u s u' s',
  exec (mpegh_3da_config 0 config_zero) (fresh d1) = Done ((0, u), s) /\
  exec (mpegh_3da_config 0 u) (fresh d2) = Done ((0, u'), s') /\
  exists u2 s2, exec (mpegh_3da_config 0 config_zero) (fresh d2) = Done ((E_CHAN_GT_MAX, u2), s2).
Proof.
  exists with_compat, without_compat. destruct sticky_compat as (u & s & u' & s' & A & B & _). exists u, s, u', s'.
  split; [exact A|]. split; [exact B|exact fresh_rejects].
Qed.
Print Assumptions C63_config_history_refuted.

Theorem C64_truncated_binary : forall n v s rest, 1 <= n < 2 ^ 24 -> 0 <= v < n -> wf s -> rest_bits s = enc_trunc n v ++ rest ->
  exists s', exec (read_range n) s = Done (v, s') /\ wf s' /\ rest_bits s' = rest.
Proof. exact read_range_exec. Qed.
Print Assumptions C64_truncated_binary.
Example C64_case : exists s', exec (read_range 12) (fresh (pack (enc_trunc 12 9 ++ repeat true 4))) = Done (9, s') /\
  length (enc_trunc 12 3) = 3%nat /\ length (enc_trunc 12 9) = 4%nat.
Proof. eexists. split; [vm_compute; reflexivity|]. vm_compute. auto. Qed.

(** C65 for configurations with a named layout, without extensions and extension elements,
    with at most 16 channels, in a decoder whose earlier configurations named no
    compatibility set. *)
Theorem C65_config_stored_partial : forall user u c s rest, cfg_ok u -> d_compp (u_dec u) = 0 -> valid_config c -> wf s ->
  rest_bits s = enc_config c ++ rest ->
  exists u' s', exec (mpegh_3da_config user u) s = Done ((0, u'), s') /\ rest_bits s' = rest /\ holds_config c u'.
Proof. exact config_exec. Qed.
Print Assumptions C65_config_stored_partial.
Example C65_case : valid_config mixed.
Proof.
  unfold valid_config, mixed, is_bit; cbn [sc_rate sc_flen sc_rdc sc_elp sc_lay Spec_Config.sc_groups sc_elems sc_prof length].
  repeat (split; [lia|]).
  split; [repeat constructor; cbn; lia|]. split; [left; reflexivity|]. split; [lia|].
  split.
  { constructor; [repeat split; cbn; lia|]. constructor; [|constructor; [exact I|constructor]].
    cbn [valid_elem]. unfold valid_tools, is_bit. cbn [ct_lpd ct_nf ct_igf].
    split; [|lia]. split; [lia|]. split; [lia|]. split; [reflexivity|]. split; [|discriminate].
    cbn [combine igf_widths app]. repeat constructor; lia. }
  split; [lia|].
  exists 24. repeat split; vm_compute; congruence.
Qed.
