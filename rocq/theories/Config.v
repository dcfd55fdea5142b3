(** * Config: the 3D-audio stream configuration

    Models decoder/ia_core_coder_init_config.c:100-1695 (mpegh3daConfig and everything it
    calls), the object-metadata configuration decoder/impeghd_oam_dec.c:100-235, and the
    structures of decoder/ia_core_coder_config.h:345-640 (default build, LC_LEVEL_4 off).

    Functions that return an IA_ERRORCODE return the pair (code, state): the state carries
    every update made before an early return, because the same structures are used again
    for the next configuration.  Three exceptions, where only the old value is kept on an
    error: the HOA configuration, the HOA matrix and the audio scene (their parsers are
    modelled with the type [res]).

    Not modelled: profile-independent bookkeeping that is only copied (ch_config,
    channel_configuration), the DRC and loudness payload contents (stored as bytes here,
    parsed elsewhere), and fields never written by these functions.

    The [s_...] definitions after each record are field updates. *)

From Coq Require Import ZArith List Lia Bool.
From Verif Require Import Bits BitBuf Prog Asi Escape Cicp Hoa Mhas.
Import ListNotations.
Open Scope Z_scope.

(** impeghd_error_codes.h:99-158, 205-245 *)
Definition E_CHAN_GT_MAX := 0xFFFF9001.
Definition E_SAMP_FREQ := 0xFFFF9002.
Definition E_RECV_DELAY := 0xFFFF9003.
Definition E_FILLBYTE := 0xFFFF9004.
Definition E_FRAMELEN_IDX := 0xFFFF9006.
Definition E_CICP_SPKR := 0xFFFF9007.
Definition E_MAX_CONF_EXT := 0xFFFF900E.
Definition E_MAX_SPKS := 0xFFFF900F.
Definition E_INIT := 0xFFFF9010.
Definition E_CONF_EXT_LEN := 0xFFFF9011.
Definition E_MAX_SIGGROUPS := 0xFFFF901A.
Definition E_PROFILE := 0xFFFF901B.
Definition E_PROFILE_CONFIG := 0xFFFF901C.
Definition E_EL_ANG := 0xFFFF901F.
Definition E_AZ_ANG := 0xFFFF9020.
Definition E_DMX_CONF_TYPE := 0xFFFF9026.
Definition E_DMX_TYPE := 0xFFFF9027.
Definition E_DMX_ID := 0xFFFF9028.
Definition E_CICP_SPK := 0xFFFF902A.
Definition E_EXT_ELEM := 0xFFFF902B.
Definition E_LC_PROFILE := 0xFFFF9034.
Definition E_SHIFTED_CH := 0xFFFF9037.
Definition E_NUM_CH := 0xFFFF903A.
Definition E_SIG_TYPE := 0xFFFF903B.
Definition E_OAM_NUM := 0xFFFF9500.
Definition E_DMX_PER_ID := 0xFFFF9800.
Definition E_ELEM_IDX := 0xFFFF9807.
Definition E_DMX_ELEMS := 0xFFFF980D.
Definition E_FRAME := 0xFFFF9816.
Definition E_GRP_IDS := 0xFFFF981C.
Definition E_OAM_FRAMELEN := 0xFFFF9D01.

(** Bounded for loop stopping at the first non-zero error code. *)
Fixpoint forE {S} (n : nat) (i : nat) (body : nat -> S -> prog (Z * S)) (s : S)
  : prog (Z * S) :=
  match n with
  | O => Ret (0, s)
  | Datatypes.S m =>
    ' (e, s') <- body i s ;;
    if e =? 0 then forE m (Datatypes.S i) body s' else Ret (e, s')
  end.


(** ia_flex_spk_cfg_str, config.h:345-355. *)
Record flex := mkFx {
  f_cicp : Z;
  f_idx : Z;
  f_elc : Z;
  f_el : Z;
  f_eldir : Z;
  f_az : Z;
  f_azdir : Z;
  f_lfe : Z }.
Definition s_f_cicp (r : flex) (v : Z) : flex := mkFx v (f_idx r) (f_elc r) (f_el r) (f_eldir r) (f_az r) (f_azdir r) (f_lfe r).
Definition s_f_idx (r : flex) (v : Z) : flex := mkFx (f_cicp r) v (f_elc r) (f_el r) (f_eldir r) (f_az r) (f_azdir r) (f_lfe r).
Definition s_f_elc (r : flex) (v : Z) : flex := mkFx (f_cicp r) (f_idx r) v (f_el r) (f_eldir r) (f_az r) (f_azdir r) (f_lfe r).
Definition s_f_el (r : flex) (v : Z) : flex := mkFx (f_cicp r) (f_idx r) (f_elc r) v (f_eldir r) (f_az r) (f_azdir r) (f_lfe r).
Definition s_f_eldir (r : flex) (v : Z) : flex := mkFx (f_cicp r) (f_idx r) (f_elc r) (f_el r) v (f_az r) (f_azdir r) (f_lfe r).
Definition s_f_az (r : flex) (v : Z) : flex := mkFx (f_cicp r) (f_idx r) (f_elc r) (f_el r) (f_eldir r) v (f_azdir r) (f_lfe r).
Definition s_f_azdir (r : flex) (v : Z) : flex := mkFx (f_cicp r) (f_idx r) (f_elc r) (f_el r) (f_eldir r) (f_az r) v (f_lfe r).
Definition s_f_lfe (r : flex) (v : Z) : flex := mkFx (f_cicp r) (f_idx r) (f_elc r) (f_el r) (f_eldir r) (f_az r) (f_azdir r) v.

(** ia_speaker_config_3d with ia_flex_spk_data_str, config.h:359-375: [l_spk] has 24
    entries, [l_flex] 32. *)
Record layout := mkLay {
  l_type : Z;
  l_idx : Z;
  l_num : Z;
  l_spk : list Z;
  l_prec : Z;
  l_flex : list flex }.
Definition s_l_type (r : layout) (v : Z) : layout := mkLay v (l_idx r) (l_num r) (l_spk r) (l_prec r) (l_flex r).
Definition s_l_idx (r : layout) (v : Z) : layout := mkLay (l_type r) v (l_num r) (l_spk r) (l_prec r) (l_flex r).
Definition s_l_num (r : layout) (v : Z) : layout := mkLay (l_type r) (l_idx r) v (l_spk r) (l_prec r) (l_flex r).
Definition s_l_spk (r : layout) (v : list Z) : layout := mkLay (l_type r) (l_idx r) (l_num r) v (l_prec r) (l_flex r).
Definition s_l_prec (r : layout) (v : Z) : layout := mkLay (l_type r) (l_idx r) (l_num r) (l_spk r) v (l_flex r).
Definition s_l_flex (r : layout) (v : list flex) : layout := mkLay (l_type r) (l_idx r) (l_num r) (l_spk r) (l_prec r) v.

(** ia_signals_3d, config.h:428-447; arrays of 32 entries.  num_saoc_transport_ch is only
    ever set to 0 and is left out. *)
Record sigs := mkSig {
  q_num : Z;
  q_type : list Z;
  q_nsig : list Z;
  q_differs : list Z;
  q_lay : list layout;
  q_prio : list Z;
  q_fixed : list Z;
  q_info : Z;
  q_ch : Z;
  q_obj : Z;
  q_hoa : Z;
  q_gch : Z;
  q_gobj : Z;
  q_ghoa : Z;
  q_fce : Z }.
Definition s_q_num (r : sigs) (v : Z) : sigs := mkSig v (q_type r) (q_nsig r) (q_differs r) (q_lay r) (q_prio r) (q_fixed r) (q_info r) (q_ch r) (q_obj r) (q_hoa r) (q_gch r) (q_gobj r) (q_ghoa r) (q_fce r).
Definition s_q_type (r : sigs) (v : list Z) : sigs := mkSig (q_num r) v (q_nsig r) (q_differs r) (q_lay r) (q_prio r) (q_fixed r) (q_info r) (q_ch r) (q_obj r) (q_hoa r) (q_gch r) (q_gobj r) (q_ghoa r) (q_fce r).
Definition s_q_nsig (r : sigs) (v : list Z) : sigs := mkSig (q_num r) (q_type r) v (q_differs r) (q_lay r) (q_prio r) (q_fixed r) (q_info r) (q_ch r) (q_obj r) (q_hoa r) (q_gch r) (q_gobj r) (q_ghoa r) (q_fce r).
Definition s_q_differs (r : sigs) (v : list Z) : sigs := mkSig (q_num r) (q_type r) (q_nsig r) v (q_lay r) (q_prio r) (q_fixed r) (q_info r) (q_ch r) (q_obj r) (q_hoa r) (q_gch r) (q_gobj r) (q_ghoa r) (q_fce r).
Definition s_q_lay (r : sigs) (v : list layout) : sigs := mkSig (q_num r) (q_type r) (q_nsig r) (q_differs r) v (q_prio r) (q_fixed r) (q_info r) (q_ch r) (q_obj r) (q_hoa r) (q_gch r) (q_gobj r) (q_ghoa r) (q_fce r).
Definition s_q_prio (r : sigs) (v : list Z) : sigs := mkSig (q_num r) (q_type r) (q_nsig r) (q_differs r) (q_lay r) v (q_fixed r) (q_info r) (q_ch r) (q_obj r) (q_hoa r) (q_gch r) (q_gobj r) (q_ghoa r) (q_fce r).
Definition s_q_fixed (r : sigs) (v : list Z) : sigs := mkSig (q_num r) (q_type r) (q_nsig r) (q_differs r) (q_lay r) (q_prio r) v (q_info r) (q_ch r) (q_obj r) (q_hoa r) (q_gch r) (q_gobj r) (q_ghoa r) (q_fce r).
Definition s_q_info (r : sigs) (v : Z) : sigs := mkSig (q_num r) (q_type r) (q_nsig r) (q_differs r) (q_lay r) (q_prio r) (q_fixed r) v (q_ch r) (q_obj r) (q_hoa r) (q_gch r) (q_gobj r) (q_ghoa r) (q_fce r).
Definition s_q_ch (r : sigs) (v : Z) : sigs := mkSig (q_num r) (q_type r) (q_nsig r) (q_differs r) (q_lay r) (q_prio r) (q_fixed r) (q_info r) v (q_obj r) (q_hoa r) (q_gch r) (q_gobj r) (q_ghoa r) (q_fce r).
Definition s_q_obj (r : sigs) (v : Z) : sigs := mkSig (q_num r) (q_type r) (q_nsig r) (q_differs r) (q_lay r) (q_prio r) (q_fixed r) (q_info r) (q_ch r) v (q_hoa r) (q_gch r) (q_gobj r) (q_ghoa r) (q_fce r).
Definition s_q_hoa (r : sigs) (v : Z) : sigs := mkSig (q_num r) (q_type r) (q_nsig r) (q_differs r) (q_lay r) (q_prio r) (q_fixed r) (q_info r) (q_ch r) (q_obj r) v (q_gch r) (q_gobj r) (q_ghoa r) (q_fce r).
Definition s_q_gch (r : sigs) (v : Z) : sigs := mkSig (q_num r) (q_type r) (q_nsig r) (q_differs r) (q_lay r) (q_prio r) (q_fixed r) (q_info r) (q_ch r) (q_obj r) (q_hoa r) v (q_gobj r) (q_ghoa r) (q_fce r).
Definition s_q_gobj (r : sigs) (v : Z) : sigs := mkSig (q_num r) (q_type r) (q_nsig r) (q_differs r) (q_lay r) (q_prio r) (q_fixed r) (q_info r) (q_ch r) (q_obj r) (q_hoa r) (q_gch r) v (q_ghoa r) (q_fce r).
Definition s_q_ghoa (r : sigs) (v : Z) : sigs := mkSig (q_num r) (q_type r) (q_nsig r) (q_differs r) (q_lay r) (q_prio r) (q_fixed r) (q_info r) (q_ch r) (q_obj r) (q_hoa r) (q_gch r) (q_gobj r) v (q_fce r).
Definition s_q_fce (r : sigs) (v : Z) : sigs := mkSig (q_num r) (q_type r) (q_nsig r) (q_differs r) (q_lay r) (q_prio r) (q_fixed r) (q_info r) (q_ch r) (q_obj r) (q_hoa r) (q_gch r) (q_gobj r) (q_ghoa r) v.

(** ia_usac_dec_element_config_struct, config.h:449-463; [el_igf] holds use_enf,
    use_high_resolution, use_whitening, after_tns_synth, start_index, stop_index,
    independent_tilling. *)
Record elem := mkEl {
  el_tw : Z;
  el_nf : Z;
  el_enf : Z;
  el_lpd : Z;
  el_lpds : Z;
  el_sci : Z;
  el_def : Z;
  el_frag : Z;
  el_igf : list Z }.
Definition s_el_tw (r : elem) (v : Z) : elem := mkEl v (el_nf r) (el_enf r) (el_lpd r) (el_lpds r) (el_sci r) (el_def r) (el_frag r) (el_igf r).
Definition s_el_nf (r : elem) (v : Z) : elem := mkEl (el_tw r) v (el_enf r) (el_lpd r) (el_lpds r) (el_sci r) (el_def r) (el_frag r) (el_igf r).
Definition s_el_enf (r : elem) (v : Z) : elem := mkEl (el_tw r) (el_nf r) v (el_lpd r) (el_lpds r) (el_sci r) (el_def r) (el_frag r) (el_igf r).
Definition s_el_lpd (r : elem) (v : Z) : elem := mkEl (el_tw r) (el_nf r) (el_enf r) v (el_lpds r) (el_sci r) (el_def r) (el_frag r) (el_igf r).
Definition s_el_lpds (r : elem) (v : Z) : elem := mkEl (el_tw r) (el_nf r) (el_enf r) (el_lpd r) v (el_sci r) (el_def r) (el_frag r) (el_igf r).
Definition s_el_sci (r : elem) (v : Z) : elem := mkEl (el_tw r) (el_nf r) (el_enf r) (el_lpd r) (el_lpds r) v (el_def r) (el_frag r) (el_igf r).
Definition s_el_def (r : elem) (v : Z) : elem := mkEl (el_tw r) (el_nf r) (el_enf r) (el_lpd r) (el_lpds r) (el_sci r) v (el_frag r) (el_igf r).
Definition s_el_frag (r : elem) (v : Z) : elem := mkEl (el_tw r) (el_nf r) (el_enf r) (el_lpd r) (el_lpds r) (el_sci r) (el_def r) v (el_igf r).
Definition s_el_igf (r : elem) (v : list Z) : elem := mkEl (el_tw r) (el_nf r) (el_enf r) (el_lpd r) (el_lpds r) (el_sci r) (el_def r) (el_frag r) v.

(** ia_usac_ext_cfg_dmx_mtx, config.h:474-485: 8 matrices, 16 groups each, 256 bytes each. *)
Record dmat := mkDM {
  dm_id : Z;
  dm_type : Z;
  dm_lay : Z;
  dm_cnt : Z;
  dm_ngrp : list Z;
  dm_grp : list (list Z);
  dm_len : list Z;
  dm_bytes : list (list Z) }.
Definition s_dm_id (r : dmat) (v : Z) : dmat := mkDM v (dm_type r) (dm_lay r) (dm_cnt r) (dm_ngrp r) (dm_grp r) (dm_len r) (dm_bytes r).
Definition s_dm_type (r : dmat) (v : Z) : dmat := mkDM (dm_id r) v (dm_lay r) (dm_cnt r) (dm_ngrp r) (dm_grp r) (dm_len r) (dm_bytes r).
Definition s_dm_lay (r : dmat) (v : Z) : dmat := mkDM (dm_id r) (dm_type r) v (dm_cnt r) (dm_ngrp r) (dm_grp r) (dm_len r) (dm_bytes r).
Definition s_dm_cnt (r : dmat) (v : Z) : dmat := mkDM (dm_id r) (dm_type r) (dm_lay r) v (dm_ngrp r) (dm_grp r) (dm_len r) (dm_bytes r).
Definition s_dm_ngrp (r : dmat) (v : list Z) : dmat := mkDM (dm_id r) (dm_type r) (dm_lay r) (dm_cnt r) v (dm_grp r) (dm_len r) (dm_bytes r).
Definition s_dm_grp (r : dmat) (v : list (list Z)) : dmat := mkDM (dm_id r) (dm_type r) (dm_lay r) (dm_cnt r) (dm_ngrp r) v (dm_len r) (dm_bytes r).
Definition s_dm_len (r : dmat) (v : list Z) : dmat := mkDM (dm_id r) (dm_type r) (dm_lay r) (dm_cnt r) (dm_ngrp r) (dm_grp r) v (dm_bytes r).
Definition s_dm_bytes (r : dmat) (v : list (list Z)) : dmat := mkDM (dm_id r) (dm_type r) (dm_lay r) (dm_cnt r) (dm_ngrp r) (dm_grp r) (dm_len r) v.

(** ia_usac_ext_cfg_dmx_cfg, config.h:487-496: 6 entries. *)
Record dmxc := mkDx {
  dx_id : Z;
  dx_type : Z;
  dx_passive : Z;
  dx_phase : Z;
  dx_imm : Z;
  dx_cnt : Z;
  dx_mat : list dmat }.
Definition s_dx_id (r : dmxc) (v : Z) : dmxc := mkDx v (dx_type r) (dx_passive r) (dx_phase r) (dx_imm r) (dx_cnt r) (dx_mat r).
Definition s_dx_type (r : dmxc) (v : Z) : dmxc := mkDx (dx_id r) v (dx_passive r) (dx_phase r) (dx_imm r) (dx_cnt r) (dx_mat r).
Definition s_dx_passive (r : dmxc) (v : Z) : dmxc := mkDx (dx_id r) (dx_type r) v (dx_phase r) (dx_imm r) (dx_cnt r) (dx_mat r).
Definition s_dx_phase (r : dmxc) (v : Z) : dmxc := mkDx (dx_id r) (dx_type r) (dx_passive r) v (dx_imm r) (dx_cnt r) (dx_mat r).
Definition s_dx_imm (r : dmxc) (v : Z) : dmxc := mkDx (dx_id r) (dx_type r) (dx_passive r) (dx_phase r) v (dx_cnt r) (dx_mat r).
Definition s_dx_cnt (r : dmxc) (v : Z) : dmxc := mkDx (dx_id r) (dx_type r) (dx_passive r) (dx_phase r) (dx_imm r) v (dx_mat r).
Definition s_dx_mat (r : dmxc) (v : list dmat) : dmxc := mkDx (dx_id r) (dx_type r) (dx_passive r) (dx_phase r) (dx_imm r) (dx_cnt r) v.

(** ia_struct_compatible_profile_config, config.h:498-506: 16 indications. *)
Record compat := mkCo {
  co_num : Z;
  co_res : Z;
  co_ind : list Z;
  co_lc : Z;
  co_bp : Z }.
Definition s_co_num (r : compat) (v : Z) : compat := mkCo v (co_res r) (co_ind r) (co_lc r) (co_bp r).
Definition s_co_res (r : compat) (v : Z) : compat := mkCo (co_num r) v (co_ind r) (co_lc r) (co_bp r).
Definition s_co_ind (r : compat) (v : list Z) : compat := mkCo (co_num r) (co_res r) v (co_lc r) (co_bp r).
Definition s_co_lc (r : compat) (v : Z) : compat := mkCo (co_num r) (co_res r) (co_ind r) v (co_bp r).
Definition s_co_bp (r : compat) (v : Z) : compat := mkCo (co_num r) (co_res r) (co_ind r) (co_lc r) v.

(** ia_oam_dec_config_struct, config.h:403-412: 24 objects. *)
Record oamc := mkOC {
  oc_fl : Z;
  oc_ccfl : Z;
  oc_ld : Z;
  oc_dyn : Z;
  oc_uni : Z;
  oc_rel : list Z;
  oc_relp : Z }.
Definition s_oc_fl (r : oamc) (v : Z) : oamc := mkOC v (oc_ccfl r) (oc_ld r) (oc_dyn r) (oc_uni r) (oc_rel r) (oc_relp r).
Definition s_oc_ccfl (r : oamc) (v : Z) : oamc := mkOC (oc_fl r) v (oc_ld r) (oc_dyn r) (oc_uni r) (oc_rel r) (oc_relp r).
Definition s_oc_ld (r : oamc) (v : Z) : oamc := mkOC (oc_fl r) (oc_ccfl r) v (oc_dyn r) (oc_uni r) (oc_rel r) (oc_relp r).
Definition s_oc_dyn (r : oamc) (v : Z) : oamc := mkOC (oc_fl r) (oc_ccfl r) (oc_ld r) v (oc_uni r) (oc_rel r) (oc_relp r).
Definition s_oc_uni (r : oamc) (v : Z) : oamc := mkOC (oc_fl r) (oc_ccfl r) (oc_ld r) (oc_dyn r) v (oc_rel r) (oc_relp r).
Definition s_oc_rel (r : oamc) (v : list Z) : oamc := mkOC (oc_fl r) (oc_ccfl r) (oc_ld r) (oc_dyn r) (oc_uni r) v (oc_relp r).
Definition s_oc_relp (r : oamc) (v : Z) : oamc := mkOC (oc_fl r) (oc_ccfl r) (oc_ld r) (oc_dyn r) (oc_uni r) (oc_rel r) v.

(** ia_enh_oam_config_struct, config.h:414-426: 24 objects. *)
Record enhc := mkEn {
  en_diff : Z;
  en_cdiff : Z;
  en_exc : Z;
  en_cexc : Z;
  en_close : Z;
  en_thr : Z;
  en_div : list Z;
  en_az : list Z;
  en_pre : list Z;
  en_ndiv : Z }.
Definition s_en_diff (r : enhc) (v : Z) : enhc := mkEn v (en_cdiff r) (en_exc r) (en_cexc r) (en_close r) (en_thr r) (en_div r) (en_az r) (en_pre r) (en_ndiv r).
Definition s_en_cdiff (r : enhc) (v : Z) : enhc := mkEn (en_diff r) v (en_exc r) (en_cexc r) (en_close r) (en_thr r) (en_div r) (en_az r) (en_pre r) (en_ndiv r).
Definition s_en_exc (r : enhc) (v : Z) : enhc := mkEn (en_diff r) (en_cdiff r) v (en_cexc r) (en_close r) (en_thr r) (en_div r) (en_az r) (en_pre r) (en_ndiv r).
Definition s_en_cexc (r : enhc) (v : Z) : enhc := mkEn (en_diff r) (en_cdiff r) (en_exc r) v (en_close r) (en_thr r) (en_div r) (en_az r) (en_pre r) (en_ndiv r).
Definition s_en_close (r : enhc) (v : Z) : enhc := mkEn (en_diff r) (en_cdiff r) (en_exc r) (en_cexc r) v (en_thr r) (en_div r) (en_az r) (en_pre r) (en_ndiv r).
Definition s_en_thr (r : enhc) (v : Z) : enhc := mkEn (en_diff r) (en_cdiff r) (en_exc r) (en_cexc r) (en_close r) v (en_div r) (en_az r) (en_pre r) (en_ndiv r).
Definition s_en_div (r : enhc) (v : list Z) : enhc := mkEn (en_diff r) (en_cdiff r) (en_exc r) (en_cexc r) (en_close r) (en_thr r) v (en_az r) (en_pre r) (en_ndiv r).
Definition s_en_az (r : enhc) (v : list Z) : enhc := mkEn (en_diff r) (en_cdiff r) (en_exc r) (en_cexc r) (en_close r) (en_thr r) (en_div r) v (en_pre r) (en_ndiv r).
Definition s_en_pre (r : enhc) (v : list Z) : enhc := mkEn (en_diff r) (en_cdiff r) (en_exc r) (en_cexc r) (en_close r) (en_thr r) (en_div r) (en_az r) v (en_ndiv r).
Definition s_en_ndiv (r : enhc) (v : Z) : enhc := mkEn (en_diff r) (en_cdiff r) (en_exc r) (en_cexc r) (en_close r) (en_thr r) (en_div r) (en_az r) (en_pre r) v.

(** ia_prod_meta_data_struct, config.h:552-571 (the configuration part): 32 groups. *)
Record prodc := mkPr {
  pr_has : Z;
  pr_dist : Z;
  pr_obj : list Z;
  pr_head : list Z }.
Definition s_pr_has (r : prodc) (v : Z) : prodc := mkPr v (pr_dist r) (pr_obj r) (pr_head r).
Definition s_pr_dist (r : prodc) (v : Z) : prodc := mkPr (pr_has r) v (pr_obj r) (pr_head r).
Definition s_pr_obj (r : prodc) (v : list Z) : prodc := mkPr (pr_has r) (pr_dist r) v (pr_head r).
Definition s_pr_head (r : prodc) (v : list Z) : prodc := mkPr (pr_has r) (pr_dist r) (pr_obj r) v.

(** ia_usac_decoder_config_struct, config.h:507-551: 50 elements with payload buffers of
    1536 bytes, 5 configuration extensions with buffers of 1536 bytes. *)
Record decc := mkDec {
  d_num : Z;
  d_type : list Z;
  d_etype : list Z;
  d_outch : list Z;
  d_elp : Z;
  d_elem : list elem;
  d_plen : list Z;
  d_ppres : list Z;
  d_pbuf : list (list Z);
  d_preroll : Z;
  d_hoa : hoac;
  d_hm : hmat;
  d_hmp : Z;
  d_cicp : Z;
  d_dmx : dmxc;
  d_dmxp : Z;
  d_dmxi : Z;
  d_loudp : Z;
  d_loudi : Z;
  d_cfgn : Z;
  d_cfgp : list Z;
  d_cfgl : list Z;
  d_cfgt : list Z;
  d_cfgb : list (list Z);
  d_compat : compat;
  d_compp : Z;
  d_prof : Z }.
Definition s_d_num (r : decc) (v : Z) : decc := mkDec v (d_type r) (d_etype r) (d_outch r) (d_elp r) (d_elem r) (d_plen r) (d_ppres r) (d_pbuf r) (d_preroll r) (d_hoa r) (d_hm r) (d_hmp r) (d_cicp r) (d_dmx r) (d_dmxp r) (d_dmxi r) (d_loudp r) (d_loudi r) (d_cfgn r) (d_cfgp r) (d_cfgl r) (d_cfgt r) (d_cfgb r) (d_compat r) (d_compp r) (d_prof r).
Definition s_d_type (r : decc) (v : list Z) : decc := mkDec (d_num r) v (d_etype r) (d_outch r) (d_elp r) (d_elem r) (d_plen r) (d_ppres r) (d_pbuf r) (d_preroll r) (d_hoa r) (d_hm r) (d_hmp r) (d_cicp r) (d_dmx r) (d_dmxp r) (d_dmxi r) (d_loudp r) (d_loudi r) (d_cfgn r) (d_cfgp r) (d_cfgl r) (d_cfgt r) (d_cfgb r) (d_compat r) (d_compp r) (d_prof r).
Definition s_d_etype (r : decc) (v : list Z) : decc := mkDec (d_num r) (d_type r) v (d_outch r) (d_elp r) (d_elem r) (d_plen r) (d_ppres r) (d_pbuf r) (d_preroll r) (d_hoa r) (d_hm r) (d_hmp r) (d_cicp r) (d_dmx r) (d_dmxp r) (d_dmxi r) (d_loudp r) (d_loudi r) (d_cfgn r) (d_cfgp r) (d_cfgl r) (d_cfgt r) (d_cfgb r) (d_compat r) (d_compp r) (d_prof r).
Definition s_d_outch (r : decc) (v : list Z) : decc := mkDec (d_num r) (d_type r) (d_etype r) v (d_elp r) (d_elem r) (d_plen r) (d_ppres r) (d_pbuf r) (d_preroll r) (d_hoa r) (d_hm r) (d_hmp r) (d_cicp r) (d_dmx r) (d_dmxp r) (d_dmxi r) (d_loudp r) (d_loudi r) (d_cfgn r) (d_cfgp r) (d_cfgl r) (d_cfgt r) (d_cfgb r) (d_compat r) (d_compp r) (d_prof r).
Definition s_d_elp (r : decc) (v : Z) : decc := mkDec (d_num r) (d_type r) (d_etype r) (d_outch r) v (d_elem r) (d_plen r) (d_ppres r) (d_pbuf r) (d_preroll r) (d_hoa r) (d_hm r) (d_hmp r) (d_cicp r) (d_dmx r) (d_dmxp r) (d_dmxi r) (d_loudp r) (d_loudi r) (d_cfgn r) (d_cfgp r) (d_cfgl r) (d_cfgt r) (d_cfgb r) (d_compat r) (d_compp r) (d_prof r).
Definition s_d_elem (r : decc) (v : list elem) : decc := mkDec (d_num r) (d_type r) (d_etype r) (d_outch r) (d_elp r) v (d_plen r) (d_ppres r) (d_pbuf r) (d_preroll r) (d_hoa r) (d_hm r) (d_hmp r) (d_cicp r) (d_dmx r) (d_dmxp r) (d_dmxi r) (d_loudp r) (d_loudi r) (d_cfgn r) (d_cfgp r) (d_cfgl r) (d_cfgt r) (d_cfgb r) (d_compat r) (d_compp r) (d_prof r).
Definition s_d_plen (r : decc) (v : list Z) : decc := mkDec (d_num r) (d_type r) (d_etype r) (d_outch r) (d_elp r) (d_elem r) v (d_ppres r) (d_pbuf r) (d_preroll r) (d_hoa r) (d_hm r) (d_hmp r) (d_cicp r) (d_dmx r) (d_dmxp r) (d_dmxi r) (d_loudp r) (d_loudi r) (d_cfgn r) (d_cfgp r) (d_cfgl r) (d_cfgt r) (d_cfgb r) (d_compat r) (d_compp r) (d_prof r).
Definition s_d_ppres (r : decc) (v : list Z) : decc := mkDec (d_num r) (d_type r) (d_etype r) (d_outch r) (d_elp r) (d_elem r) (d_plen r) v (d_pbuf r) (d_preroll r) (d_hoa r) (d_hm r) (d_hmp r) (d_cicp r) (d_dmx r) (d_dmxp r) (d_dmxi r) (d_loudp r) (d_loudi r) (d_cfgn r) (d_cfgp r) (d_cfgl r) (d_cfgt r) (d_cfgb r) (d_compat r) (d_compp r) (d_prof r).
Definition s_d_pbuf (r : decc) (v : list (list Z)) : decc := mkDec (d_num r) (d_type r) (d_etype r) (d_outch r) (d_elp r) (d_elem r) (d_plen r) (d_ppres r) v (d_preroll r) (d_hoa r) (d_hm r) (d_hmp r) (d_cicp r) (d_dmx r) (d_dmxp r) (d_dmxi r) (d_loudp r) (d_loudi r) (d_cfgn r) (d_cfgp r) (d_cfgl r) (d_cfgt r) (d_cfgb r) (d_compat r) (d_compp r) (d_prof r).
Definition s_d_preroll (r : decc) (v : Z) : decc := mkDec (d_num r) (d_type r) (d_etype r) (d_outch r) (d_elp r) (d_elem r) (d_plen r) (d_ppres r) (d_pbuf r) v (d_hoa r) (d_hm r) (d_hmp r) (d_cicp r) (d_dmx r) (d_dmxp r) (d_dmxi r) (d_loudp r) (d_loudi r) (d_cfgn r) (d_cfgp r) (d_cfgl r) (d_cfgt r) (d_cfgb r) (d_compat r) (d_compp r) (d_prof r).
Definition s_d_hoa (r : decc) (v : hoac) : decc := mkDec (d_num r) (d_type r) (d_etype r) (d_outch r) (d_elp r) (d_elem r) (d_plen r) (d_ppres r) (d_pbuf r) (d_preroll r) v (d_hm r) (d_hmp r) (d_cicp r) (d_dmx r) (d_dmxp r) (d_dmxi r) (d_loudp r) (d_loudi r) (d_cfgn r) (d_cfgp r) (d_cfgl r) (d_cfgt r) (d_cfgb r) (d_compat r) (d_compp r) (d_prof r).
Definition s_d_hm (r : decc) (v : hmat) : decc := mkDec (d_num r) (d_type r) (d_etype r) (d_outch r) (d_elp r) (d_elem r) (d_plen r) (d_ppres r) (d_pbuf r) (d_preroll r) (d_hoa r) v (d_hmp r) (d_cicp r) (d_dmx r) (d_dmxp r) (d_dmxi r) (d_loudp r) (d_loudi r) (d_cfgn r) (d_cfgp r) (d_cfgl r) (d_cfgt r) (d_cfgb r) (d_compat r) (d_compp r) (d_prof r).
Definition s_d_hmp (r : decc) (v : Z) : decc := mkDec (d_num r) (d_type r) (d_etype r) (d_outch r) (d_elp r) (d_elem r) (d_plen r) (d_ppres r) (d_pbuf r) (d_preroll r) (d_hoa r) (d_hm r) v (d_cicp r) (d_dmx r) (d_dmxp r) (d_dmxi r) (d_loudp r) (d_loudi r) (d_cfgn r) (d_cfgp r) (d_cfgl r) (d_cfgt r) (d_cfgb r) (d_compat r) (d_compp r) (d_prof r).
Definition s_d_cicp (r : decc) (v : Z) : decc := mkDec (d_num r) (d_type r) (d_etype r) (d_outch r) (d_elp r) (d_elem r) (d_plen r) (d_ppres r) (d_pbuf r) (d_preroll r) (d_hoa r) (d_hm r) (d_hmp r) v (d_dmx r) (d_dmxp r) (d_dmxi r) (d_loudp r) (d_loudi r) (d_cfgn r) (d_cfgp r) (d_cfgl r) (d_cfgt r) (d_cfgb r) (d_compat r) (d_compp r) (d_prof r).
Definition s_d_dmx (r : decc) (v : dmxc) : decc := mkDec (d_num r) (d_type r) (d_etype r) (d_outch r) (d_elp r) (d_elem r) (d_plen r) (d_ppres r) (d_pbuf r) (d_preroll r) (d_hoa r) (d_hm r) (d_hmp r) (d_cicp r) v (d_dmxp r) (d_dmxi r) (d_loudp r) (d_loudi r) (d_cfgn r) (d_cfgp r) (d_cfgl r) (d_cfgt r) (d_cfgb r) (d_compat r) (d_compp r) (d_prof r).
Definition s_d_dmxp (r : decc) (v : Z) : decc := mkDec (d_num r) (d_type r) (d_etype r) (d_outch r) (d_elp r) (d_elem r) (d_plen r) (d_ppres r) (d_pbuf r) (d_preroll r) (d_hoa r) (d_hm r) (d_hmp r) (d_cicp r) (d_dmx r) v (d_dmxi r) (d_loudp r) (d_loudi r) (d_cfgn r) (d_cfgp r) (d_cfgl r) (d_cfgt r) (d_cfgb r) (d_compat r) (d_compp r) (d_prof r).
Definition s_d_dmxi (r : decc) (v : Z) : decc := mkDec (d_num r) (d_type r) (d_etype r) (d_outch r) (d_elp r) (d_elem r) (d_plen r) (d_ppres r) (d_pbuf r) (d_preroll r) (d_hoa r) (d_hm r) (d_hmp r) (d_cicp r) (d_dmx r) (d_dmxp r) v (d_loudp r) (d_loudi r) (d_cfgn r) (d_cfgp r) (d_cfgl r) (d_cfgt r) (d_cfgb r) (d_compat r) (d_compp r) (d_prof r).
Definition s_d_loudp (r : decc) (v : Z) : decc := mkDec (d_num r) (d_type r) (d_etype r) (d_outch r) (d_elp r) (d_elem r) (d_plen r) (d_ppres r) (d_pbuf r) (d_preroll r) (d_hoa r) (d_hm r) (d_hmp r) (d_cicp r) (d_dmx r) (d_dmxp r) (d_dmxi r) v (d_loudi r) (d_cfgn r) (d_cfgp r) (d_cfgl r) (d_cfgt r) (d_cfgb r) (d_compat r) (d_compp r) (d_prof r).
Definition s_d_loudi (r : decc) (v : Z) : decc := mkDec (d_num r) (d_type r) (d_etype r) (d_outch r) (d_elp r) (d_elem r) (d_plen r) (d_ppres r) (d_pbuf r) (d_preroll r) (d_hoa r) (d_hm r) (d_hmp r) (d_cicp r) (d_dmx r) (d_dmxp r) (d_dmxi r) (d_loudp r) v (d_cfgn r) (d_cfgp r) (d_cfgl r) (d_cfgt r) (d_cfgb r) (d_compat r) (d_compp r) (d_prof r).
Definition s_d_cfgn (r : decc) (v : Z) : decc := mkDec (d_num r) (d_type r) (d_etype r) (d_outch r) (d_elp r) (d_elem r) (d_plen r) (d_ppres r) (d_pbuf r) (d_preroll r) (d_hoa r) (d_hm r) (d_hmp r) (d_cicp r) (d_dmx r) (d_dmxp r) (d_dmxi r) (d_loudp r) (d_loudi r) v (d_cfgp r) (d_cfgl r) (d_cfgt r) (d_cfgb r) (d_compat r) (d_compp r) (d_prof r).
Definition s_d_cfgp (r : decc) (v : list Z) : decc := mkDec (d_num r) (d_type r) (d_etype r) (d_outch r) (d_elp r) (d_elem r) (d_plen r) (d_ppres r) (d_pbuf r) (d_preroll r) (d_hoa r) (d_hm r) (d_hmp r) (d_cicp r) (d_dmx r) (d_dmxp r) (d_dmxi r) (d_loudp r) (d_loudi r) (d_cfgn r) v (d_cfgl r) (d_cfgt r) (d_cfgb r) (d_compat r) (d_compp r) (d_prof r).
Definition s_d_cfgl (r : decc) (v : list Z) : decc := mkDec (d_num r) (d_type r) (d_etype r) (d_outch r) (d_elp r) (d_elem r) (d_plen r) (d_ppres r) (d_pbuf r) (d_preroll r) (d_hoa r) (d_hm r) (d_hmp r) (d_cicp r) (d_dmx r) (d_dmxp r) (d_dmxi r) (d_loudp r) (d_loudi r) (d_cfgn r) (d_cfgp r) v (d_cfgt r) (d_cfgb r) (d_compat r) (d_compp r) (d_prof r).
Definition s_d_cfgt (r : decc) (v : list Z) : decc := mkDec (d_num r) (d_type r) (d_etype r) (d_outch r) (d_elp r) (d_elem r) (d_plen r) (d_ppres r) (d_pbuf r) (d_preroll r) (d_hoa r) (d_hm r) (d_hmp r) (d_cicp r) (d_dmx r) (d_dmxp r) (d_dmxi r) (d_loudp r) (d_loudi r) (d_cfgn r) (d_cfgp r) (d_cfgl r) v (d_cfgb r) (d_compat r) (d_compp r) (d_prof r).
Definition s_d_cfgb (r : decc) (v : list (list Z)) : decc := mkDec (d_num r) (d_type r) (d_etype r) (d_outch r) (d_elp r) (d_elem r) (d_plen r) (d_ppres r) (d_pbuf r) (d_preroll r) (d_hoa r) (d_hm r) (d_hmp r) (d_cicp r) (d_dmx r) (d_dmxp r) (d_dmxi r) (d_loudp r) (d_loudi r) (d_cfgn r) (d_cfgp r) (d_cfgl r) (d_cfgt r) v (d_compat r) (d_compp r) (d_prof r).
Definition s_d_compat (r : decc) (v : compat) : decc := mkDec (d_num r) (d_type r) (d_etype r) (d_outch r) (d_elp r) (d_elem r) (d_plen r) (d_ppres r) (d_pbuf r) (d_preroll r) (d_hoa r) (d_hm r) (d_hmp r) (d_cicp r) (d_dmx r) (d_dmxp r) (d_dmxi r) (d_loudp r) (d_loudi r) (d_cfgn r) (d_cfgp r) (d_cfgl r) (d_cfgt r) (d_cfgb r) v (d_compp r) (d_prof r).
Definition s_d_compp (r : decc) (v : Z) : decc := mkDec (d_num r) (d_type r) (d_etype r) (d_outch r) (d_elp r) (d_elem r) (d_plen r) (d_ppres r) (d_pbuf r) (d_preroll r) (d_hoa r) (d_hm r) (d_hmp r) (d_cicp r) (d_dmx r) (d_dmxp r) (d_dmxi r) (d_loudp r) (d_loudi r) (d_cfgn r) (d_cfgp r) (d_cfgl r) (d_cfgt r) (d_cfgb r) (d_compat r) v (d_prof r).
Definition s_d_prof (r : decc) (v : Z) : decc := mkDec (d_num r) (d_type r) (d_etype r) (d_outch r) (d_elp r) (d_elem r) (d_plen r) (d_ppres r) (d_pbuf r) (d_preroll r) (d_hoa r) (d_hm r) (d_hmp r) (d_cicp r) (d_dmx r) (d_dmxp r) (d_dmxi r) (d_loudp r) (d_loudi r) (d_cfgn r) (d_cfgp r) (d_cfgl r) (d_cfgt r) (d_cfgb r) (d_compat r) (d_compp r) v.

(** ia_usac_config_struct and the parts of ia_audio_specific_config_struct, the decoder
    state and the caller configuration written by mpegh3daConfig; [u_asi], [u_asip] are the
    audio scene. *)
Record ucfg := mkU {
  u_fidx : Z;
  u_freq : Z;
  u_sfi : Z;
  u_flen : Z;
  u_rdc : Z;
  u_ref : layout;
  u_nout : Z;
  u_sig : sigs;
  u_dec : decc;
  u_oam : oamc;
  u_enh : enhc;
  u_enhp : Z;
  u_prod : prodc;
  u_hoap : Z;
  u_oamp : Z;
  u_chp : Z;
  u_3b : Z;
  u_asi : asi;
  u_asip : Z }.
Definition s_u_fidx (r : ucfg) (v : Z) : ucfg := mkU v (u_freq r) (u_sfi r) (u_flen r) (u_rdc r) (u_ref r) (u_nout r) (u_sig r) (u_dec r) (u_oam r) (u_enh r) (u_enhp r) (u_prod r) (u_hoap r) (u_oamp r) (u_chp r) (u_3b r) (u_asi r) (u_asip r).
Definition s_u_freq (r : ucfg) (v : Z) : ucfg := mkU (u_fidx r) v (u_sfi r) (u_flen r) (u_rdc r) (u_ref r) (u_nout r) (u_sig r) (u_dec r) (u_oam r) (u_enh r) (u_enhp r) (u_prod r) (u_hoap r) (u_oamp r) (u_chp r) (u_3b r) (u_asi r) (u_asip r).
Definition s_u_sfi (r : ucfg) (v : Z) : ucfg := mkU (u_fidx r) (u_freq r) v (u_flen r) (u_rdc r) (u_ref r) (u_nout r) (u_sig r) (u_dec r) (u_oam r) (u_enh r) (u_enhp r) (u_prod r) (u_hoap r) (u_oamp r) (u_chp r) (u_3b r) (u_asi r) (u_asip r).
Definition s_u_flen (r : ucfg) (v : Z) : ucfg := mkU (u_fidx r) (u_freq r) (u_sfi r) v (u_rdc r) (u_ref r) (u_nout r) (u_sig r) (u_dec r) (u_oam r) (u_enh r) (u_enhp r) (u_prod r) (u_hoap r) (u_oamp r) (u_chp r) (u_3b r) (u_asi r) (u_asip r).
Definition s_u_rdc (r : ucfg) (v : Z) : ucfg := mkU (u_fidx r) (u_freq r) (u_sfi r) (u_flen r) v (u_ref r) (u_nout r) (u_sig r) (u_dec r) (u_oam r) (u_enh r) (u_enhp r) (u_prod r) (u_hoap r) (u_oamp r) (u_chp r) (u_3b r) (u_asi r) (u_asip r).
Definition s_u_ref (r : ucfg) (v : layout) : ucfg := mkU (u_fidx r) (u_freq r) (u_sfi r) (u_flen r) (u_rdc r) v (u_nout r) (u_sig r) (u_dec r) (u_oam r) (u_enh r) (u_enhp r) (u_prod r) (u_hoap r) (u_oamp r) (u_chp r) (u_3b r) (u_asi r) (u_asip r).
Definition s_u_nout (r : ucfg) (v : Z) : ucfg := mkU (u_fidx r) (u_freq r) (u_sfi r) (u_flen r) (u_rdc r) (u_ref r) v (u_sig r) (u_dec r) (u_oam r) (u_enh r) (u_enhp r) (u_prod r) (u_hoap r) (u_oamp r) (u_chp r) (u_3b r) (u_asi r) (u_asip r).
Definition s_u_sig (r : ucfg) (v : sigs) : ucfg := mkU (u_fidx r) (u_freq r) (u_sfi r) (u_flen r) (u_rdc r) (u_ref r) (u_nout r) v (u_dec r) (u_oam r) (u_enh r) (u_enhp r) (u_prod r) (u_hoap r) (u_oamp r) (u_chp r) (u_3b r) (u_asi r) (u_asip r).
Definition s_u_dec (r : ucfg) (v : decc) : ucfg := mkU (u_fidx r) (u_freq r) (u_sfi r) (u_flen r) (u_rdc r) (u_ref r) (u_nout r) (u_sig r) v (u_oam r) (u_enh r) (u_enhp r) (u_prod r) (u_hoap r) (u_oamp r) (u_chp r) (u_3b r) (u_asi r) (u_asip r).
Definition s_u_oam (r : ucfg) (v : oamc) : ucfg := mkU (u_fidx r) (u_freq r) (u_sfi r) (u_flen r) (u_rdc r) (u_ref r) (u_nout r) (u_sig r) (u_dec r) v (u_enh r) (u_enhp r) (u_prod r) (u_hoap r) (u_oamp r) (u_chp r) (u_3b r) (u_asi r) (u_asip r).
Definition s_u_enh (r : ucfg) (v : enhc) : ucfg := mkU (u_fidx r) (u_freq r) (u_sfi r) (u_flen r) (u_rdc r) (u_ref r) (u_nout r) (u_sig r) (u_dec r) (u_oam r) v (u_enhp r) (u_prod r) (u_hoap r) (u_oamp r) (u_chp r) (u_3b r) (u_asi r) (u_asip r).
Definition s_u_enhp (r : ucfg) (v : Z) : ucfg := mkU (u_fidx r) (u_freq r) (u_sfi r) (u_flen r) (u_rdc r) (u_ref r) (u_nout r) (u_sig r) (u_dec r) (u_oam r) (u_enh r) v (u_prod r) (u_hoap r) (u_oamp r) (u_chp r) (u_3b r) (u_asi r) (u_asip r).
Definition s_u_prod (r : ucfg) (v : prodc) : ucfg := mkU (u_fidx r) (u_freq r) (u_sfi r) (u_flen r) (u_rdc r) (u_ref r) (u_nout r) (u_sig r) (u_dec r) (u_oam r) (u_enh r) (u_enhp r) v (u_hoap r) (u_oamp r) (u_chp r) (u_3b r) (u_asi r) (u_asip r).
Definition s_u_hoap (r : ucfg) (v : Z) : ucfg := mkU (u_fidx r) (u_freq r) (u_sfi r) (u_flen r) (u_rdc r) (u_ref r) (u_nout r) (u_sig r) (u_dec r) (u_oam r) (u_enh r) (u_enhp r) (u_prod r) v (u_oamp r) (u_chp r) (u_3b r) (u_asi r) (u_asip r).
Definition s_u_oamp (r : ucfg) (v : Z) : ucfg := mkU (u_fidx r) (u_freq r) (u_sfi r) (u_flen r) (u_rdc r) (u_ref r) (u_nout r) (u_sig r) (u_dec r) (u_oam r) (u_enh r) (u_enhp r) (u_prod r) (u_hoap r) v (u_chp r) (u_3b r) (u_asi r) (u_asip r).
Definition s_u_chp (r : ucfg) (v : Z) : ucfg := mkU (u_fidx r) (u_freq r) (u_sfi r) (u_flen r) (u_rdc r) (u_ref r) (u_nout r) (u_sig r) (u_dec r) (u_oam r) (u_enh r) (u_enhp r) (u_prod r) (u_hoap r) (u_oamp r) v (u_3b r) (u_asi r) (u_asip r).
Definition s_u_3b (r : ucfg) (v : Z) : ucfg := mkU (u_fidx r) (u_freq r) (u_sfi r) (u_flen r) (u_rdc r) (u_ref r) (u_nout r) (u_sig r) (u_dec r) (u_oam r) (u_enh r) (u_enhp r) (u_prod r) (u_hoap r) (u_oamp r) (u_chp r) v (u_asi r) (u_asip r).
Definition s_u_asi (r : ucfg) (v : asi) : ucfg := mkU (u_fidx r) (u_freq r) (u_sfi r) (u_flen r) (u_rdc r) (u_ref r) (u_nout r) (u_sig r) (u_dec r) (u_oam r) (u_enh r) (u_enhp r) (u_prod r) (u_hoap r) (u_oamp r) (u_chp r) (u_3b r) v (u_asip r).
Definition s_u_asip (r : ucfg) (v : Z) : ucfg := mkU (u_fidx r) (u_freq r) (u_sfi r) (u_flen r) (u_rdc r) (u_ref r) (u_nout r) (u_sig r) (u_dec r) (u_oam r) (u_enh r) (u_enhp r) (u_prod r) (u_hoap r) (u_oamp r) (u_chp r) (u_3b r) (u_asi r) v.

(** ** Loudspeaker layouts *)

(** impeghd_azi_idx_degree and impeghd_elev_idx_degree, init_config.c:1788-1807, 1821-1840
    (same code). *)
Definition idx_degree (idx dir prec : Z) : Z :=
  let r := if prec =? 0 then idx * 5 else idx in
  if dir =? 1 then - r else r.

(** impeghd_spk_description, init_config.c:1076-1148.  The directions passed at 1107 and
    1135 are those left over from earlier use of the entry. *)
Definition spk_description (f : flex) (prec : Z) : prog (Z * flex) :=
  ic <- rd 1 ;;
  let f := s_f_cicp f ic in
  if negb (ic =? 0) then
    i <- rd 7 ;; Ret (0, s_f_idx f i)
  else
  elc <- rd 2 ;;
  let f := s_f_elc f elc in
  ' (e, f) <-
    (if elc =? 3 then
       a <- (if negb (prec =? 0) then rd 7 else rd 5) ;;
       let f := s_f_el f a in
       if (if negb (prec =? 0) then 90 else 18) <? a then Ret (E_EL_ANG, f) else
       if negb (idx_degree a (f_eldir f) prec =? 0) then
         d <- rd 1 ;;
         let f := s_f_eldir f d in
         Ret (0, if d =? 0 then f else s_f_el f (- a))
       else Ret (0, f)
     else Ret (0, f)) ;;
  if negb (e =? 0) then Ret (e, f) else
  a <- (if negb (prec =? 0) then rd 8 else rd 6) ;;
  let f := s_f_az f a in
  if (if negb (prec =? 0) then 180 else 36) <? a then Ret (E_AZ_ANG, f) else
  let deg := idx_degree a (f_azdir f) prec in
  f <- (if negb (deg =? 0) && negb (deg =? 180) then
          d <- rd 1 ;; Ret (s_f_azdir f d)
        else Ret f) ;;
  l <- rd 1 ;;
  Ret (0, s_f_lfe f l).

(** impeghd_flexispk_config, init_config.c:1162-1216: the loop from speaker [i].  The error
    code of the speaker description is ignored.  [ia_cicp_ls_geo_tbls] has 43 entries. *)
Fixpoint flex_loop (fuel : nat) (i n prec : Z) (arr : list flex) : prog (list flex) :=
  if n <=? i then Ret arr else
  match fuel with
  | O => Undef UFuel
  | S m =>
    f0 <- aget arr i ;;
    ' (_, f) <- spk_description f0 prec ;;
    let '(az, f) :=
      if f_cicp f =? 0 then
        let az := idx_degree (f_az f) (f_azdir f) prec in (az, s_f_az f az)
      else if (f_idx f <? 20) && negb (f_idx f =? 0) && negb (f_idx f =? 8) then
        (s_az (ls_geo (f_idx f)), f)
      else (0, f) in
    arr <- aset arr i f ;;
    if negb (az =? 0) && negb (az =? 180) then
      sy <- rd 1 ;;
      if negb (sy =? 0) then
        arr <- aset arr (i + 1) (s_f_azdir f (u16 (1 - f_azdir f))) ;;
        flex_loop m (i + 2) n prec arr
      else flex_loop m (i + 1) n prec arr
    else flex_loop m (i + 1) n prec arr
  end.

Definition flexispk (l : layout) (n : Z) : prog layout :=
  prec <- rd 1 ;;
  arr <- flex_loop (Z.to_nat n) 0 n prec (l_flex l) ;;
  Ret (s_l_flex (s_l_prec l prec) arr).

(** Loudspeaker index lists, init_config.c:1326-1334 and 1448-1455 (limit 42 in both). *)
Definition spk_list (l : layout) (n : Z) : prog (Z * layout) :=
  forE (Z.to_nat n) 0 (fun i l =>
    v <- rd 7 ;;
    a <- aset (l_spk l) (Z.of_nat i) v ;;
    let l := s_l_spk l a in
    if 42 <? v then Ret (E_CICP_SPK, l) else Ret (0, l)) l.

(** The reference layout, init_config.c:1295-1348. *)
Definition ref_layout (l : layout) : prog (Z * layout) :=
  t <- rd 2 ;;
  let l := s_l_type l t in
  if negb (t =? 0) then
    n <- read_escape 5 8 16 ;;
    if 24 <? n + 1 then Ret (E_MAX_SPKS, s_l_num l 0) else
    let l := s_l_num l (n + 1) in
    if t =? 2 then
      l <- flexispk l (l_num l) ;;
      let i := l_num l in
      if (i <=? 0) || (20 <? i) then Ret (E_CICP_LAYOUT, s_l_idx l 0)
      else Ret (0, s_l_idx l i)
    else if t =? 1 then spk_list l (l_num l)
    else Ret (0, l)
  else
    i <- rd 6 ;;
    if (i <=? 0) || (20 <? i) then Ret (E_CICP_LAYOUT, s_l_idx l 0)
    else Ret (0, s_l_idx l i).

(** The layout of a channel group, init_config.c:1427-1475.  [nch] is the number of
    channels so far, [refi] the reference layout index. *)
Definition group_layout (l : layout) (nch refi : Z) : prog (Z * layout) :=
  t <- rd 2 ;;
  let l := s_l_type l t in
  ' (e, l) <-
    (if negb (t =? 0) then
       n <- read_escape 5 8 16 ;;
       let l := s_l_num l (n + 1) in
       if 24 <? n + 1 then Ret (E_MAX_SPKS, l) else
       if t =? 2 then l <- flexispk l (l_num l) ;; Ret (0, l)
       else if t =? 1 then spk_list l (l_num l)
       else Ret (0, l)
     else
       i <- rd 6 ;;
       let l := s_l_idx l i in
       if 20 <? i then Ret (E_CICP_LAYOUT, l) else Ret (0, l)) ;;
  if negb (e =? 0) then Ret (e, l) else
  a <- aget num_ls_tbl (l_idx l) ;;
  b <- aget num_ls_tbl refi ;;
  if negb (a =? nch) && (b <? a) then Ret (E_NUM_CH, l) else Ret (0, l).

(** ** Extension elements *)

(** impeghd_prod_metadata_config, init_config.c:100-131. *)
Definition prod_config (p : prodc) (nobj nch : Z) : prog prodc :=
  h <- rd 1 ;;
  d <- (if h =? 0 then Ret 57 else rd 7) ;;
  o <- forP (Z.to_nat nobj) 0 (fun i l => v <- rd 1 ;; aset l (Z.of_nat i) v) (pr_obj p) ;;
  c <- forP (Z.to_nat nch) 0 (fun i l => v <- rd 1 ;; aset l (Z.of_nat i) v) (pr_head p) ;;
  Ret (mkPr h d o c).

(** impeghd_obj_md_cfg, impeghd_oam_dec.c:100-147. *)
Definition obj_md_cfg (c : oamc) (ccfl nobj : Z) : prog (Z * oamc) :=
  ld <- rd 1 ;;
  cl <- rd 1 ;;
  let c := s_oc_ccfl (s_oc_ld c ld) ccfl in
  ' (e, c) <-
    (if negb (cl =? 0) then Ret (0, s_oc_fl c ccfl)
     else v <- rd 6 ;;
       let fl := (v + 1) * 64 in
       if (fl <=? ccfl) && ((fl =? 256) || (fl =? 512) || (fl =? 1024))
       then Ret (0, s_oc_fl c fl) else Ret (E_OAM_FRAMELEN, c)) ;;
  if negb (e =? 0) then Ret (e, c) else
  sp <- rd 1 ;;
  c <- (if negb (sp =? 0) then
          ' (rel, any) <- forP (Z.to_nat nobj) 0 (fun i '(l, a) =>
              v <- rd 1 ;; l' <- aset l (Z.of_nat i) v ;; Ret (l', Z.lor a v)) (oc_rel c, 0) ;;
          Ret (s_oc_relp (s_oc_rel c rel) any)
        else Ret c) ;;
  dyn <- rd 1 ;;
  uni <- rd 1 ;;
  Ret (0, s_oc_uni (s_oc_dyn c dyn) uni).

(** impeghd_enh_obj_md_config, impeghd_oam_dec.c:162-235. *)
Definition enh_md_config (c : enhc) (nobj : Z) : prog (Z * enhc) :=
  df <- rd 1 ;;
  cd <- (if df =? 0 then Ret (en_cdiff c) else rd 1) ;;
  ex <- rd 1 ;;
  ' (ce, pre) <-
    (if ex =? 0 then Ret (0, en_pre c)
     else b <- rd 1 ;;
       if b =? 0 then Ret (b, en_pre c)
       else v <- rd 1 ;; Ret (b, repeat v (length (en_pre c)))) ;;
  cl <- rd 1 ;;
  th <- (if cl =? 0 then Ret (en_thr c) else rd 7) ;;
  ' (div, az, pre, nd, nd0, nn) <-
    forP (Z.to_nat nobj) 0 (fun i '(div, az, pre, nd, nd0, nn) =>
      h <- rd 1 ;;
      div' <- aset div (Z.of_nat i) h ;;
      ' (az', nd', nd0', nn') <-
        (if h =? 0 then Ret (az, nd, nd0, nn + 1)
         else a <- rd 6 ;; az' <- aset az (Z.of_nat i) a ;;
           Ret (az', nd + 1, (if 0 <? a then nd0 + 1 else nd0), nn)) ;;
      pre' <- (if ce =? 0 then v <- rd 1 ;; aset pre (Z.of_nat i) v else Ret pre) ;;
      Ret (div', az', pre', nd', nd0', nn')) (en_div c, en_az c, pre, 0, 0, 0) ;;
  let c' := mkEn df cd ex ce cl th div az pre nd in
  if 24 <? nd * 2 + nobj then Ret (E_OAM_NUM, c') else
  if 16 <? nn + 3 * nd0 then Ret (E_OAM_NUM, c') else Ret (0, c').

(** Comparison of the bits used with the declared length, init_config.c:245-254 and the
    same at 271-280, 292-301, 309-318.  [p] returns an error code and a state. *)
Definition framed_strict {S} (len : Z) (p : prog (Z * S)) : prog (Z * S) :=
  c0 <- avail ;;
  ' (e, s) <- p ;;
  if negb (e =? 0) then Ret (e, s) else
  c1 <- avail ;;
  if len * 8 <? c0 - c1 then Ret (E_FRAME, s)
  else if c0 - c1 <? len * 8 then skip (len * 8 - (c0 - c1)) ;;; Ret (0, s)
  else Ret (0, s).

(** Reading a fixed number of bytes into a buffer, init_config.c:340-343, 995-999. *)
Definition rd_bytes (n : Z) (buf : list Z) : prog (list Z) :=
  forP (Z.to_nat n) 0 (fun i b => v <- rd 8 ;; aset b (Z.of_nat i) v) buf.

Definition elem0 : elem := mkEl 0 0 0 0 0 0 0 0 [].

(** ia_core_coder_ext_element_config, init_config.c:194-372, for element [i].  At 366-367
    the reader's byte pointer and bit count are advanced directly, which is what
    skipping len * 8 bits does.  ccfl is 1024 (init_config.c:599).
    The counters num_aud_preroll and num_uni_drc are local and never exceed 1. *)
Definition ext_element (i : nat) (u : ucfg) : prog (Z * ucfg) :=
  let iz := Z.of_nat i in
  let d := u_dec u in
  ty <- read_escape 4 8 16 ;;
  et <- aset (d_etype d) iz ty ;;
  len <- read_escape 4 8 16 ;;
  if 1536 <=? len then Ret (E_FRAME, s_u_dec u (s_d_etype d et)) else
  pl <- aset (d_plen d) iz 0 ;;
  flag <- rd 1 ;;
  def <- (if flag =? 0 then Ret 0 else v <- read_escape 8 16 0 ;; Ret (u32 (v + 1))) ;;
  frag <- rd 1 ;;
  el <- aget (d_elem d) iz ;;
  els <- aset (d_elem d) iz (s_el_frag (s_el_def el def) frag) ;;
  let d := s_d_elem (s_d_plen (s_d_etype d et) pl) els in
  let u := s_u_dec u d in
  let nobj := q_obj (u_sig u) in
  if ty =? 14 then
    framed_strict len
      (p <- prod_config (u_prod u) (q_gobj (u_sig u)) (q_gch (u_sig u)) ;;
       Ret (0, s_u_prod u p))
  else if ty =? 13 then
    if 24 <? nobj then Ret (E_OAM_NUM, u) else
    ' (e, u') <-
      framed_strict len (' (e, c) <- enh_md_config (u_enh u) nobj ;; Ret (e, s_u_enh u c)) ;;
    if negb (e =? 0) then Ret (e, u') else Ret (0, s_u_enhp u' 1)
  else if ty =? 7 then
    pl <- aset (d_plen d) iz len ;;
    let d := s_d_plen d pl in
    let h := d_hoa d in
    framed_strict len
      (r <- fill_config (mkHoa (h_ntc h) 1024 (h_order h) (h_coef h) (h_screen h) (h_nfc h)
              (h_ref h) (h_minamb h) (h_minco h) (h_addl h) (h_single h) (h_cit h) (h_sim h)
              (h_cvv h) (h_mgc h) (h_fli h) (h_maxord h) (h_dob h) (h_do h) (h_maxco h)
              (h_maxadd h) (h_vqb h) (h_nvv h) (h_psd h) (h_pds h) (h_bps h) (h_psi h)
              (h_pst h) (h_fl h) (h_sit h) (h_aab h) (h_apb h) (h_napb h) (h_gcb h) (h_off h)
              (h_vvl h) (h_il h)) ;;
       match r with
       | Er e => Ret (e, s_u_dec u d)
       | Ok h' => Ret (0, s_u_dec u (s_d_hoa d h'))
       end)
  else if ty =? 5 then
    pl <- aset (d_plen d) iz len ;;
    let u := s_u_dec u (s_d_plen d pl) in
    framed_strict len
      (' (_, c) <- obj_md_cfg (u_oam u) 1024 nobj ;; Ret (0, s_u_oam u c))
  else if (ty =? 4) || (ty =? 9) then
    if negb (frag =? 0) then Ret (E_EXT_ELEM, u) else
    pl <- aset (d_plen d) iz len ;;
    let d := s_d_plen d pl in
    if (ty =? 9) && (len =? 0) then Ret (E_EXT_ELEM, s_u_dec u d) else
    b <- aget (d_pbuf d) iz ;;
    b' <- rd_bytes len b ;;
    bs <- aset (d_pbuf d) iz b' ;;
    Ret (0, s_u_dec u (s_d_pbuf d bs))
  else if ty =? 3 then
    if negb (iz =? 0) || negb (frag =? 0) || negb (flag =? 0) || negb (len =? 0)
    then Ret (E_EXT_ELEM, u) else Ret (0, s_u_dec u (s_d_preroll d 1))
  else if ty =? 0 then
    if negb (len =? 0) || negb (frag =? 0) then Ret (E_EXT_ELEM, u) else Ret (0, u)
  else
    c <- avail ;;
    if c / 8 <? len then Ret (E_FRAME, u) else skip (len * 8) ;;; Ret (0, u).

(** ** Decoder configuration *)

(** ia_core_coder_map_ele_to_channel, init_config.c:386-418: the new channel table and the
    index used.  Only the first 24 of the 50 entries are looked at. *)
Definition count_pass (l : list Z) (c : Z) : Z :=
  fold_left (fun c v => if v =? c then c + 1 else c) (firstn 24 l) c.
Definition next_channel (l : list Z) : Z := Nat.iter 24 (count_pass l) 0.
Fixpoint first_neg (l : list Z) (i : Z) : option Z :=
  match l with
  | [] => None
  | v :: t => if v <? 0 then Some i else first_neg t (i + 1)
  end.
Definition map_ele (l : list Z) (sidx sch : Z) : prog (list Z * Z) :=
  let c := next_channel l in
  let k := match first_neg (firstn 24 l) 0 with Some k => k | None => 0 end in
  l' <- aset l k (if sidx <=? 0 then c else c + sch + 1) ;;
  Ret (l', k).

(** The IGF part of an element, init_config.c:487-503 and 650-665; for a pair the
    last flag is read, otherwise it is set to 1. *)
Definition igf_config (igf : list Z) (enf : Z) (stereo : bool) : prog (list Z) :=
  if enf =? 0 then Ret igf else
  a <- rd 1 ;; b <- rd 1 ;; c <- rd 1 ;; d <- rd 1 ;; st <- rd 5 ;; sp <- rd 4 ;;
  i <- (if stereo then rd 1 else Ret 1) ;;
  Ret [a; b; c; d; st; sp; i].

(** Width of the shift channel field, init_config.c:443-475. *)
Definition shift_bits (total : Z) : Z :=
  let t := total - 1 in
  if total =? 0 then 1
  else if (8 <=? t) && (t <=? 15) then 4
  else if (4 <=? t) && (t <=? 7) then 3
  else if (2 <=? t) && (t <=? 3) then 2
  else 1.

(** ia_core_coder_cpe_config, init_config.c:437-544; qce_index is 0 after 507-510, so
    513-519 is never executed, and sbr_ratio_index is 0 (561). *)
Definition cpe_config (el : elem) (outch : list Z) (total : Z) : prog (Z * (elem * list Z)) :=
  tw <- rd 1 ;;
  let el := s_el_tw el tw in
  if negb (tw =? 0) then Ret (E_LC_PROFILE, (el, outch)) else
  lpd <- rd 1 ;; nf <- rd 1 ;; enf <- rd 1 ;;
  igf <- igf_config (el_igf el) enf true ;;
  let el := s_el_igf (s_el_enf (s_el_nf (s_el_lpd el lpd) nf) enf) igf in
  qce <- rd 2 ;;
  if negb (qce =? 0) then Ret (E_LC_PROFILE, (el, outch)) else
  ' (outch, k) <- map_ele outch 0 0 ;;
  v <- aget outch k ;;
  if v <? 0 then Ret (E_SHIFTED_CH, (el, outch)) else
  si <- rd 1 ;;
  sc <- (if 0 <? si then rd (shift_bits total) else Ret 0) ;;
  ' (outch, k) <- map_ele outch si sc ;;
  v <- aget outch k ;;
  if v <? sc then Ret (E_SHIFTED_CH, (el, outch)) else
  ls <- rd 1 ;;
  Ret (0, (s_el_lpds el ls, outch)).

(** One element of ia_core_coder_decoder_config, init_config.c:585-674. *)
Definition dec_element (i : nat) (u : ucfg) : prog (Z * ucfg) :=
  let iz := Z.of_nat i in
  ty <- rd 2 ;;
  tys <- aset (d_type (u_dec u)) iz ty ;;
  let u := s_u_dec u (s_d_type (u_dec u) tys) in
  let d := u_dec u in
  el <- aget (d_elem d) iz ;;
  if ty =? 3 then
    ' (e, u) <- ext_element i u ;;
    if negb (e =? 0) then Ret (e, u) else
    let d := u_dec u in
    pl <- aget (d_plen d) iz ;;
    pp <- aset (d_ppres d) iz (if pl <=? 0 then 0 else 1) ;;
    Ret (0, s_u_dec u (s_d_ppres d pp))
  else if ty =? 2 then
    els <- aset (d_elem d) iz (s_el_tw (s_el_nf (s_el_sci el 0) 0) 0) ;;
    ' (oc, _) <- map_ele (d_outch d) 0 0 ;;
    Ret (0, s_u_dec u (s_d_outch (s_d_elem d els) oc))
  else if ty =? 1 then
    ' (e, (el', oc)) <-
      cpe_config el (d_outch d) (q_hoa (u_sig u) + q_ch (u_sig u) + q_obj (u_sig u)) ;;
    els <- aset (d_elem d) iz el' ;;
    Ret (e, s_u_dec u (s_d_outch (s_d_elem d els) oc))
  else
    tw <- rd 1 ;;
    let el := s_el_tw el tw in
    if negb (tw =? 0) then
      els <- aset (d_elem d) iz el ;; Ret (E_LC_PROFILE, s_u_dec u (s_d_elem d els))
    else
    lpd <- rd 1 ;; nf <- rd 1 ;; enf <- rd 1 ;;
    igf <- igf_config (el_igf el) enf false ;;
    els <- aset (d_elem d) iz
             (s_el_sci (s_el_igf (s_el_enf (s_el_nf (s_el_lpd el lpd) nf) enf) igf) 0) ;;
    ' (oc, _) <- map_ele (d_outch d) 0 0 ;;
    Ret (0, s_u_dec u (s_d_outch (s_d_elem d els) oc)).

(** ia_core_coder_decoder_config, init_config.c:557-677. *)
Definition decoder_config (u : ucfg) : prog (Z * ucfg) :=
  let d := s_d_outch (u_dec u) (repeat (-1) (length (d_outch (u_dec u)))) in
  n <- read_escape 4 8 16 ;;
  let d := s_d_num (s_d_preroll d 0) (n + 1) in
  if 50 <? n + 1 then Ret (E_FRAME, s_u_dec u d) else
  elp <- rd 1 ;;
  forE (Z.to_nat (n + 1)) 0 dec_element (s_u_dec u (s_d_elp d elp)).

(** ** Configuration extensions *)

(** impeghd_sig_group_info, init_config.c:692-701. *)
Definition sig_group_info (g : sigs) : prog sigs :=
  ' (p, f) <- forP (Z.to_nat (q_num g + 1)) 0 (fun i '(p, f) =>
      a <- rd 3 ;; p' <- aset p (Z.of_nat i) a ;;
      b <- rd 1 ;; f' <- aset f (Z.of_nat i) b ;; Ret (p', f')) (q_prio g, q_fixed g) ;;
  Ret (s_q_fixed (s_q_prio g p) f).

(** One matrix of impeghd_parse_dmx_ext_config, init_config.c:777-806.  The last partial
    byte is shifted up (803-805).  The bytes are stored as WORD8 there and as their
    unsigned values here. *)
Definition dmx_one (l : nat) (m : dmat) : prog (Z * dmat) :=
  let lz := Z.of_nat l in
  t <- read_escape 1 4 4 ;;
  if 16 <=? t then Ret (E_GRP_IDS, m) else
  ng <- aset (dm_ngrp m) lz (t + 1) ;;
  g0 <- aget (dm_grp m) lz ;;
  g1 <- forP (Z.to_nat (t + 1)) 0 (fun i b => v <- rd 5 ;; aset b (Z.of_nat i) v) g0 ;;
  gs <- aset (dm_grp m) lz g1 ;;
  len <- read_escape 8 8 12 ;;
  ln <- aset (dm_len m) lz len ;;
  b0 <- aget (dm_bytes m) lz ;;
  b1 <- rd_bytes (len / 8) b0 ;;
  b2 <- (if len mod 8 =? 0 then Ret b1
         else v <- rd (len mod 8) ;; aset b1 (len / 8) (v * 2 ^ (8 - len mod 8))) ;;
  bs <- aset (dm_bytes m) lz b2 ;;
  Ret (0, s_dm_bytes (s_dm_len (s_dm_grp (s_dm_ngrp m ng) gs) ln) bs).

(** One entry of the downmix matrix configuration, init_config.c:757-828. *)
Definition dmx_entry (cicp : Z) (i : nat) (x : dmxc) : prog (Z * dmxc) :=
  id <- rd 7 ;;
  ty <- rd 2 ;;
  m0 <- aget (dx_mat x) (Z.of_nat i) ;;
  let put (m : dmat) (k : dmxc -> prog (Z * dmxc)) :=
    a <- aset (dx_mat x) (Z.of_nat i) m ;; k (s_dx_mat x a) in
  let m := s_dm_type (s_dm_id m0 id) ty in
  if (id =? 0) || (id =? 0x7F) then put m (fun x => Ret (E_DMX_ID, x)) else
  ' (e, m) <-
    (if ty =? 1 then
       lay <- rd 6 ;;
       t <- read_escape 1 3 0 ;;
       let m := s_dm_cnt (s_dm_lay m lay) (t + 1) in
       if 8 <? t + 1 then Ret (E_DMX_PER_ID, m) else
       forE (Z.to_nat (t + 1)) 0 dmx_one m
     else if ty =? 0 then lay <- rd 6 ;; Ret (0, s_dm_lay m lay)
     else Ret (E_DMX_TYPE, m)) ;;
  put m (fun x =>
    if negb (e =? 0) then Ret (e, x) else
    if 20 <? dm_lay m then Ret (E_CICP_LAYOUT, x) else
    Ret (0, if cicp =? dm_lay m then s_dx_id x id else x)).

(** impeghd_parse_dmx_ext_config, init_config.c:717-832. *)
Definition dmx_config (cicp : Z) (x : dmxc) : prog (Z * dmxc) :=
  t <- rd 2 ;;
  let x := s_dx_type x t in
  if t =? 3 then Ret (E_DMX_CONF_TYPE, x) else
  ' (e, x) <-
    (if (t =? 0) || (t =? 2) then
       p <- rd 1 ;;
       let x := s_dx_passive x p in
       ' (e, x) <-
         (if p =? 0 then
            a <- rd 3 ;;
            let x := s_dx_phase x a in
            if negb (a =? 0) then Ret (E_LC_PROFILE, x) else Ret (0, x)
          else Ret (0, x)) ;;
       if negb (e =? 0) then Ret (e, x) else
       im <- rd 1 ;; Ret (0, s_dx_imm x im)
     else Ret (0, x)) ;;
  if negb (e =? 0) then Ret (e, x) else
  if (t =? 1) || (t =? 2) then
    n <- rd 5 ;;
    let x := s_dx_cnt x n in
    if 6 <? n then Ret (E_DMX_ELEMS, x) else
    forE (Z.to_nat n) 0 (dmx_entry cicp) x
  else Ret (0, x).

(** memset of the downmix configuration, init_config.c:968. *)
Definition dmat0 : dmat :=
  mkDM 0 0 0 0 (repeat 0 8) (repeat (repeat 0 16) 8) (repeat 0 8) (repeat (repeat 0 256) 8).
Definition dmxc0 : dmxc := mkDx 0 0 0 0 0 0 (repeat dmat0 6).

(** impeghd_compatible_profile_level_set, init_config.c:845-880. *)
Definition compatible_set (c : compat) : prog compat :=
  n <- rd 4 ;;
  r <- rd 4 ;;
  ' (ind, lc, bp) <-
    forP (Z.to_nat (n + 1)) 0 (fun i '(ind, lc, bp) =>
      v <- rd 8 ;;
      let lc' := if (0x0B <=? v) && (v <=? 0x0F) then Z.min lc v else lc in
      let bp' := if (0x10 <=? v) && (v <=? 0x14) then Z.min bp v else bp in
      ind' <- aset ind (Z.of_nat i) v ;;
      Ret (ind', lc', bp')) (co_ind c, 0x0F, 0x14) ;;
  Ret (mkCo n r ind lc bp).

(** Skipping the unread rest of an extension without rejecting an over-read,
    init_config.c:958-963, 981-986 and 1020-1025. *)
Definition framed_lax {S} (len : Z) (p : prog (Z * S)) : prog (Z * S) :=
  c0 <- avail ;;
  ' (e, s) <- p ;;
  if negb (e =? 0) then Ret (e, s) else
  c1 <- avail ;;
  if c0 - c1 <? len * 8 then skip (len * 8 - (c0 - c1)) ;;; Ret (0, s) else Ret (0, s).

(** usac_cfg_ext_info_present / _len of extension [j]. *)
Definition mark_ext (d : decc) (j : Z) (len : Z) : prog decc :=
  p <- aset (d_cfgp d) j 1 ;;
  l <- aset (d_cfgl d) j len ;;
  Ret (s_d_cfgl (s_d_cfgp d p) l).

(** One extension, init_config.c:922-1059. *)
Definition config_ext_one (cicp : Z) (j : nat) (u : ucfg) : prog (Z * ucfg) :=
  let jz := Z.of_nat j in
  ty <- read_escape 4 8 16 ;;
  len <- read_escape 4 8 16 ;;
  tys <- aset (d_cfgt (u_dec u)) jz ty ;;
  let u := s_u_dec u (s_d_cfgt (u_dec u) tys) in
  let d := u_dec u in
  if 1536 <? len then Ret (E_CONF_EXT_LEN, u) else
  if ty =? 7 then
    c <- compatible_set (d_compat d) ;;
    Ret (0, s_u_dec u (s_d_compat (s_d_compp d 1) c))
  else if ty =? 4 then
    let d := s_d_hmp d 1 in
    if 21 <? d_cicp d then Ret (E_CICP_SPKR, s_u_dec u d) else
    framed_lax len
      (r <- hoa_matrix (h_coef (d_hoa d)) (d_cicp d) (d_hm d) ;;
       match r with
       | Er e => Ret (e, s_u_dec u d)
       | Ok m => d' <- mark_ext (s_d_hm d m) jz len ;; Ret (0, s_u_dec u d')
       end)
  else if ty =? 1 then
    let d := s_d_dmxi (s_d_dmxp d 1) jz in
    framed_lax len
      (' (e, x) <- dmx_config cicp dmxc0 ;;
       let d := s_d_dmx d x in
       if negb (e =? 0) then Ret (e, s_u_dec u d) else
       d' <- mark_ext d jz len ;; Ret (0, s_u_dec u d'))
  else if ty =? 2 then
    d <- mark_ext (s_d_loudi (s_d_loudp d 1) jz) jz len ;;
    b <- aget (d_cfgb d) jz ;;
    b' <- rd_bytes len b ;;
    bs <- aset (d_cfgb d) jz b' ;;
    Ret (0, s_u_dec u (s_d_cfgb d bs))
  else if ty =? 3 then
    if (0 <? a_ns (u_asi u)) && negb (d_elp d =? 1) then Ret (E_INIT, u) else
    let u := s_u_asip u 1 in
    framed_lax len
      (r <- asi_parse (u_asi u) ;;
       match r with Er e => Ret (e, u) | Ok a => Ret (0, s_u_asi u a) end)
  else if ty =? 6 then
    g <- sig_group_info (u_sig u) ;;
    Ret (0, s_u_sig u (s_q_info g 1))
  else if ty =? 0 then
    forE (Z.to_nat len) 0 (fun _ u =>
      v <- rd 8 ;; if negb (v =? 0xA5) then Ret (E_FILLBYTE, u) else Ret (0, u)) u
  else
    c <- avail ;;
    if c / 8 <? len then Ret (E_FRAME, u)
    else forP (Z.to_nat len) 0 (fun _ _ => skip 8) tt ;;; Ret (0, u).

(** ia_core_coder_config_extension, init_config.c:896-1062. *)
Definition config_extension (cicp : Z) (u : ucfg) : prog (Z * ucfg) :=
  n <- read_escape 2 4 8 ;;
  if 5 <? n + 1 then Ret (E_MAX_CONF_EXT, u) else
  let d := u_dec u in
  let d := s_d_cfgn (s_d_cfgl (s_d_cfgp (s_d_dmxp d 0) (repeat 0 (length (d_cfgp d))))
                       (repeat 0 (length (d_cfgl d)))) (n + 1) in
  forE (Z.to_nat (n + 1)) 0 (config_ext_one cicp) (s_u_dec u d).

(** ** Signals *)

(** One signal group, init_config.c:1373-1483.  The second component counts the channel
    layouts (audio_ch_layout_cntr), incremented for every channel group. *)
Definition sig_group (i : nat) (uc : ucfg * Z) : prog (Z * (ucfg * Z)) :=
  let (u, cn) := uc in
  let iz := Z.of_nat i in
  ty <- rd 3 ;;
  tys <- aset (q_type (u_sig u)) iz ty ;;
  ns <- read_escape 5 8 16 ;;
  nss <- aset (q_nsig (u_sig u)) iz (ns + 1) ;;
  let g := s_q_nsig (s_q_type (u_sig u) tys) nss in
  let u := s_u_sig u g in
  if ty =? 3 then
    if 24 <? ns + 1 then Ret (E_CHAN_GT_MAX, (u, cn)) else
    let g := s_q_hoa (s_q_ghoa g (q_ghoa g + 1)) (q_hoa g + (ns + 1)) in
    let h := d_hoa (u_dec u) in
    let h := mkHoa (q_hoa g) 1024 (h_order h) (h_coef h) (h_screen h) (h_nfc h)
              (h_ref h) (h_minamb h) (h_minco h) (h_addl h) (h_single h) (h_cit h) (h_sim h)
              (h_cvv h) (h_mgc h) (h_fli h) (h_maxord h) (h_dob h) (h_do h) (h_maxco h)
              (h_maxadd h) (h_vqb h) (h_nvv h) (h_psd h) (h_pds h) (h_bps h) (h_psi h)
              (h_pst h) (h_fl h) (h_sit h) (h_aab h) (h_apb h) (h_napb h) (h_gcb h) (h_off h)
              (h_vvl h) (h_il h) in
    Ret (0, (s_u_dec (s_u_sig u g) (s_d_hoa (u_dec u) h), cn))
  else if ty =? 2 then
    b <- rd 1 ;;
    (if negb (b =? 0) then skip 2 else Ret tt) ;;;
    Ret (0, (u, cn))
  else if ty =? 1 then
    if 24 <? ns + 1 then Ret (E_CHAN_GT_MAX, (u, cn)) else
    Ret (0, (s_u_sig u (s_q_gobj (s_q_obj g (q_obj g + (ns + 1))) (q_gobj g + 1)), cn))
  else if ty =? 0 then
    let g := s_q_ch (s_q_gch g (q_gch g + 1)) (q_ch g + (ns + 1)) in
    let u := s_u_nout (s_u_sig u g) (u_nout u + (ns + 1)) in
    if (24 <? q_ch g) || (24 <? u_nout u) then Ret (E_CHAN_GT_MAX, (u, cn)) else
    df <- rd 1 ;;
    dfs <- aset (q_differs g) iz df ;;
    let g := s_q_differs g dfs in
    if df =? 1 then
      l <- aget (q_lay g) cn ;;
      ' (e, l) <- group_layout l (q_ch g) (l_idx (u_ref u)) ;;
      ls <- aset (q_lay g) cn l ;;
      Ret (e, (s_u_sig u (s_q_lay g ls), cn + 1))
    else Ret (0, (s_u_sig u g, cn + 1))
  else Ret (E_SIG_TYPE, (u, cn)).

(** The signal groups, init_config.c:1350-1518.  num_ch_based_groups,
    num_obj_based_groups and num_hoa_based_groups are counted in locals there and stored
    afterwards; here they are counted in the state, starting from 0, so after a rejected
    configuration these three counts are not the stored ones.  1486-1493 compares
    neighbouring group types, which is the same as comparing all with the first. *)
Definition signals (u : ucfg) (user_cicp : Z) : prog (Z * ucfg) :=
  n <- rd 5 ;;
  let g := u_sig u in
  if 16 <? n + 1 then Ret (E_MAX_SIGGROUPS, s_u_sig u (s_q_num g 1)) else
  let g := s_q_gch (s_q_gobj (s_q_ghoa (s_q_ch (s_q_obj (s_q_hoa (s_q_num g (n + 1)) 0) 0) 0)
             0) 0) 0 in
  let u := s_u_nout (s_u_sig u g) 0 in
  if (l_type (u_ref u) =? 3) && negb (n + 1 =? 1) then Ret (E_INIT, u) else
  ' (e, (u, _)) <- forE (Z.to_nat (n + 1)) 0 sig_group (u, 0) ;;
  if negb (e =? 0) then Ret (e, u) else
  let g := u_sig u in
  let tys := firstn (Z.to_nat (n + 1)) (q_type g) in
  if (1 <? n + 1) && (u_rdc u =? 0)
     && negb (forallb (fun t => t =? nth 0 tys 0) tys) then Ret (E_RECV_DELAY, u) else
  let fce := if (q_gch g <? 1) || (user_cicp =? 0) then 0 else 1 in
  let u := s_u_sig u (s_q_fce g fce) in
  let u := if 0 <? q_ghoa g then s_u_hoap u 1 else u in
  let u := if 0 <? q_gobj g then s_u_oamp u 1 else u in
  let u := if 0 <? q_gch g then s_u_chp u 1 else u in
  Ret (0, u).

(** The element restrictions for more than 16 channels, init_config.c:1541-1569. *)
Definition elem_allowed (d : decc) (i : nat) : bool :=
  let t := nth i (d_type d) 0xFF in
  let el := nth i (d_elem d) elem0 in
  if t =? 0 then (el_nf el =? 0) && (el_enf el =? 0)
  else if t =? 3 then negb (nth i (d_etype d) 0 =? 9)
  else false.

(** ** The profile limits, init_config.c:1624-1688: the profile level used and whether
    the configuration is accepted. *)
Definition bp_supported (c : compat) : bool := (co_bp c <=? 0x12) && (0x10 <=? co_bp c).
Definition profile_used (prof : Z) (compp : Z) (c : compat) : Z :=
  if compp =? 0 then prof
  else if bp_supported c then co_bp c
  else if (co_lc c <=? 0x0D) && (0x0B <=? co_lc c) then co_lc c
  else prof.

Definition profile_check (p core ref gch ghoa : Z) : Z :=
  if (p =? 0x0B) || (p =? 0x10) then
    if (5 <? core) || (5 <? ref) then E_CHAN_GT_MAX else 0
  else if (p =? 0x0C) || (p =? 0x11) then
    if (9 <? core) || (9 <? ref) then E_CHAN_GT_MAX else 0
  else if (p =? 0x12) || (p =? 0x0D) then
    if (24 <? core) || (24 <? ref)
       || ((16 <? core) && (negb (ghoa =? 0) || negb (gch =? 0)))
       || ((16 <? ref) && (negb (ghoa =? 0) || negb (gch =? 0)))
    then E_CHAN_GT_MAX else 0
  else E_PROFILE.

(** ia_core_coder_sample_freq_idx_table, ia_core_coder_rom.c:3427-3428; the search loop of
    init_config.c:1274-1285 (index 0 when nothing matches). *)
Definition sample_freq_idx_tbl : list Z :=
  [-1; -1; -1; 48000; 44100; 32000; 24000; 22050; 16000; 14700; 29400; -1; -1; -1; -1; -1; 0].
Fixpoint find_idx (l : list Z) (v i : Z) : Z :=
  match l with
  | [] => 0
  | x :: t => if x =? v then i else find_idx t v (i + 1)
  end.

(** ia_core_coder_mpegh_3da_config, init_config.c:1230-1695.  [user_cicp] is the output
    layout the caller configured (p_config->ui_cicp_layout_idx). *)
Definition mpegh_3da_config (user_cicp : Z) (u : ucfg) : prog (Z * ucfg) :=
  let u := s_u_3b u 0 in
  prof <- rd 8 ;;
  fi <- rd 5 ;;
  let u := s_u_fidx u fi in
  if negb (fi =? 31) && (8 <? fi) then Ret (E_SAMP_FREQ, u) else
  fr <- (if negb (fi =? 31) then aget sampling_rate_tbl fi else rd 24) ;;
  let u := s_u_freq u fr in
  if (48000 <? fr) || (fr =? 0) then Ret (E_SAMP_FREQ, u) else
  let u := s_u_sfi u (find_idx sample_freq_idx_tbl fr 0) in
  fl <- rd 3 ;;
  let u := s_u_flen u fl in
  if 4 <? fl then Ret (E_FRAMELEN_IDX, u) else
  skip 1 ;;;
  rdc <- rd 1 ;;
  let u := s_u_rdc u rdc in
  ' (e, l) <- ref_layout (u_ref u) ;;
  let u := s_u_ref u l in
  if negb (e =? 0) then Ret (e, u) else
  ' (e, u) <- signals u user_cicp ;;
  if negb (e =? 0) then Ret (e, u) else
  let g := u_sig u in
  let core := q_hoa g + q_obj g + q_ch g in
  ref <- (if l_type (u_ref u) =? 0 then aget num_ls_tbl (l_idx (u_ref u))
          else Ret (l_num (u_ref u))) ;;
  ' (e, u) <- decoder_config u ;;
  if negb (e =? 0) then Ret (e, u) else
  if ((16 <? core) || (16 <? ref))
     && negb (forallb (elem_allowed (u_dec u)) (seq 0 (Z.to_nat (d_num (u_dec u)))))
  then Ret (E_PROFILE_CONFIG, u) else
  ext <- rd 1 ;;
  ' (e, u) <-
    (if negb (ext =? 0) then
       let cicp := if negb (user_cicp =? 0) then user_cicp else l_idx (u_ref u) in
       if (cicp <? 0) || (20 <? cicp) then Ret (E_CICP_LAYOUT, u) else
       ' (e, u) <- config_extension cicp (s_u_dec u (s_d_cicp (u_dec u) cicp)) ;;
       if negb (e =? 0) then Ret (e, u) else
       let d := u_dec u in
       let fce := if (cicp =? l_idx (u_ref u)) || (d_dmxp d =? 0) || (d_hmp d =? 1)
                  then 0 else 1 in
       nl <- aget num_ls_tbl cicp ;;
       let fce := if negb (u_nout u =? nl) && negb (d_hmp d =? 1) && negb (u_nout u =? 0)
                     && negb (cicp =? 0) then 1 else fce in
       Ret (0, s_u_sig u (s_q_fce (u_sig u) fce))
     else if 1 <? q_gch (u_sig u) then Ret (0, s_u_sig u (s_q_fce (u_sig u) 1))
     else Ret (0, u)) ;;
  if negb (e =? 0) then Ret (e, u) else
  if prof <? 0x0B then Ret (E_PROFILE, u) else
  let d := u_dec u in
  let p := profile_used prof (d_compp d) (d_compat d) in
  let u := if negb (d_compp d =? 0) && bp_supported (d_compat d) && (16 <? core)
           then s_u_3b u 1 else u in
  let e := profile_check p core ref (q_gch g) (q_ghoa g) in
  if negb (e =? 0) then Ret (e, u) else
  let u := if (0x10 <=? p) && (p <=? 0x12) && (16 <? core) then s_u_3b u 0 else u in
  Ret (0, s_u_dec u (s_d_prof d p)).
