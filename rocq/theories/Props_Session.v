(** * Property theorems for the call protocol of the API *)
From Coq Require Import ZArith List Lia Bool.
From Verif Require Import Bits BitBuf Prog Frame Asi Mhas Config Spec_Mhas Spec_Asi Spec_Config Session Spec_Session Lem_Session Lem_SessionInv Lem_SessionPkt
  Lem_ConfigProps Lem_MhasProps Lem_SessionWit.
Import ListNotations.
Open Scope Z_scope.

(** C21: as long as no initialisation call has reported completion, every execute call is
    refused, whatever the history. *)
Theorem C21_refused_before_init_partial cs o rs s o' e sd bs :
  o_done o = false -> binaural_fine cs -> history cs created o = Done (rs, s, o') -> never_done rs ->
  exists s2 o2, api_execute e sd bs s o' = Done (E_NOT_INIT, s2, o2) /\ o_cons o2 = 1 /\ o_done o2 = false /\
    o_bytes o2 = o_bytes o' /\ s2 = w_cons s 1.
Proof. exact (call_order cs o rs s o' e sd bs). Qed.
Print Assumptions C21_refused_before_init_partial.
Example C21_case : exists rs s o', history [Init env1 plain (firstn 3 (packet 1 good)); Execute env1 NoInfo [1]] created out0 = Done (rs, s, o')
  /\ never_done rs /\ length rs = 2%nat.
Proof.
  do 3 eexists. split; [vm_compute; reflexivity|]. split; [repeat constructor|reflexivity].
Qed.

(** C21: an initialisation that failed in the binaural set-up reported neither success nor
    completion, and the decoder decodes all the same. *)
Theorem C21_binaural_refuted : exists cs e bs rs s o' s2 o2,
  history cs created out0 = Done (rs, s, o') /\ never_done rs /\ Forall (fun r => fatal (fst r) = true) rs /\
  api_execute e NoInfo bs s o' = Done (0, s2, o2) /\ o_cons o2 = 5.
Proof.
  exists [Init env1 bin_fails (packet 1 good)], env1, (packet 2 [1; 2; 3]). do 5 eexists.
  split; [vm_compute; reflexivity|]. split; [repeat constructor|]. split; [repeat constructor|].
  split; [vm_compute; reflexivity|]. reflexivity.
Qed.
Print Assumptions C21_binaural_refuted.

(** C21: an initialisation call that returns a fatal error can report completion. *)
Theorem C21_error_but_done_refuted : exists cs rs s o',
  history cs created out0 = Done (rs, s, o') /\ map fst rs = [E_ASI_GROUPS] /\ fatal E_ASI_GROUPS = true /\ o_done o' = true.
Proof. exists [Init env1 groups_fail (packet 1 good)]. do 3 eexists. split; [vm_compute; reflexivity|]. repeat split. Qed.
Print Assumptions C21_error_but_done_refuted.

(** C22: bytes reported by an initialisation call that completes. *)
Theorem C22_init_partial e a bs s o c s' o' : env_ok e -> packaged e -> s_init s = false -> s_fc s = 0 -> o_done o = false ->
  api_init e a bs s o = Done (c, s', o') -> o_done o' = true -> 1 <= o_cons o' <= zlen bs /\ s_freq s' <> 0 /\ s_init s' = true.
Proof. exact (init_range e a bs s o c s' o'). Qed.
Print Assumptions C22_init_partial.
Theorem C22_init_more_partial e bs s o s' o' : s_init s = false -> s_fc s = 0 -> env_ok e -> e_zero e <> I_INPUT ->
  api_init e plain bs s o = Done (I_INPUT, s', o') -> o_cons o' = zlen bs /\ o_done o' = false /\ 1 <= zlen bs.
Proof. exact (init_more e bs s o s' o'). Qed.
Print Assumptions C22_init_more_partial.
Example C22_case : env_ok env1 /\ packaged env1 /\ exists s o', api_init env1 plain (packet 1 good) created out0 = Done (0, s, o') /\ o_done o' = true /\
  o_cons o' = 9.
Proof. split; [apply env1_ok|]. split; [left; reflexivity|]. do 2 eexists. split; [vm_compute; reflexivity|]. split; reflexivity. Qed.

(** C22: bytes reported by an execute call on a non-empty input. *)
Theorem C22_execute_partial e sd bs s o c s' o' : env_ok e -> packaged e -> raw_ok e -> au_ok e (zlen bs) -> e_chan e = true ->
  1 <= zlen bs -> s_fc s <> 0 -> s_init s = true -> sd = NoInfo \/ sd = Parsed ->
  api_execute e sd bs s o = Done (c, s', o') ->
  in_range (zlen bs) (o_cons o') /\ (c <> 0 -> 1 <= o_cons o') /\ (o_cons o' = 0 -> s_flush s' = true).
Proof. exact (execute_range e sd bs s o c s' o'). Qed.
Print Assumptions C22_execute_partial.
Example C22_case2 : exists s1 o1 s2 o2, api_init env1 plain (packet 1 good) created out0 = Done (0, s1, o1) /\ s_fc s1 <> 0 /\ s_init s1 = true /\
  au_ok env1 (zlen (packet 2 [1; 2; 3])) /\ api_execute env1 NoInfo (packet 2 [1; 2; 3]) s1 o1 = Done (0, s2, o2) /\ o_cons o2 = 5.
Proof.
  do 4 eexists. split; [vm_compute; reflexivity|]. split; [vm_compute; discriminate|]. split; [reflexivity|].
  split; [vm_compute; split; [discriminate|reflexivity]|]. split; [vm_compute; reflexivity|reflexivity].
Qed.

(** C22: an access unit before the configuration: the call reports the length of the payload,
    without the header in front of it, and whether or not it was supplied. *)
Theorem C22_init_frame_refuted e bs lb len rest s o : packet_at bs FRAME lb len rest -> e_mhas e = true -> e_raw e = false ->
  s_hdr s = false -> s_freq s = 0 ->
  exists s', api_init e plain bs s o = Done (E_NO_CONFIG, s', mkO (if len =? 0 then 1 else len) false (o_bytes o)).
Proof. exact (init_frame e bs lb len rest s o). Qed.
Print Assumptions C22_init_frame_refuted.
Theorem C22_beyond_input_refuted : exists bs s o', api_init env1 plain bs created out0 = Done (E_NO_CONFIG, s, o') /\
  zlen bs = 4 /\ o_cons o' = 100.
Proof. exists (firstn 4 (packet 2 (repeat 7 100))). do 2 eexists. split; [vm_compute; reflexivity|]. split; reflexivity. Qed.
Print Assumptions C22_beyond_input_refuted.

(** C22: with no input at all both calls report one byte. *)
Theorem C22_empty_init_refuted e s o : exists s' o', api_init e plain [] s o = Done (0, s', o') /\ o_cons o' = 1.
Proof. exact (empty_init e s o). Qed.
Print Assumptions C22_empty_init_refuted.
Theorem C22_empty_execute_refuted e s o : e_raw e = false -> e_chan e = true -> s_init s = true -> s_fc s <> 0 -> s_nch s <= MAX_CH ->
  exists s' o', api_execute e NoInfo [] s o = Done (X_INPUT, s', o') /\ o_cons o' = 1.
Proof. exact (empty_execute e s o). Qed.
Print Assumptions C22_empty_execute_refuted.

(** C22: after a failed restart a call with one byte of input reports two. *)
Theorem C22_stale_refuted : exists cs e rs s o' s2 o2,
  history cs created out0 = Done (rs, s, o') /\ api_execute e NoInfo [0] s o' = Done (E_CHAN_CONFIG, s2, o2) /\ o_cons o2 = 2.
Proof.
  exists [Init env1 plain (packet 1 good); Execute (env0 false false true) NoInfo (packet 1 other)], (env0 false false false). do 5 eexists.
  split; [vm_compute; reflexivity|]. split; [vm_compute; reflexivity|reflexivity].
Qed.
Print Assumptions C22_stale_refuted.

(** C22: a call can succeed without consuming a byte. *)
Theorem C22_stall_refuted : exists cs e bs rs s o' s2 o2,
  history cs created out0 = Done (rs, s, o') /\ api_execute e NoInfo bs s o' = Done (0, s2, o2) /\ o_cons o2 = 0 /\ 1 <= zlen bs.
Proof.
  exists [Init env1 plain (packet 1 good)], env1, (packet 1 hoa7). do 5 eexists.
  split; [vm_compute; reflexivity|]. split; [vm_compute; reflexivity|]. split; [reflexivity|]. vm_compute. discriminate.
Qed.
Print Assumptions C22_stall_refuted.

(** C79: a decoder that once read a sampling frequency without completing initialisation is
    dead: whatever calls follow, no initialisation completes and no access unit is decoded. *)
Theorem C79_dead_decoder_refuted cs s o : stuck s -> o_done o = false ->
  exists rs s' o', history cs s o = Done (rs, s', o') /\ stuck s' /\ never_done rs /\
    Forall2 (fun c r => is_execute c = true -> fst r = E_NOT_INIT /\ o_bytes (snd r) = o_bytes o) cs rs.
Proof. exact (stuck_forever cs s o). Qed.
Print Assumptions C79_dead_decoder_refuted.
(** An input without packets gets there with the first configuration that is rejected or cut
    short after its sampling frequency. *)
Theorem C79_cut_short_refuted e bs s o : e_raw e = true -> 1 <= zlen bs -> s_init s = false -> s_hdr s = false -> s_freq s = 0 ->
  o_done o = false -> announces (fresh bs) ->
  (forall u b', exec (mpegh_3da_config (e_user e) (e_cfg e)) (fresh bs) <> Done ((0, u), b')) ->
  (forall r, exec (mpegh_3da_config (e_user e) (e_cfg e)) (fresh bs) <> UB r) ->
  exists c s' o', api_init e plain bs s o = Done (c, s', o') /\ stuck s' /\ o_done o' = false.
Proof. exact (raw_dies e bs s o). Qed.
Print Assumptions C79_cut_short_refuted.
(** An input in packets gets there in two calls with a growing part of a valid packet; the
    whole packet no longer helps. *)
Theorem C79_growing_input_refuted : exists rs s o',
  history [Init env1 plain (firstn 5 (packet 1 good)); Init env1 plain (firstn 6 (packet 1 good))] created out0 = Done (rs, s, o') /\
  map fst rs = [I_INPUT; I_INPUT] /\ stuck s /\ o_done o' = false /\
  exists s2 o2, api_init env1 plain (packet 1 good) created out0 = Done (0, s2, o2) /\ o_done o2 = true.
Proof.
  do 3 eexists. split; [vm_compute; reflexivity|]. split; [reflexivity|]. split; [split; [reflexivity|left; vm_compute; discriminate]|].
  split; [reflexivity|]. do 2 eexists. split; [vm_compute; reflexivity|reflexivity].
Qed.
Print Assumptions C79_growing_input_refuted.
Example C79_case : announces (fresh (firstn 3 good)) /\
  exists c, exec (mpegh_3da_config 0 config_zero) (fresh (firstn 3 good)) = Jmp c.
Proof. split; [vm_compute; discriminate|]. eexists. vm_compute. reflexivity. Qed.

(** C80: the first configuration packet is copied into an array of 768 bytes whatever its
    length. *)
Theorem C80_oversized_refuted e bs pl s o : config_packet bs pl -> MAX_CFG < zlen pl -> e_mhas e = true -> e_raw e = false ->
  s_plen s = 0 -> s_hdr s = false -> s_freq s = 0 -> api_init e plain bs s o = UB UOob.
Proof. exact (oversized_init e bs pl s o). Qed.
Print Assumptions C80_oversized_refuted.
Example C80_case : exists bs, config_packet bs (repeat 0 769).
Proof.
  exists (packet 1 (repeat 0 769)). split; [apply Forall_forall; intros x H; apply repeat_spec in H; subst; unfold is_byte; lia|].
  exists 1, []. unfold packet_at.
  split; [apply Forall_forall; intros x H; unfold packet in H; apply in_app_or in H; destruct H as [H|H];
    [vm_compute in H; unfold is_byte; intuition lia|apply repeat_spec in H; subst; unfold is_byte; lia]|].
  split; [vm_compute; repeat split; discriminate|]. split; [lia|]. vm_compute. reflexivity.
Qed.

(** C83: a complete configuration packet in the stream restarts the decoder exactly when its
    bytes differ from the kept configuration, and becomes the kept one. *)
Theorem C83_restart_iff_changed e bs pl s o sd c s' o' :
  config_packet bs pl -> 0 < zlen pl <= MAX_CFG -> accepts e -> e_raw e = false ->
  s_init s = true -> s_fc s <> 0 -> kept_ok s -> s_nch s <= MAX_CH -> sd = NoInfo \/ sd = Parsed ->
  api_execute e sd bs s o = Done (c, s', o') ->
  (c <> X_INPUT -> (s_flush s' = true <-> kept s <> pl)) /\ kept s' = pl.
Proof. exact (restart_iff e bs pl s o sd c s' o'). Qed.
Print Assumptions C83_restart_iff_changed.
(** The first complete configuration packet is kept. *)
Theorem C83_first_kept e bs pl s o c s' o' : config_packet bs pl -> 0 < zlen pl <= MAX_CFG -> e_mhas e = true -> e_raw e = false ->
  s_plen s = 0 -> s_hdr s = false -> s_freq s = 0 -> s_fc s = 0 -> api_init e plain bs s o = Done (c, s', o') ->
  kept s' = pl /\ kept_ok s'.
Proof. exact (init_keeps e bs pl s o c s' o'). Qed.
Print Assumptions C83_first_kept.
(** If the first call saw only part of the packet, the kept bytes are wrong for good: the same
    configuration repeated in the stream restarts the decoder. *)
Theorem C83_partial_copy_refuted : exists rs s o' s2 o2,
  history [Init env1 plain (firstn 3 (packet 1 good)); Init env1 plain (packet 1 good)] created out0 = Done (rs, s, o') /\
  o_done o' = true /\ api_execute env1 NoInfo (packet 1 good) s o' = Done (0, s2, o2) /\ s_flush s2 = true.
Proof.
  do 5 eexists. split; [vm_compute; reflexivity|]. split; [reflexivity|]. split; [vm_compute; reflexivity|reflexivity].
Qed.
Print Assumptions C83_partial_copy_refuted.
Example C83_case : config_packet (packet 1 good) good /\ accepts env1.
Proof.
  split; [|repeat split; discriminate]. split; [vm_compute; repeat constructor; discriminate|]. exists 1, []. unfold packet_at.
  split; [vm_compute; repeat constructor; discriminate|]. split; [vm_compute; repeat split; discriminate|]. split; [lia|]. vm_compute. reflexivity.
Qed.

(** C84: a configuration rejected with a fatal code is reported; one rejected with a non-fatal
    code is reported as success, with one byte consumed. *)
Theorem C84_rejection_refuted e bs s o c u b' : e_raw e = true -> 1 <= zlen bs -> s_init s = false -> s_hdr s = false -> s_freq s = 0 ->
  exec (mpegh_3da_config (e_user e) (e_cfg e)) (fresh bs) = Done ((c, u), b') -> c <> 0 -> c <> X_INPUT ->
  exists s' o', api_init e plain bs s o = Done (if fatal c then c else 0, s', o') /\ o_done o' = false /\
    (fatal c = false -> o_cons o' = 1).
Proof. exact (raw_rejected e bs s o c u b'). Qed.
Print Assumptions C84_rejection_refuted.
Example C84_case : exists u b', exec (mpegh_3da_config 0 config_zero) (fresh hoa7) = Done ((0x1201, u), b').
Proof. apply hoa7_code. Qed.
