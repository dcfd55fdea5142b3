(** * Properties C24-C26 and C67-C72: object metadata

    Each theorem restates the property of properties.jsonl; proofs are in the Lem_Oam*
    files.  [pw] stands for the three power functions of the C library (radius, gain and
    spread depth), about which nothing is assumed; [zero_state n] is the decoder state after
    initialisation with [n] objects; [history] decodes a list of payloads one after the
    other. *)

From Coq Require Import ZArith List Lia Bool SpecFloat.
From Verif Require Import Bits BitBuf Prog Frame Config Spec_Config F32 Oam Spec_Oam Spec_OamEnh Lem_OamSafe Lem_OamRT2
  Lem_OamFrame Lem_OamDyn Lem_OamHist Lem_OamEnh Lem_OamEnhRT Lem_OamRend Lem_OamFin.
Import ListNotations.
Open Scope Z_scope.

(** C24 is false: the azimuth of the second of two sub-frames is passed on as 190.5 degrees,
    and the renderer uses it. *)
Theorem C24_oam_range_refuted : forall pw, exists c d st s v,
  exec (oam_payload pw c 1024 (zero_state 1)) (fresh d) = Done ((0, st), s) /\
  render_slots 2 true 0 (firstn 2 (o_pres st)) = [1; 2] /\ nth_error (d_az (o_dsc st)) 1 = Some v /\
  ~ between (lit (-180) 1) (lit 180 1) v.
Proof. exact far_az. Qed.
Print Assumptions C24_oam_range_refuted.

(** C24 for the first sub-frame: after any sequence of payloads, valid or not, the values of
    all objects are in range, unless no payload was ever decoded successfully.  Missing: the
    further sub-frames (refuted above), sequences of 2^21 payloads (C69). *)
Theorem C24_oam_range_partial : forall pw c n ds st', 0 <= n <= 24 -> Forall are_bytes ds -> Z.of_nat (length ds) < 2 ^ 21 - 1 ->
  history pw c (zero_state n) ds = Done st' -> in_range c n (o_dsc st') \/ o_dsc st' = o_dsc (zero_state n).
Proof. exact history_range. Qed.
Print Assumptions C24_oam_range_partial.
Example C24_case : exists st', history (mkPw of_int of_int of_int) (mkOC 1024 1024 1 0 1 [] 0) (zero_state 1) [[0xFF; 0xFF; 0xFF; 0xFF; 0xFF; 0xFF]] = Done st' /\
  o_dsc st' <> o_dsc (zero_state 1).
Proof. eexists. split; [vm_compute; reflexivity|]. intros H. apply (f_equal d_az) in H. vm_compute in H. discriminate. Qed.

(** C25 is false: a uniform spread sent once for all objects in the second sub-frame is
    lost. *)
Theorem C25_oam_intra_refuted : forall pw, exists c fs st s,
  Forall (fun f => match f with None => True | Some (m, os) => length os = 2%nat /\ Forall legal_obj os /\ fair_modes true false m os end) fs /\
  oc_fl c = 512 /\ oc_ld c = 1 /\ oc_uni c = 1 /\ oc_dyn c = 0 /\ length fs = 2%nat /\
  exec (oam_payload pw c 1024 (zero_state 2)) (fresh (pack (concat (map (enc_frame true false) fs)))) = Done ((0, st), s) /\
  ~ shown true false 2 0 fs (o_raw st).
Proof. exact lost_spread. Qed.
Print Assumptions C25_oam_intra_refuted.

(** C25, one metadata frame per access unit: every object comes out as it was sent, and is
    placed where the standard says. *)
Theorem C25_oam_intra_partial : forall pw c uni dyn m os st s rest,
  wf s -> rest_bits s = true :: enc_intra uni dyn m os ++ rest ->
  oc_ld c <> 0 -> oc_fl c = 1024 -> oc_uni c = flag uni -> oc_dyn c = flag dyn ->
  o_n st = Z.of_nat (length os) -> (0 < length os <= 24)%nat -> sized (2 ^ 31 - 1024) st ->
  Forall legal_obj os -> fair_modes uni dyn m os ->
  exists st' s', exec (oam_payload pw c 1024 st) s = Done ((0, st'), s') /\ rest_bits s' = rest /\
    forall i o, nth_error os i = Some o ->
      object_at uni dyn (o_raw st') i o /\ placed_at pw uni dyn (o_dsc st') i o.
Proof. exact intra_exec. Qed.
Print Assumptions C25_oam_intra_partial.

(** C25, two or four sub-frames: every sub-frame's objects are in its slot.  Missing: the
    uniform spread with the Fixed mode and more than one object (refuted above). *)
Theorem C25_oam_subframes_partial : forall pw c uni dyn n fs st s rest,
  wf s -> rest_bits s = concat (map (enc_frame uni dyn) fs) ++ rest ->
  oc_ld c <> 0 -> (oc_fl c = 256 \/ oc_fl c = 512) -> oc_uni c = flag uni -> oc_dyn c = flag dyn ->
  o_n st = Z.of_nat n -> (0 < n <= 24)%nat -> sized (2 ^ 31 - 1024) st ->
  oc_fl c * Z.of_nat (length fs) = 1024 -> Forall (frame_ok uni dyn n) fs ->
  exists st' s', exec (oam_payload pw c 1024 st) s = Done ((0, st'), s') /\ rest_bits s' = rest /\
    shown uni dyn n 0 fs (o_raw st') /\ firstn (length fs) (o_pres st') = present fs.
Proof. exact subframes_exec. Qed.
Print Assumptions C25_oam_subframes_partial.
Example C25_case : sized (2 ^ 31 - 1024) (zero_state 2) /\
  Forall (frame_ok true false 2) [Some (m_each, [ob 10 1; ob (-128) 2]); None] /\
  Forall legal_obj [ob 10 1; ob (-128) 2] /\ fair_modes true false m_each [ob 10 1; ob (-128) 2].
Proof.
  assert (F : Forall legal_obj [ob 10 1; ob (-128) 2]) by (repeat constructor; unfold legal_obj; cbn; lia).
  assert (G : fair_modes true false m_each [ob 10 1; ob (-128) 2]) by (unfold fair_modes; cbn; auto 10).
  split; [apply zero_sized; lia|]. split; [|split; [exact F|exact G]].
  constructor; [|constructor; [exact I|constructor]]. cbn. split; [reflexivity|]. split; [exact F|]. split; [exact G|]. right. right. discriminate.
Qed.

(** C26 for the frames: after an accepted configuration no object metadata, however broken,
    makes the decoder leave its tables (or overflow, shorter than C69's bound). *)
Theorem C26_object_frames_partial : forall user u s u' s' pw ds r, exec (mpegh_3da_config user u) s = Done ((0, u'), s') ->
  Forall are_bytes ds -> Z.of_nat (length ds) < 2 ^ 21 - 1 ->
  history pw (u_oam u') (zero_state (q_obj (u_sig u'))) ds <> UB r.
Proof. exact frames_safe. Qed.
Print Assumptions C26_object_frames_partial.

(** C67 is false: an absolute update with a spread depth is misread (5 bits instead of 4),
    and one with a priority ignores it. *)
Theorem C67_absolute_depth_refuted : forall pw, exists c o st s, oc_fl c = 1024 /\ oc_ld c = 1 /\ oc_uni c = 0 /\ oc_dyn c = 0 /\ legal_obj o /\
  exec (oam_payload pw c 1024 (zero_state 1)) (fresh (pack (false :: enc_dynamic true (enc_absolute false false) [Some o]))) = Done ((0, st), s) /\
  ~ object_at false false (o_raw st) 0 o.
Proof. exact abs_depth. Qed.
Print Assumptions C67_absolute_depth_refuted.
Theorem C67_absolute_priority_refuted : forall pw, exists c o st s, oc_fl c = 1024 /\ oc_ld c = 1 /\ oc_uni c = 1 /\ oc_dyn c = 1 /\ legal_obj o /\
  exec (oam_payload pw c 1024 (zero_state 1)) (fresh (pack (false :: enc_dynamic true (enc_absolute true true) [Some o]))) = Done ((0, st), s) /\
  ~ object_at true true (o_raw st) 0 o.
Proof. exact abs_priority. Qed.
Print Assumptions C67_absolute_priority_refuted.

(** C67 with uniform spread and no dynamic priority, parameters not fixed: updated objects
    are as sent, the others are unchanged. *)
Theorem C67_absolute_partial : forall pw c us st s rest,
  wf s -> rest_bits s = false :: enc_dynamic true (enc_absolute true false) us ++ rest ->
  oc_ld c <> 0 -> oc_fl c = 1024 -> oc_uni c = 1 -> oc_dyn c = 0 -> no_fix (o_fix st) ->
  o_n st = Z.of_nat (length us) -> (length us <= 24)%nat -> sized (2 ^ 31 - 1024) st -> length (o_has st) = 96%nat ->
  Forall (fun u => match u with None => True | Some o => legal_obj o end) us ->
  exists st' s', exec (oam_payload pw c 1024 st) s = Done ((0, st'), s') /\ rest_bits s' = rest /\
    (forall i o, nth_error us i = Some (Some o) ->
       object_at true false (o_raw st') i o /\ placed_at pw true false (o_dsc st') i o) /\
    (forall i, nth_error us i = Some None -> row (o_raw st') i = row (o_raw st) i).
Proof. exact absolute_exec. Qed.
Print Assumptions C67_absolute_partial.
Example C67_case : no_fix (o_fix (zero_state 2)) /\ sized (2 ^ 31 - 1024) (zero_state 2) /\ length (o_has (zero_state 2)) = 96%nat /\ legal_obj (ob 10 1).
Proof. split; [unfold no_fix; cbn; auto 10|]. split; [apply zero_sized; lia|]. split; [reflexivity|unfold legal_obj; cbn; lia]. Qed.

(** C68 is false: in the second sub-frame the difference is added to the slot's value of the
    previous access unit, not to the first sub-frame's. *)
Theorem C68_differential_refuted : forall pw, exists c st s, oc_fl c = 512 /\ oc_ld c = 1 /\ oc_uni c = 1 /\ oc_dyn c = 0 /\
  exec (oam_payload pw c 1024 (zero_state 1))
    (fresh (pack ((true :: true :: enc_intra true false m_each [ob 100 1]) ++ (true :: false :: enc_dynamic false (enc_delta true false) [Some step1]))))
    = Done ((0, st), s) /\
  nth_error (r_az (o_raw st)) 0 = Some 100 /\ nth_error (r_az (o_raw st)) 1 = Some 1.
Proof. exact diff_old. Qed.
Print Assumptions C68_differential_refuted.

(** C68 with one metadata frame per access unit and no fixed parameters. *)
Theorem C68_differential_partial : forall pw c uni dyn us st s rest,
  wf s -> rest_bits s = false :: enc_dynamic false (enc_delta uni dyn) us ++ rest ->
  oc_ld c <> 0 -> oc_fl c = 1024 -> oc_uni c = flag uni -> oc_dyn c = flag dyn -> no_fix (o_fix st) ->
  o_n st = Z.of_nat (length us) -> (length us <= 24)%nat -> sized (2 ^ 31 - 1024) st -> length (o_has st) = 96%nat ->
  Forall (fun u => match u with None => True | Some t => legal_delta t end) us ->
  (forall i, (i < 96)%nat -> roomy (row (o_raw st) i)) ->
  exists st' s', exec (oam_payload pw c 1024 st) s = Done ((0, st'), s') /\ rest_bits s' = rest /\
    (forall i t o, nth_error us i = Some (Some t) -> object_at uni dyn (o_raw st) i o ->
       object_at uni dyn (o_raw st') i (moved uni dyn t o) /\
       (legal_obj (moved uni dyn t o) -> placed_at pw uni dyn (o_dsc st') i (moved uni dyn t o))) /\
    (forall i, nth_error us i = Some None -> row (o_raw st') i = row (o_raw st) i).
Proof. exact diff_exec. Qed.
Print Assumptions C68_differential_partial.
Example C68_case : no_fix (o_fix (zero_state 2)) /\ legal_delta (mkDelta 9 (Some (-200)) None (Some 3) None (Some 100) None None None) /\
  roomy (row (o_raw (zero_state 2)) 5) /\ object_at true false (o_raw (zero_state 2)) 1 (mkObj 0 0 0 0 0 0 0 0).
Proof.
  split; [unfold no_fix; cbn; auto 10|]. split; [unfold legal_delta; cbn; lia|]. split.
  - unfold roomy. cbn. repeat constructor; lia.
  - unfold object_at. cbn. repeat (split; [reflexivity|]). split; discriminate.
Qed.

(** C69 is false: after 2^21 payloads of one byte the sample counter overflows. *)
Theorem C69_oam_history_refuted : forall pw, exists c ds, Forall are_bytes ds /\ history pw c (zero_state 1) ds = UB UOverflow.
Proof. exact history_overflow. Qed.
Print Assumptions C69_oam_history_refuted.
Theorem C69_oam_history_partial : forall pw c n ds r, 0 <= n <= 24 -> Forall are_bytes ds -> Z.of_nat (length ds) < 2 ^ 21 - 1 ->
  history pw c (zero_state n) ds <> UB r.
Proof. exact history_safe. Qed.
Print Assumptions C69_oam_history_partial.
Example C69_case : are_bytes quiet /\ history (mkPw of_int of_int of_int) (mkOC 1024 1024 1 0 0 [] 0) (zero_state 1) [quiet] <> UB UOverflow.
Proof. split; [repeat constructor; lia|]. vm_compute. discriminate. Qed.

(** C70, safety and ranges: whatever enhanced frames arrive, the decoder stays in its
    tables, the number of excluded sectors is at most 15, their angles are within +-180 and
    +-90 degrees, diffuseness and divergence within 0 .. 1. *)
Theorem C70_enhanced_range : forall c n, 0 <= n <= 24 -> length (en_div c) = 24%nat -> length (en_pre c) = 24%nat ->
  forall ds st, Forall (fun d => are_bytes (snd d)) ds -> enh_ok st ->
  match enh_history c n st ds with Done st' => enh_ok st' | Jmp _ => True | UB _ => False end.
Proof. exact enh_history_ok. Qed.
Print Assumptions C70_enhanced_range.
(** C70 is false: a kept sector loses the flag saying that it is a predefined one. *)
Theorem C70_enhanced_keep_refuted : exists st1 s1 st2 s2,
  exec (enh_frame enhc0 1 0 zero_enh) (fresh (pack (enc_enh ecfg0 false Keep Keep (one_obj (New [Predef 5]))))) = Done (st1, s1) /\
  exec (enh_frame enhc0 1 0 st1) (fresh (pack (enc_enh ecfg0 false Keep Keep (one_obj Keep)))) = Done (st2, s2) /\
  sflags st1 = Some (1, 5) /\ sflags st2 = Some (0, 5).
Proof. exact keep_flag. Qed.
Print Assumptions C70_enhanced_keep_refuted.
(** C70 except for that flag: everything else is as sent, or as it was in the previous
    frame if it is kept. *)
Theorem C70_enhanced_read_partial : forall c k indep gx gd xs st s rest, wf s -> rest_bits s = enc_enh k indep gx gd xs ++ rest ->
  cfg_is c k -> shape st -> (0 < length xs <= 24)%nat ->
  legal_upd indep (legal_sects (k_only k 0)) gx -> legal_upd indep seven_bits gd -> legal_objs k indep 0 xs ->
  exists st' s', exec (enh_frame c (Z.of_nat (length xs)) (flag indep) st) s = Done (st', s') /\ rest_bits s' = rest /\
    (forall j x, nth_error xs j = Some x -> obj_shows k st j x st') /\
    (k_cexc k = true -> exists old new, nth_error (e_exc st) 0 = Some old /\ nth_error (e_exc st') 0 = Some new /\
       shows_exc (k_only k 0) old gx new) /\
    (k_diff k = true -> k_cdiff k = true -> exists old new, nth_error (e_diff st) 0 = Some old /\ nth_error (e_diff st') 0 = Some new /\
       shows7 old gd new).
Proof. exact enh_exec. Qed.
Print Assumptions C70_enhanced_read_partial.
Example C70_case : enh_ok zero_enh /\ shape zero_enh /\ cfg_is enhc0 ecfg0 /\
  legal_objs ecfg0 true 0 [mkEobj 1 (New 3) (New 127) (New [Predef 3; Box 1 127 0 31]); mkEobj 0 (New 3) (New 0) (New [])] /\
  legal_objs ecfg0 false 0 (one_obj Keep).
Proof.
  split; [exact zero_enh_ok|]. split; [exact (enh_shape _ zero_enh_ok)|]. split; [|split].
  - unfold cfg_is. cbn [en_diff en_cdiff en_cexc en_div en_pre enhc0 ecfg0 k_diff k_cdiff k_cexc k_div k_only flag].
    split; [reflexivity|]. split; [reflexivity|]. split; [reflexivity|].
    split; intros i Hi; (do 24 (destruct i as [|i]; [reflexivity|])); lia.
  - cbn [legal_objs]. unfold legal_eobj. cbn [x_close x_div x_diff x_exc legal_upd k_only ecfg0]. unfold seven_bits.
    split; [|split; [|exact I]]; (split; [lia|]; split; [lia|]; split; [lia|]; split; [cbn; lia|]).
    + constructor; [cbn; lia|]. constructor; [cbn; split; [reflexivity|lia]|constructor].
    + constructor.
  - cbn [legal_objs one_obj]. unfold legal_eobj. cbn [x_close x_div x_diff x_exc legal_upd]. unfold seven_bits.
    split; [|exact I]. split; [lia|]. split; [lia|]. split; [lia|reflexivity].
Qed.

(** C71 is false: when the first sub-frame of an access unit has no metadata the renderer
    takes the last slot, which may never have been written. *)
Theorem C71_subframe_metadata_refuted : forall pw, exists c d1 d2 st1 s1 st2 s2, oc_fl c = 512 /\
  exec (oam_payload pw c 1024 (zero_state 1)) (fresh d1) = Done ((0, st1), s1) /\
  exec (oam_payload pw c 1024 st1) (fresh d2) = Done ((0, st2), s2) /\
  nth_error (d_az (o_dsc st2)) 0 = Some (az_degrees 100) /\
  render_slots 2 true 0 (firstn 2 (o_pres st2)) = [2; 2] /\
  nth_error (d_az (o_dsc st2)) 1 = Some (az_degrees 0).
Proof. exact stale_slot. Qed.
Print Assumptions C71_subframe_metadata_refuted.
(** C71 if the first sub-frame has metadata: each sub-frame is rendered with the metadata
    sent last (the slot number is the number of metadata frames sent so far). *)
Theorem C71_subframe_metadata_partial : forall n p ps j, p <> 0 -> (j < length (p :: ps))%nat -> Z.of_nat (length (p :: ps)) <= n ->
  nth_error (render_slots n true 0 (p :: ps)) j = Some (sent_upto (p :: ps) j).
Proof. exact slots_first. Qed.
Print Assumptions C71_subframe_metadata_partial.
Example C71_case : render_slots 4 true 0 [1; 0; 1; 0] = [1; 1; 2; 2].
Proof. reflexivity. Qed.

(** C72 is false: two earcons at different azimuths are rendered at the same place, more
    than 96 signals leave the tables, and the positions of the scene's objects are
    overwritten. *)
Theorem C72_earcon_position_refuted : forall pw, exists st1 st2, earcon_md pw 1 two_ears (zero_state 2) = Ret (st1, st2) /\
  nth_error (d_az (o_dsc st1)) 0 = Some (g_az 10) /\ nth_error (d_az (o_dsc st1)) 1 = Some (g_az 10).
Proof. exact ears_same. Qed.
Print Assumptions C72_earcon_position_refuted.
Theorem C72_earcon_memory_refuted : forall pw e m st S, length (ea_dist e) = 128%nat -> length (ea_el e) = 128%nat ->
  length (ea_az e) = 128%nat -> length (ea_gain e) = 128%nat -> 96 <= m -> sized S st -> earcon_md pw m e st = Undef UOob.
Proof. exact earcon_many. Qed.
Print Assumptions C72_earcon_memory_refuted.
Theorem C72_earcon_scene_refuted : forall pw, exists st1 st2, earcon_md pw 0 two_ears (zero_state 1) = Ret (st1, st2) /\
  nth_error (r_az (o_raw (zero_state 1))) 0 = Some 0 /\ nth_error (r_az (o_raw st2)) 0 = Some 10.
Proof. exact ears_disturb. Qed.
Print Assumptions C72_earcon_scene_refuted.
(** C72 for at most 96 signals that share the position of the first earcon. *)
Theorem C72_earcon_partial : forall pw e m st az el dist g S, nth_error (ea_az e) 0 = Some az -> nth_error (ea_el e) 0 = Some el ->
  nth_error (ea_dist e) 0 = Some dist -> nth_error (ea_gain e) 0 = Some g -> 0 <= m < 96 -> sized S st ->
  exists st1 st2, earcon_md pw m e st = Ret (st1, st2) /\ o_n st1 = m + 1 /\ o_n st2 = o_n st /\
    forall j, Z.of_nat j <= m -> sounds_at pw (o_dsc st1) j az el dist /\
       (ea_has_gain e <> 0 -> nth_error (d_gain (o_dsc st1)) j = Some (g_gain pw g)).
Proof. exact earcon_all. Qed.
Print Assumptions C72_earcon_partial.
Example C72_case : sized 1 (zero_state 2) /\ nth_error (ea_az two_ears) 0 = Some 10.
Proof. split; [apply zero_sized; lia|reflexivity]. Qed.
