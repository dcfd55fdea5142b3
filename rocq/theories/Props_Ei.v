(** * Properties of the interaction, scene displacement and local setup packets *)
From Coq Require Import ZArith List Lia Bool.
From Verif Require Import Bits BitBuf Prog Spec_Asi Spec_Mhas Asi Config Ei Spec_Ei Lem_EiMore.
Import ListNotations.
Open Scope Z_scope.

(** ** C85: an interaction packet is understood as it was meant *)

(** Full statement: for every valid packet that agrees with the scene, the stored wish is the
    one written.  True when output wires and zoom values fit a byte. *)
Theorem C85_packet_partial : forall sv e w, ei_ok e -> valid_wish w -> narrow w ->
  (fst sv = true -> asi_ok (snd sv) /\ agrees_with (snd sv) w) ->
  forall s rest, wf s -> rest_bits s = enc_wish w ++ rest ->
  exists e' s', exec (ei_packet sv e) s = Done (Ok e', s') /\ rest_bits s' = rest /\ view_wish e' = w /\ ei_present e' = 1.
Proof. exact packet_ok. Qed.
Print Assumptions C85_packet_partial.

(** Wires and zoom values are cut down to their low byte, without an error. *)
Theorem C85_wide_refuted : forall e a w, ei_ok e -> valid_wish w ->
  forall s rest, wf s -> rest_bits s = enc_wish w ++ rest ->
  exists e' s', exec (ei_packet (false, a) e) s = Done (Ok e', s') /\ rest_bits s' = rest /\ view_wish e' = bytewise w.
Proof. exact packet_bytes. Qed.
Print Assumptions C85_wide_refuted.

Definition wide_wish : wish := {| wi_sign := None; wi_preset := None;
  wi_groups := [{| ch_id := 3; ch_wire := Some 256; ch_play := None |}]; wi_zoom := Some (512, 300, 7, 8) |}.
Example C85_wide_case : valid_wish wide_wish /\ bytewise wide_wish <> wide_wish /\
  wi_zoom (bytewise wide_wish) = Some (0, 44, 7, 8) /\ map ch_wire (wi_groups (bytewise wide_wish)) = [Some 0].
Proof.
  split; [|split; [intro H; discriminate (f_equal wi_zoom H)|split; reflexivity]].
  unfold valid_wish, wide_wish, valid_choice, fits. cbn. repeat split; try lia; try exact I. repeat constructor; cbn; unfold fits; cbn; lia.
Qed.

Definition g_ex (id pos gain : Z) : gdef := mkG id 1 1 pos 0 0 0 0 0 0 gain 0 0 1 1 0 [0].
Definition g_no : gdef := mkG 0 0 0 0 0 0 0 0 0 0 0 0 0 0 0 0 [].
Definition p_no : pdef := mkP 0 0 0 [].
(** A scene with two groups (ids 5 and 9; the second lets the position be changed) and [np] presets. *)
Definition a_ex (np : Z) : asi :=
  mkA 1 0 0 2 ([g_ex 5 0 0; g_ex 9 1 0] ++ repeat g_no 14) 0 [] np
      ([mkP 1 0 0 []; mkP 2 0 0 []; mkP 3 0 0 []] ++ repeat p_no 5) [] 0 0.
Definition w_ex : wish := {| wi_sign := Some (1, [7; 8]); wi_preset := Some 2;
  wi_groups := [{| ch_id := 9; ch_wire := Some 4; ch_play := None |};
                {| ch_id := 5; ch_wire := None; ch_play := Some (Some (200, 33, 9), Some 77) |}];
  wi_zoom := Some (100, 200, 50, 60) |}.
Ltac fitsall := repeat (split || constructor); cbn; unfold fits; cbn; lia.
Example C85_case : ei_ok ei0 /\ valid_wish w_ex /\ narrow w_ex /\ asi_ok (a_ex 3) /\ agrees_with (a_ex 3) w_ex /\
  length (enc_wish w_ex) = 146%nat.
Proof.
  split; [split; reflexivity|]. split; [fitsall|]. split; [fitsall|]. split; [unfold asi_ok; cbn; lia|]. split; [|reflexivity].
  split; [|split].
  - split; [discriminate|]. cbn. split; [lia|]. split; [lia|]. tauto.
  - repeat constructor; unfold known_group; cbn; tauto.
  - intros i c d. destruct i as [|[|i]]; cbn.
    + intros [= <-] [= <-]. exact I.
    + intros [= <-] [= <-]. cbn. split; discriminate.
    + destruct i; discriminate.
Qed.

(** ** C86: an interaction packet is checked against the scene and never leaves the decoder's memory *)

(** With at most eight groups in the scene (or before a scene is known): no packet leaves the
    arrays, and an accepted one has the number of groups of the scene, chooses a preset when
    there are presets, and one of the scene. *)
Theorem C86_safe_partial : forall sv e s, sv_ok sv -> (fst sv = true -> a_ng (snd sv) <= 8) ->
  length (ei_sign e) = 256%nat -> gs_ok (ei_groups e) -> wf s ->
  match exec (ei_packet sv e) s with
  | Done (Ok e', _) => length (ei_sign e') = 256%nat /\ gs_ok (ei_groups e') /\ (fst sv = true -> checked (snd sv) e')
  | Done (Er _, _) | Jmp _ => True
  | UB _ => False end.
Proof. exact packet_safe. Qed.
Print Assumptions C86_safe_partial.

(** With more groups, every well-formed packet that chooses a preset reads past the presets. *)
Theorem C86_nine_groups_refuted : forall e a w p, ei_ok e -> valid_wish w -> wi_sign w = None -> asi_ok a -> 8 < a_ng a ->
  Z.of_nat (length (wi_groups w)) = a_ng a -> wi_preset w = Some p ->
  forall s rest, wf s -> rest_bits s = enc_wish w ++ rest -> exec (ei_packet (true, a) e) s = UB UOob.
Proof. exact packet_oob. Qed.
Print Assumptions C86_nine_groups_refuted.

(** Only the first choice is checked to name a group of the scene. *)
Theorem C86_unknown_group_refuted : forall e a w, ei_ok e -> valid_wish w -> narrow w -> asi_ok a -> first_agrees a w ->
  forall s rest, wf s -> rest_bits s = enc_wish w ++ rest ->
  exists e' s', exec (ei_packet (true, a) e) s = Done (Ok e', s') /\ rest_bits s' = rest /\ view_wish e' = w /\ ei_present e' = 1.
Proof. exact packet_unknown. Qed.
Print Assumptions C86_unknown_group_refuted.

(** A preset of the scene is refused when it stands behind as many presets as there are groups. *)
Theorem C86_preset_refuted : forall e a w p, ei_ok e -> valid_wish w -> wi_sign w = None -> asi_ok a -> a_ng a <= 8 ->
  Z.of_nat (length (wi_groups w)) = a_ng a -> wi_preset w = Some p ->
  ~ In p (map p_id (firstn (Z.to_nat (a_ng a)) (a_presets a))) ->
  forall s rest, wf s -> rest_bits s = enc_wish w ++ rest -> exists s', exec (ei_packet (true, a) e) s = Done (Er E_EI_ID, s').
Proof. exact packet_preset. Qed.
Print Assumptions C86_preset_refuted.

(** A packet whose first choice names no group of the scene is not refused: the other
    choices are not even read, the earlier ones stay, and the packet counts as received. *)
Theorem C86_dropped_refuted : forall e a c cs,
  let w := {| wi_sign := None; wi_preset := None; wi_groups := c :: cs; wi_zoom := None |} in
  ei_ok e -> valid_wish w -> asi_ok a -> a_np a = 0 -> Z.of_nat (length (c :: cs)) = a_ng a ->
  ~ known_group a c -> ch_play c = None ->
  forall s rest, wf s -> rest_bits s = enc_wish w ++ rest ->
  exists e' s', exec (ei_packet (true, a) e) s = Done (Ok e', s') /\ ei_present e' = 1 /\ ei_num e' = a_ng a /\
    forall i, (0 < i)%nat -> nth_error (ei_groups e') i = nth_error (ei_groups e) i.
Proof. exact packet_dropped. Qed.
Print Assumptions C86_dropped_refuted.

Definition off (id : Z) : choice := {| ch_id := id; ch_wire := None; ch_play := None |}.
Definition w_of (p : option Z) (l : list Z) : wish := {| wi_sign := None; wi_preset := p; wi_groups := map off l; wi_zoom := None |}.
Example C86_case :
  (sv_ok (true, a_ex 3) /\ gs_ok (ei_groups ei0) /\ length (ei_sign ei0) = 256%nat) /\
  (* one choice beyond the first for a group that does not exist *)
  (valid_wish (w_of (Some 2) [5; 100]) /\ narrow (w_of (Some 2) [5; 100]) /\ first_agrees (a_ex 3) (w_of (Some 2) [5; 100]) /\
   ~ agrees_with (a_ex 3) (w_of (Some 2) [5; 100])) /\
  (* the third preset of a scene with two groups *)
  (valid_wish (w_of (Some 3) [5; 9]) /\ In 3 (map p_id (firstn (Z.to_nat (a_np (a_ex 3))) (a_presets (a_ex 3)))) /\
   ~ In 3 (map p_id (firstn (Z.to_nat (a_ng (a_ex 3))) (a_presets (a_ex 3))))) /\
  (* the first choice unknown *)
  (valid_wish (w_of None [100; 5]) /\ asi_ok (a_ex 0) /\ ~ known_group (a_ex 0) (off 100)).
Proof.
  split; [|split; [|split]].
  - split; [intros _; unfold asi_ok; cbn; lia|]. split; [|reflexivity]. split; [reflexivity|].
    cbn [ei_groups ei0]. apply Forall_forall. intros g Hg. apply repeat_spec in Hg. subst g. unfold eg_fits, fits, eg0. cbn. repeat split; lia.
  - split; [fitsall|]. split; [fitsall|]. split; [|intros (_ & H & _); apply Forall_inv_tail, Forall_inv in H; unfold known_group in H; vm_compute in H; intuition discriminate].
    split; [|split].
    + split; [discriminate|]. cbn. split; [lia|]. split; [lia|]. tauto.
    + unfold known_group. vm_compute. tauto.
    + intros i c d. destruct i as [|[|i]]; cbn; try (intros [= <-] [= <-]; exact I). destruct i; discriminate.
  - split; [fitsall|]. split; vm_compute; intuition discriminate.
  - split; [fitsall|]. split; [unfold asi_ok; cbn; lia|]. unfold known_group. vm_compute. intuition discriminate.
Qed.
(** The hypotheses of the nine-group case are met. *)
Definition a_nine : asi := mkA 1 0 0 9 (repeat (g_ex 5 0 0) 16) 0 [] 1 (repeat (mkP 1 0 0 []) 8) [] 0 0.
Example C86_nine_case : asi_ok a_nine /\ valid_wish (w_of (Some 1) (repeat 5 9)) /\ 8 < a_ng a_nine /\
  Z.of_nat (length (wi_groups (w_of (Some 1) (repeat 5 9)))) = a_ng a_nine.
Proof. split; [unfold asi_ok; cbn; lia|]. split; [fitsall|]. split; cbn; lia. Qed.

(** ** C87: scene displacement data apply one call after another *)

(** A buffer with the displacements [ds]: call [i] uses the [i]-th, later calls the last one
    and, when there is none, the one in force before. *)
Theorem C87_sequence : forall n ds d0 rest s, wf s -> Forall valid_disp ds -> (length rest < 45)%nat ->
  rest_bits s = concat (map enc_disp ds) ++ rest ->
  exists s', exec (sd_run n d0) s = Done (map (disp_at ds d0) (seq 0 n), s').
Proof. exact sd_exec. Qed.
Print Assumptions C87_sequence.

(** Whatever the buffer holds, no call leaves it or fails. *)
Theorem C87_any_buffer : forall n d0 s, wf s -> exists l s', exec (sd_run n d0) s = Done (l, s') /\ length l = n.
Proof. exact sd_exec_any. Qed.
Print Assumptions C87_any_buffer.

Example C87_case : let a := mkSd 511 1 2 255 63 15 in let b := mkSd 0 300 4 5 6 7 in let d0 := mkSd 0 0 0 0 0 0 in
  Forall valid_disp [a; b] /\ map (disp_at [a; b] d0) (seq 0 4) = [a; b; b; b] /\ map (disp_at [] d0) (seq 0 2) = [d0; d0].
Proof. cbn. split; [|split; reflexivity]. repeat constructor; cbn; unfold fits; cbn; lia. Qed.

(** ** C88: the local loudspeaker setup is read as it was given *)

(** Full statement: for every setup.  Proved for a standard layout with the positions of up
    to 24 loudspeakers, without distances and calibration gains. *)
Theorem C88_positions_partial : forall brir nsig u cicp ps track comp rest s, wf s -> lsetup_ok u -> fits 6 cicp ->
  (length ps <= 24)%nat -> Forall valid_pos ps -> 0 <= nsig ->
  rest_bits s = enc_setup cicp ps track comp ++ rest ->
  exists u' s', exec (local_setup brir nsig u) s = Done (Ok u', s') /\ rest_bits s' = rest /\
    lu_num u' = Z.of_nat (length ps) /\ l_type (lu_spk u') = 0 /\ l_idx (lu_spk u') = cicp /\
    map view_pos (firstn (length ps) (lu_ls u')) = map degrees ps /\
    z2b (lu_track u') = track /\ z2b (lu_comp u') = comp /\ lu_brir u' = 0 /\ lu_screen u' = 0.
Proof. exact setup_exec. Qed.
Print Assumptions C88_positions_partial.

(** A packet that announces at most 24 loudspeakers never leaves the arrays. *)
Theorem C88_safe_partial : forall brir nsig u s num rest, lsu_inv u -> nsig <= 128 -> 0 <= num <= 24 -> wf s ->
  rest_bits s = bits_of 1 0 ++ bits_of 16 num ++ rest ->
  match exec (local_setup brir nsig u) s with
  | Done (Ok u', _) => lsu_inv u'
  | Done (Er _, _) | Jmp _ => True
  | UB _ => False end.
Proof. exact setup_safe. Qed.
Print Assumptions C88_safe_partial.

(** Every setup with more loudspeakers does. *)
Theorem C88_many_refuted : forall brir nsig u cicp ps track comp rest s, wf s -> lsetup_ok u -> fits 6 cicp ->
  (24 < length ps)%nat -> Z.of_nat (length ps) < 65536 -> Forall valid_pos ps ->
  rest_bits s = enc_setup cicp ps track comp ++ rest -> exec (local_setup brir nsig u) s = UB UOob.
Proof. exact setup_oob_exec. Qed.
Print Assumptions C88_many_refuted.

(** A calibration gain of 0 dB (64, seven bits) is taken for -31.5 dB (in half decibels -63),
    and the rest of the packet is read six bits early. *)
Theorem C88_gain_refuted : exists u', runA (local_setup (Ret 0) 0 lsetup0) gain_bits = Done (Ok u', bits_of 6 0) /\
  map ls_cal (firstn 1 (lu_ls u')) = [-63].
Proof. exact gain_misread. Qed.
Print Assumptions C88_gain_refuted.

Example C88_case : lsetup_ok lsetup0 /\ lsu_inv lsetup0 /\
  Forall valid_pos [Some (256 + 30, 128); None; Some (0, 255)] /\
  map degrees [Some (256 + 30, 128); None; Some (0, 255)] = [Some (30, 0); None; Some (-180, 90)].
Proof.
  split; [repeat split|]. split; [split; [repeat split|cbn; lia]|]. split; [repeat constructor; unfold fits; cbn; lia|]. reflexivity.
Qed.
