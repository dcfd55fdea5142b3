(** * Properties C10-C14, C42, C46-C49: the audio scene description

    Vocabulary: [asi_parse a] is the scene parser started on a structure with contents
    [a] (Asi.v); [shape a] says that its tables have their declared sizes; [exec p s]
    runs a parser on the bit reader [s]; [fresh d] is the reader over the bytes [d].
    [Ok]/[Er] are accepted/rejected.  Spec_Asi.v defines scenes as values ([group],
    [scene], ...), their standard encoding ([enc_scene], ...) and how the stored tables
    read as values ([view_group], ...). *)

From Coq Require Import ZArith List Lia Bool.
From Verif Require Import Bits BitBuf Prog Asi Wp Frame Spec_Asi Lem_Asi Lem_AsiRT Lem_AsiData Lem_AsiProps.
Import ListNotations.
Open Scope Z_scope.

(** C10: in an accepted scene, ids are unique. *)
Theorem C10_ids_unique : forall a s a' s',
  shape a -> wf s -> exec (asi_parse a) s = Done (Ok a', s') -> a_main a' = 1 ->
  NoDup (map g_id (active_groups a')) /\ NoDup (map s_id (active_switch a')) /\
  NoDup (map p_id (active_presets a')).
Proof. exact asi_ids_unique. Qed.
Print Assumptions C10_ids_unique.

(** C10/C11, scenes that are only a reference to the main stream change nothing. *)
Theorem C10_reference_scene_keeps_tables : forall a s a' s',
  shape a -> wf s -> exec (asi_parse a) s = Done (Ok a', s') -> a_main a' <> 1 ->
  a_groups a' = a_groups a /\ a_switch a' = a_switch a /\ a_presets a' = a_presets a /\
  a_ng a' = a_ng a /\ a_ns a' = a_ns a /\ a_np a' = a_np a /\ a_types a' = a_types a.
Proof. exact asi_offset_only. Qed.
Print Assumptions C10_reference_scene_keeps_tables.

Example C10_case : shape asi_zero /\ wf (fresh (pack (enc_scene good_scene))) /\
  exists a' s', exec (asi_parse asi_zero) (fresh (pack (enc_scene good_scene))) = Done (Ok a', s') /\
    a_main a' = 1 /\ map g_id (active_groups a') = [5; 6] /\ map p_id (active_presets a') = [1; 2].
Proof.
  split; [exact asi_zero_shape|]. split; [apply wf_fresh; vm_compute; repeat constructor; discriminate|].
  do 2 eexists. split; [vm_compute; reflexivity|]. vm_compute. auto.
Qed.

(** C11: whatever the bits, nothing outside a table is touched (no undefined behaviour) ... *)
Theorem C11_no_table_overrun : forall a s r, shape a -> wf s -> exec (asi_parse a) s <> UB r.
Proof. exact asi_no_ub. Qed.
Print Assumptions C11_no_table_overrun.

(** ... and in an accepted scene all counts are within the tables, which keep their size. *)
Theorem C11_counts_within_tables : forall a s a' s',
  shape a -> wf s -> exec (asi_parse a) s = Done (Ok a', s') -> a_main a' = 1 ->
  0 <= a_ng a' <= 16 /\ 0 <= a_ns a' <= 8 /\ 0 <= a_np a' <= 8 /\
  Forall (fun g => g_num g <= 128) (active_groups a') /\
  Forall (fun g => 1 <= s_num g <= 32) (active_switch a') /\
  Forall (fun p => 1 <= p_num p <= 16) (active_presets a') /\
  (length (a_types a') <= 15)%nat /\ shape a'.
Proof. exact asi_counts. Qed.
Print Assumptions C11_counts_within_tables.

(** 17 groups announced: rejected. *)
Example C11_case : exec (asi_parse asi_zero) (fresh (pack (flag true ++ flag false ++ bits_of 7 17 ++ repeat true 400)))
  = Done (Er E_NUM_GROUP, mkR (pack (flag true ++ flag false ++ bits_of 7 17 ++ repeat true 400)) 1 6 407).
Proof. vm_compute. reflexivity. Qed.

(** C12: a kind of data block known to the decoder (kinds 0-9) occurs at most once in an
    accepted scene; a second block of the same kind is rejected. *)
Theorem C12_block_kinds_once : forall a s a' s',
  shape a -> wf s -> exec (asi_parse a) s = Done (Ok a', s') -> a_main a' = 1 ->
  forall i j t, nth_error (a_types a') i = Some t -> nth_error (a_types a') j = Some t ->
    t < 10 -> i = j.
Proof. exact asi_blocks_once. Qed.
Print Assumptions C12_block_kinds_once.

Theorem C12_second_block_rejected : forall gs ngrp npre nc0 seen ty len s,
  0 <= ty < 10 -> In ty seen ->
  exec (data_block gs ngrp npre nc0 seen ty len) s = Done (Er E_ASI_PARSE, s).
Proof. exact block_twice_rejected. Qed.
Print Assumptions C12_second_block_rejected.

Example C12_case :
  let blk := bits_of 4 3 ++ bits_of 16 2 ++ bits_of 7 0 ++ repeat false 9 in
  let hd := flag true ++ flag false ++ bits_of 7 0 ++ bits_of 5 0 ++ bits_of 5 0 in
  (exists a' s', exec (asi_parse asi_zero) (fresh (pack (hd ++ bits_of 4 1 ++ blk ++ repeat false 30))) = Done (Ok a', s')
     /\ a_types a' = [3]) /\
  (exists s', exec (asi_parse asi_zero) (fresh (pack (hd ++ bits_of 4 2 ++ blk ++ blk ++ repeat false 30)))
     = Done (Er E_ASI_PARSE, s')).
Proof.
  split; [do 2 eexists; split; [vm_compute; reflexivity|reflexivity]|eexists; vm_compute; reflexivity].
Qed.

(** C13: parsing the standard encoding of a valid scene whose preset conditions pass the
    decoder's check ([preset_checks], see C42) and whose groups have at most 127 members
    (see C14) gives back exactly that scene, from whatever the structure held before. *)
Theorem C13_scene_roundtrip : forall a s d rest,
  are_bytes d -> bytes_bits d = enc_scene s ++ rest ->
  shape a -> valid_scene s ->
  Forall (fun g => member_count (gr_members g) <= 127) (sc_groups s) ->
  preset_checks s (a_groups a) ->
  exists a' s', exec (asi_parse a) (fresh d) = Done (Ok a', s') /\
    bitpos s' = Z.of_nat (length (enc_scene s)) /\
    a_main a' = 1 /\ z2b (a_idp a') = (match sc_id s with None => false | _ => true end) /\
    (forall i, sc_id s = Some i -> a_id a' = i) /\
    map view_group (active_groups a') = sc_groups s /\
    map view_switch (active_switch a') = sc_switch s /\
    map view_preset (active_presets a') = sc_presets s /\
    a_types a' = map fst (sc_blocks s) /\ a_max a' = sc_max s.
Proof. exact asi_parse_exec_rt. Qed.
Print Assumptions C13_scene_roundtrip.

Example C13_case : valid_scene good_scene /\ preset_checks good_scene (a_groups asi_zero) /\
  Forall (fun g => member_count (gr_members g) <= 127) (sc_groups good_scene).
Proof.
  split; [exact good_valid|]. split; [|repeat constructor; cbn; lia].
  intros [|[|[|i]]] p Hp; cbn in Hp; try discriminate; inversion Hp; subst; cbn;
    (constructor; [|constructor]); cbn; split; intros; congruence.
Qed.

(** C14 is false for 128 listed members: the count is stored as -128 and none of the 128
    member ids is read. *)
Theorem C14_members_refuted :
  exists d g, are_bytes d /\ valid_group g /\ member_count (gr_members g) = 128 /\
    firstn (length (enc_group g)) (bytes_bits d) = enc_group g /\
    exists arr s' g1, exec (group_defs 1 (a_groups asi_zero)) (fresh d) = Done (Ok arr, s') /\
      nth_error arr 0 = Some g1 /\ g_num g1 = -128 /\ g_mem g1 = repeat 0 128 /\
      bitpos s' = Z.of_nat (length (enc_group g)) - 128 * 7.
Proof. exact members_refuted. Qed.
Print Assumptions C14_members_refuted.

(** C14 for up to 127 members (missing: exactly 128): every member is read. *)
Theorem C14_members_partial : forall gs d rest,
  are_bytes d -> bytes_bits d = concat (map enc_group gs) ++ rest ->
  (length gs <= 16)%nat -> Forall valid_group gs ->
  Forall (fun g => member_count (gr_members g) <= 127) gs -> NoDup (map gr_id gs) ->
  exists arr s', exec (group_defs (length gs) (a_groups asi_zero)) (fresh d) = Done (Ok arr, s') /\
    map (fun g => gr_members (view_group g)) (firstn (length gs) arr) = map gr_members gs /\
    bitpos s' = Z.of_nat (length (concat (map enc_group gs))).
Proof. exact members_exact. Qed.
Print Assumptions C14_members_partial.

Example C14_case : valid_group (grp 5 None (Listed (repeat 77 127))) /\
  member_count (gr_members (grp 5 None (Listed (repeat 77 127)))) = 127.
Proof.
  split; [|reflexivity]. unfold valid_group, grp. cbn [gr_id gr_pos gr_gain gr_members member_count].
  rewrite repeat_length. unfold fits. repeat split; try lia.
  apply Forall_forall. intros x Hx. apply repeat_spec in Hx. lia.
Qed.

(** C42 is false: an accepted scene may contain a preset condition that sets the gain of a
    group which does not allow it ... *)
Theorem C42_preset_conditions_refuted :
  exists d a' s', are_bytes d /\ exec (asi_parse asi_zero) (fresh d) = Done (Ok a', s') /\ a_main a' = 1 /\
    ~ presets_respect_groups (map view_group (active_groups a')) (map view_preset (active_presets a')).
Proof. exact preset_conditions_refuted. Qed.
Print Assumptions C42_preset_conditions_refuted.

(** ... and a scene all of whose preset conditions respect the groups is rejected. *)
Theorem C42_legal_scene_rejected_refuted :
  exists s d, valid_scene s /\ presets_respect_groups (sc_groups s) (sc_presets s) /\ are_bytes d /\
    firstn (length (enc_scene s)) (bytes_bits d) = enc_scene s /\
    exists s', exec (asi_parse asi_zero) (fresh d) = Done (Er E_PRESET_DEF, s').
Proof. exact preset_legal_refused. Qed.
Print Assumptions C42_legal_scene_rejected_refuted.

(** C42, what is checked instead (missing: the check against the group referred to): the
    conditions of the [j]-th preset respect the [j]-th group. *)
Theorem C42_preset_conditions_partial : forall a s a' s',
  shape a -> wf s -> exec (asi_parse a) s = Done (Ok a', s') -> a_main a' = 1 ->
  forall j p g c act, nth_error (map view_preset (active_presets a')) j = Some p ->
    nth_error (map view_group (active_groups a')) j = Some g ->
    In c (pr_conds p) -> co_on c = Some act ->
    (ac_gain act <> None -> gr_gain g <> None) /\ (ac_pos act <> None -> gr_pos g <> None).
Proof. exact asi_presets_own_index. Qed.
Print Assumptions C42_preset_conditions_partial.

(** C46 is false for texts of 128 bytes: the text is not read and the following data is
    parsed from its middle. *)
Theorem C46_description_text_refuted :
  exists d, are_bytes d /\ Forall (valid_descr 7) long_text /\
    firstn (length (enc_descrs 7 long_text)) (bytes_bits d) = enc_descrs 7 long_text /\
    exists s', exec (description_data 7) (fresh d) = Done (Ok [(3, [(0x656e67, [])])], s') /\
      bitpos s' = Z.of_nat (length (enc_descrs 7 long_text)) - 128 * 8.
Proof. exact text_refuted. Qed.
Print Assumptions C46_description_text_refuted.

(** C46 for texts of up to 127 bytes (missing: 128..256). *)
Theorem C46_description_text_partial : forall idbits bs d rest,
  are_bytes d -> bytes_bits d = enc_descrs idbits bs ++ rest ->
  (idbits <= 24)%nat -> (1 <= length bs <= 128)%nat -> Forall (valid_descr idbits) bs ->
  Forall (fun b => Forall (fun t => (length (snd t) <= 127)%nat) (snd b)) bs ->
  exists s', exec (description_data (Z.of_nat idbits)) (fresh d) = Done (Ok (map as_chars bs), s') /\
    bitpos s' = Z.of_nat (length (enc_descrs idbits bs)).
Proof. exact description_exec_rt. Qed.
Print Assumptions C46_description_text_partial.

Example C46_case : exists s', exec (description_data 5)
   (fresh (pack (enc_descrs 5 [(3, [(0x656e67, [65; 200]); (0x646575, [66])]); (4, [(0, [1])])])))
  = Done (Ok [(3, [(0x656e67, [65; -56]); (0x646575, [66])]); (4, [(0, [1])])], s').
Proof. eexists. vm_compute. reflexivity. Qed.

(** C47 is false: of the 16 transmitted effect bits only 8 are kept. *)
Theorem C47_drc_interface_refuted :
  exists d l s', are_bytes d /\ Forall (fun x => fits 6 (fst x) /\ fits 16 (snd x)) l /\
    firstn (length (enc_drc_ui l)) (bytes_bits d) = enc_drc_ui l /\
    l = [(1, 0x0100)] /\ exec drc_ui (fresh d) = Done ([(1, 0)], s').
Proof. exact drc_ui_refuted. Qed.
Print Assumptions C47_drc_interface_refuted.

(** C47 for effect sets within the lowest 7 bits (missing: the upper 9). *)
Theorem C47_drc_interface_partial : forall l d rest,
  are_bytes d -> bytes_bits d = enc_drc_ui l ++ rest ->
  (length l <= 7)%nat -> Forall (fun x => fits 6 (fst x) /\ fits 7 (snd x)) l ->
  exists s', exec drc_ui (fresh d) = Done (l, s') /\ bitpos s' = Z.of_nat (length (enc_drc_ui l)).
Proof. exact drc_ui_exact. Qed.
Print Assumptions C47_drc_interface_partial.

Example C47_case : exists s', exec drc_ui (fresh (pack (enc_drc_ui [(1, 127); (63, 3)]))) = Done ([(1, 127); (63, 3)], s').
Proof. eexists. vm_compute. reflexivity. Qed.

(** C48 is false when presets have different numbers of conditions: the number of the
    first preset (here 1) is used for the second (which has 2). *)
Theorem C48_preset_extension_refuted :
  exists d s', are_bytes d /\
    firstn (length (concat (map enc_ext ext_1_2))) (bytes_bits d) = concat (map enc_ext ext_1_2) /\
    exec (preset_ext (a_groups asi_zero) 2 1) (fresh d) = Done (Ok tt, s') /\
    bitpos s' <> Z.of_nat (length (concat (map enc_ext ext_1_2))).
Proof. exact preset_ext_refuted. Qed.
Print Assumptions C48_preset_extension_refuted.

(** C48 when all presets have the same number of conditions. *)
Theorem C48_preset_extension_partial : forall gs nc0 exts d rest,
  are_bytes d -> bytes_bits d = concat (map enc_ext exts) ++ rest ->
  length gs = 16%nat -> (length exts <= 8)%nat -> 0 <= nc0 <= 16 ->
  Forall (fun e => match e with None => True | Some fs => Z.of_nat (length fs) = nc0 end) exts ->
  exists s', exec (preset_ext gs (length exts) nc0) (fresh d) = Done (Ok tt, s') /\
    bitpos s' = Z.of_nat (length (concat (map enc_ext exts))).
Proof. exact preset_ext_exact. Qed.
Print Assumptions C48_preset_extension_partial.

Example C48_case : exists s', exec (preset_ext (a_groups asi_zero) 2 2)
  (fresh (pack (concat (map enc_ext [Some [true; false]; Some [false; true]])))) = Done (Ok tt, s') /\ bitpos s' = 8.
Proof. eexists. split; vm_compute; reflexivity. Qed.

(** C49 is false for announced lengths of 32768 bytes and more in known kinds. *)
Theorem C49_scene_block_length_refuted :
  exists d s', are_bytes d /\ 8 * 32768 <= r_cnt (fresh d) /\
   exec (framed (s16 32768) (data_block (a_groups asi_zero) 0 0 0 [] 3 32768)) (fresh d) = Done (Ok tt, s') /\
   bitpos s' = 7.
Proof. exact long_block_refuted. Qed.
Print Assumptions C49_scene_block_length_refuted.

(** C49 for kinds the decoder does not know: every length. *)
Theorem C49_unknown_block_skipped : forall gs ngrp npre nc0 seen ty len s,
  wf s -> 10 <= ty -> 0 <= len < 65536 -> 8 * len <= r_cnt s ->
  exists s', exec (framed (s16 len) (data_block gs ngrp npre nc0 seen ty len)) s = Done (Ok tt, s') /\
    bitpos s' = bitpos s + 8 * len.
Proof. exact unknown_block_skipped. Qed.
Print Assumptions C49_unknown_block_skipped.

(** C49 for known kinds shorter than 32768 bytes whose content fits (missing: longer ones,
    and content larger than announced, which is not detected). *)
Theorem C49_known_block_partial : forall gs ngrp npre nc0 seen ty len s s',
  length gs = 16%nat -> (ngrp <= 16)%nat -> (npre <= 8)%nat -> 0 <= nc0 <= 16 ->
  wf s -> 0 <= len < 32768 ->
  exec (framed (s16 len) (data_block gs ngrp npre nc0 seen ty len)) s = Done (Ok tt, s') ->
  exists sp, exec (data_block gs ngrp npre nc0 seen ty len) s = Done (Ok tt, sp) /\
    (bitpos sp <= bitpos s + 8 * len -> bitpos s' = bitpos s + 8 * len).
Proof. exact known_block_skipped. Qed.
Print Assumptions C49_known_block_partial.

Example C49_case : exists s', exec (framed (s16 5) (data_block (a_groups asi_zero) 0 0 0 [] 4 5)) (fresh [0x80;1;2;3;4;5;6])
  = Done (Ok tt, s') /\ bitpos s' = 40.
Proof. eexists. split; vm_compute; reflexivity. Qed.
