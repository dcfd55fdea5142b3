(** * Properties C08, C09, C15, C16, C50-C55: MHAS packets

    Vocabulary: [mhas_header] reads a packet header, [packet_body ty len s] handles one
    packet payload in state [s], [mhas_parse n s] scans packets up to the next
    configuration, frame or PCM packet ([n] bounds the number of loop turns, see C50).
    Spec_Mhas.v defines the standard encodings: [enc_header type label length],
    [enc_ears], [enc_pcmcfg], [enc_pcmdata], [enc_louds], [enc_pkt]. *)

From Coq Require Import ZArith List Lia Bool.
From Verif Require Import Bits BitBuf BitWrite Prog Escape Asi Wp Frame Spec_Asi Lem_Asi Lem_AsiRT Lem_AsiProps
  Loud Mhas Spec_Mhas Lem_Mhas Lem_MhasRT Lem_Pcm Lem_Loud Lem_Scan Lem_MhasProps.
Import ListNotations.
Open Scope Z_scope.

(** C08 is false: a packet label of 258 or more makes the reader shift out of range. *)
Theorem C08_header_roundtrip_refuted : forall ty lb len s rest,
  wf s -> valid_header ty lb len -> 258 <= lb -> rest_bits s = enc_header ty lb len ++ rest ->
  exec mhas_header s = UB UShift.
Proof. exact exec_header_long_label. Qed.
Print Assumptions C08_header_roundtrip_refuted.

(** C08 for every type, every length and every label below 258 (missing: larger labels). *)
Theorem C08_header_roundtrip_partial : forall ty lb len s rest,
  wf s -> valid_header ty lb len -> lb < 258 -> rest_bits s = enc_header ty lb len ++ rest ->
  exists s', exec mhas_header s = Done ((ty, lb, len), s') /\ wf s' /\ rest_bits s' = rest.
Proof. exact exec_header. Qed.
Print Assumptions C08_header_roundtrip_partial.

Example C08_case : exists s', exec mhas_header (fresh (pack (enc_header 517 200 70000 ++ repeat true 9)))
   = Done ((517, 200, 70000), s') /\ firstn 9 (rest_bits s') = repeat true 9 /\ valid_header 517 200 70000.
Proof.
  eexists. split; [vm_compute; reflexivity|]. split; [vm_compute; reflexivity|].
  unfold valid_header, max_type, max_label, max_length. lia.
Qed.
Example C08_refuted_case : valid_header 1 258 0 /\
  exec mhas_header (fresh (pack (enc_header 1 258 0 ++ repeat false 64))) = UB UShift.
Proof. split; [unfold valid_header, max_type, max_label, max_length; lia|vm_compute; reflexivity]. Qed.

(** C09 is false: a loudness packet of 4 bytes is left after 1 byte ... *)
Theorem C09_framing_refuted : exists d s' st',
  exec (packet_body 22 4 mst_zero) (fresh d) = Done (Ok s', st') /\ bitpos st' = 8 /\ r_cnt (fresh d) = 32.
Proof. exact framing_loudness_refuted. Qed.
Print Assumptions C09_framing_refuted.

(** ... and a scene longer than its packet is accepted. *)
Theorem C09_framing_long_refuted : exists d s' st',
  exec (packet_body 3 2 mst_zero) (fresh d) = Done (Ok s', st') /\ 8 * 2 < bitpos st'.
Proof. exact framing_long_refuted. Qed.
Print Assumptions C09_framing_long_refuted.

(** C09 for packets other than loudness packets whose payload ends inside the packet
    (missing: loudness packets, and payloads that run over their packet). *)
Theorem C09_framing_partial : forall ty len s st s' st',
  scan_ok st s -> 0 <= len -> ty <> 1 -> ty <> 2 -> ty <> 22 ->
  exec (packet_body ty len s) st = Done (Ok s', st') ->
  bitpos st' = bitpos st + 8 * len \/
  exists e, payload_end ty s st = Some e /\ 8 * len < e - bitpos st /\ bitpos st' = e.
Proof. exact packet_framing. Qed.
Print Assumptions C09_framing_partial.

Example C09_case : scan_ok (fresh (pack (enc_scene good_scene) ++ repeat 0 20)) mst_zero /\
  exists s' st', exec (packet_body 3 100 mst_zero) (fresh (pack (enc_scene good_scene) ++ repeat 0 200)) = Done (Ok s', st')
   /\ bitpos st' = 800.
Proof.
  split; [unfold scan_ok, mst_ok; vm_compute; repeat split; try discriminate; repeat constructor; discriminate|].
  do 2 eexists. split; vm_compute; reflexivity.
Qed.

(** C15 is false: 17 earcons are accepted by the check and the 17th is out of bounds. *)
Theorem C15_earcon_table_refuted :
  exists d, are_bytes d /\ exec (mhas_parse 100 mst_zero) (fresh d) = UB UOob.
Proof. exact earcon_refuted. Qed.
Print Assumptions C15_earcon_table_refuted.

(** C15: that count is the only way to overrun (missing: the count field 16). *)
Theorem C15_earcon_table_partial : forall tab st r, ear_shape tab -> wf st ->
  exec (earcon_info tab) st = UB r -> val_of (firstn 7 (rest_bits st)) = 16.
Proof. exact earcon_safe. Qed.
Print Assumptions C15_earcon_table_partial.

Example C15_case : ear_shape (repeat ear_zero 16) /\
  exists t s', exec (earcon_info (repeat ear_zero 16)) (fresh (pack (enc_ears (repeat some_ear 16)))) = Done (Ok t, s').
Proof. split; [exact ear_shape_zero|]. do 2 eexists. vm_compute. reflexivity. Qed.

(** C16 is false: a configuration with fixed frame size 1024 makes the next data packet
    index its table of frame sizes out of bounds ... *)
Theorem C16_pcm_tables_refuted : exists d1 d2 s1 h st1,
  exec (mhas_parse 10 mst_zero) (fresh d1) = Done (Ok (s1, h), st1) /\
  exec (mhas_parse 10 s1) (fresh d2) = UB UOob /\ k_fs (m_pcm s1) = 5 /\ k_fix (m_pcm s1) = 1024.
Proof. exact pcm_refuted. Qed.
Print Assumptions C16_pcm_tables_refuted.

(** ... and frame size index 3 (2048) overruns the sample buffer. *)
Theorem C16_pcm_2048_refuted : exists d1 d2 s1 h st1,
  exec (mhas_parse 10 mst_zero) (fresh d1) = Done (Ok (s1, h), st1) /\
  exec (mhas_parse 10 s1) (fresh d2) = UB UOob /\ k_fs (m_pcm s1) = 3.
Proof. exact pcm_refuted_2048. Qed.
Print Assumptions C16_pcm_2048_refuted.

(** C16 for configuration packets: always inside the tables. *)
Theorem C16_pcm_config_safe : forall c st r, pcm_ok c -> wf st -> exec (pcm_config c) st <> UB r.
Proof. exact pcm_config_safe. Qed.
Print Assumptions C16_pcm_config_safe.
Theorem C16_pcm_config_keeps_shape : forall c st c' st',
  pcm_ok c -> wf st -> exec (pcm_config c) st = Done (c', st') -> pcm_ok c'.
Proof. exact pcm_config_keeps. Qed.
Print Assumptions C16_pcm_config_keeps_shape.
(** C16 for data packets with frame size indices up to 2 (missing: the others). *)
Theorem C16_pcm_payload_partial : forall c st r,
  pcm_ok c -> k_fs c <> 6 -> 0 <= used_index c <= 2 -> wf st -> exec (pcm_payload c) st <> UB r.
Proof. exact pcm_payload_safe. Qed.
Print Assumptions C16_pcm_payload_partial.

Example C16_case : pcm_ok pcm_zero /\ k_fs pcm_zero <> 6 /\ 0 <= used_index pcm_zero <= 2.
Proof.
  split; [unfold pcm_ok; cbn; repeat split; try lia; auto|]; split; vm_compute; (discriminate || (split; discriminate)).
Qed.

(** C50: the scan ends.  From any state with [r_cnt] bits left, [n] loop turns with
    [16 n > r_cnt] are as good as any larger number, and the turns never run out. *)
Theorem C50_scan_terminates : forall n m st s,
  scan_ok st s -> r_cnt st < 16 * Z.of_nat n -> r_cnt st < 16 * Z.of_nat m ->
  exec (mhas_parse n s) st = exec (mhas_parse m s) st /\ exec (mhas_parse n s) st <> UB UFuel.
Proof. exact mhas_parse_fuel. Qed.
Print Assumptions C50_scan_terminates.

Example C50_case : scan_ok (fresh bytes1) mst_zero /\ r_cnt (fresh bytes1) < 16 * Z.of_nat 400.
Proof.
  split; [unfold scan_ok, mst_ok; vm_compute; repeat split; try discriminate; repeat constructor; discriminate|].
  vm_compute. reflexivity.
Qed.

(** C51: scanning any sequence of ignorable, sync, user interaction and scene packets
    followed by a configuration or frame header stops right behind that header, returns
    its fields, and leaves the last scene of the sequence in force. *)
Theorem C51_scan_stream : forall n ps s ty lb len st rest,
  ty = 1 \/ ty = 2 -> label_ok lb -> 0 <= len <= max_length ->
  Forall valid_pkt ps -> shape (m_asi s) -> mst_ok s -> wf st -> r_cnt st < 16 * Z.of_nat n ->
  rest_bits st = concat (map enc_pkt ps) ++ enc_header ty lb len ++ rest ->
  exists s' st', exec (mhas_parse n s) st = Done (Ok (s', (ty, lb, len)), st') /\
    wf st' /\ rest_bits st' = rest /\
    match last_scene ps with
    | Some sc => scene_held sc (m_asi s') /\ m_asip s' = 1
    | None => m_asi s' = m_asi s /\ m_asip s' = m_asip s
    end /\
    m_eip s' = (if has_user ps then 1 else m_eip s) /\
    m_ear s' = m_ear s /\ m_pcm s' = m_pcm s /\ m_ptype s' = 0.
Proof. exact scan_stream. Qed.
Print Assumptions C51_scan_stream.

Example C51_case : last_scene stream1 = Some good_scene /\ has_user stream1 = true /\
  exists s' st', exec (mhas_parse 400 mst_zero) (fresh bytes1) = Done (Ok (s', (2, 1, 700)), st') /\
   m_asip s' = 1 /\ map g_id (active_groups (m_asi s')) = [5; 6].
Proof. split; [reflexivity|]. split; [reflexivity|]. do 2 eexists. split; [vm_compute; reflexivity|]. vm_compute. auto. Qed.
Example C51_case_valid : Forall valid_pkt stream1.
Proof. exact stream1_valid. Qed.

(** C52 is false: an earcon without text that replaces one with text reads the old texts
    again from the stream. *)
Theorem C52_earcons_refuted : exists d1 d2 t1 t2 s1 s2,
  exec (earcon_info (repeat ear_zero 16)) (fresh d1) = Done (Ok t1, s1) /\
  firstn (length (enc_ears [plain_ear])) (bytes_bits d2) = enc_ears [plain_ear] /\
  exec (earcon_info t1) (fresh d2) = Done (Ok t2, s2) /\
  bitpos s2 <> Z.of_nat (length (enc_ears [plain_ear])) /\
  (forall c, nth_error t2 0 = Some c -> ~ ear_shown plain_ear c).
Proof. exact earcon_stale_refuted. Qed.
Print Assumptions C52_earcons_refuted.

(** C52 where no entry without text replaces one with text (that is what is missing). *)
Theorem C52_earcons_partial : forall tab es st rest,
  ear_shape tab -> (1 <= length es <= 16)%nat -> Forall valid_ear es ->
  (forall i e old, nth_error es i = Some e -> nth_error tab i = Some old -> er_text e = None -> e_nlang old = 0) ->
  wf st -> rest_bits st = enc_ears es ++ rest ->
  exists cs tab' st', exec (earcon_info tab) st = Done (Ok tab', st') /\ rest_bits st' = rest /\
    firstn (length es) tab' = cs /\ Forall2 ear_shown es cs /\ skipn (length es) tab' = skipn (length es) tab /\
    ear_shape tab'.
Proof. exact earcon_exact. Qed.
Print Assumptions C52_earcons_partial.

Example C52_case : Forall valid_ear [some_ear; plain_ear] /\
  exists t s', exec (earcon_info (repeat ear_zero 16)) (fresh (pack (enc_ears [some_ear; plain_ear]))) = Done (Ok t, s')
   /\ map e_id (firstn 2 t) = [7; 8].
Proof.
  split; [repeat constructor; vm_compute; repeat split; try discriminate; repeat constructor; discriminate|].
  do 2 eexists. split; vm_compute; reflexivity.
Qed.

(** C53: the PCM configuration is stored as transmitted. *)
Theorem C53_pcm_config : forall c x st rest,
  length (k_ids c) = 128%nat -> valid_pcmcfg x -> wf st -> rest_bits st = enc_pcmcfg x ++ rest ->
  exists c' st', exec (pcm_config c) st = Done (c', st') /\ rest_bits st' = rest /\
    k_num c' = Z.of_nat (length (pc_ids x)) - 1 /\ k_align c' = b2z (pc_align x) /\
    k_rate c' = match pc_rate x with inl i => rate_of_index i | inr r => r end /\
    k_bits c' = bits_of_index (pc_bits x) /\ k_fs c' = pc_size x /\
    (pc_size x = 5 -> k_fix c' = pc_fix x) /\
    firstn (length (pc_ids x)) (k_ids c') = pc_ids x /\
    k_loud c' = pc_loud x /\ k_att c' = pc_att x /\ (pc_att x = 1 -> k_attg c' = pc_attg x).
Proof. exact pcm_config_exact. Qed.
Print Assumptions C53_pcm_config.

(** C53: the samples of a packet are stored exactly, sign included (missing: frame size
    indices other than 1 and 2, and gains per signal). *)
Theorem C53_pcm_samples_partial : forall c (b : nat) ids rows st rest,
  length (k_ids c) = 128%nat -> k_bits c = Z.of_nat b -> b = 16%nat \/ b = 24%nat \/ b = 32%nat ->
  k_fs c = 1 \/ k_fs c = 2 -> k_att c <> 2 ->
  (1 <= length ids <= 24)%nat -> Forall (fits 7) ids ->
  Z.of_nat (length rows) = frame_rows (k_fs c) ->
  Forall (fun r => length r = length ids /\ Forall (fits_signed b) r) rows ->
  wf st -> rest_bits st = enc_pcmdata b ids rows ++ rest ->
  exists c' st', exec (pcm_payload c) st = Done (c', st') /\ rest_bits st' = rest /\
    k_samples c' = rows /\ k_nsig c' = Z.of_nat (length ids) - 1 /\ firstn (length ids) (k_ids c') = ids.
Proof. exact pcm_payload_exact. Qed.
Print Assumptions C53_pcm_samples_partial.

(** The hypotheses hold for frames of three 24-bit signals with extreme values. *)
Example C53_case : let c := mkPCM 0 0 48000 24 1 0 0 (repeat 0 128) 0 0 0 0 [] in
  let rows := repeat [-8388608; 8388607; -1] (Z.to_nat (frame_rows 1)) in
  length (k_ids c) = 128%nat /\ k_bits c = Z.of_nat 24 /\ k_fs c = 1 /\ k_att c <> 2 /\
  Forall (fits 7) [5; 6; 7] /\ Z.of_nat (length rows) = frame_rows (k_fs c) /\
  Forall (fun r => length r = 3%nat /\ Forall (fits_signed 24) r) rows.
Proof.
  cbv zeta. split; [reflexivity|]. split; [reflexivity|]. split; [reflexivity|]. split; [discriminate|].
  split; [repeat constructor; unfold fits; cbn; lia|]. rewrite repeat_length. split; [reflexivity|].
  apply Forall_forall. intros r Hr. apply repeat_spec in Hr. subst r. split; [reflexivity|].
  repeat constructor; unfold fits_signed; cbn; lia.
Qed.

(** C54: a loudness information set is stored as transmitted (missing: see the refutations). *)
Theorem C54_loudness_partial : forall ls albums st rest,
  (length ls <= 36)%nat -> (length albums <= 36)%nat -> Forall valid_loud ls -> Forall valid_loud albums ->
  (albums <> [] -> Forall (fun l => ld_scope l = LAll) ls) ->
  wf st -> rest_bits st = enc_louds ls albums ++ rest ->
  exists st', exec loudness_info_set st = Done (Ok (mkLS (map stored_loud ls) (map (stored_body 0 0 0) albums)), st') /\
    rest_bits st' = rest.
Proof. exact loudness_exact. Qed.
Print Assumptions C54_loudness_partial.

(** C54 is false: an album entry erases the scope of the plain entry with its index. *)
Theorem C54_album_refuted : exists d x s',
  firstn (length (enc_louds [tiny_loud] [tiny_loud])) (bytes_bits d) = enc_louds [tiny_loud] [tiny_loud] /\
  exec loudness_info_set (fresh d) = Done (Ok x, s') /\ map li_type (ls_info x) <> [scope_type (ld_scope tiny_loud)].
Proof. exact loudness_album_clears. Qed.
Print Assumptions C54_album_refuted.

Example C54_case : valid_loud some_loud /\ valid_loud tiny_loud /\
  exists x s', exec loudness_info_set (fresh (pack (enc_louds [some_loud; tiny_loud] []))) = Done (Ok x, s') /\
   ls_info x = map stored_loud [some_loud; tiny_loud].
Proof.
  split; [unfold valid_loud; vm_compute; repeat split; try discriminate; repeat constructor; discriminate|].
  split; [unfold valid_loud; vm_compute; repeat split; try discriminate; repeat constructor; discriminate|].
  do 2 eexists. split; vm_compute; reflexivity.
Qed.

(** C55 is false: 37 loudness entries overrun the table of 36. *)
Theorem C55_loudness_tables_refuted :
  exists d, firstn (length (enc_louds (repeat tiny_loud 37) [])) (bytes_bits d) = enc_louds (repeat tiny_loud 37) [] /\
  exec loudness_info_set (fresh d) = UB UOob.
Proof. exact loudness_overrun. Qed.
Print Assumptions C55_loudness_tables_refuted.

(** C55: one of the two counts above 36 is the only way to overrun. *)
Theorem C55_loudness_tables_partial : forall st r, wf st -> exec loudness_info_set st = UB r ->
  36 < val_of (firstn 6 (rest_bits st)) \/
  exists s0 infos s1, rest_bits s0 = skipn 6 (rest_bits st) /\
    exec (loudness_infos (val_of (firstn 6 (rest_bits st)))) s0 = Done (Ok infos, s1) /\
    36 < val_of (firstn 6 (skipn 1 (rest_bits s1))).
Proof. exact loudness_safe. Qed.
Print Assumptions C55_loudness_tables_partial.

Example C55_case : exec loudness_info_set (fresh (pack (enc_louds [] (repeat tiny_loud 40)))) = UB UOob.
Proof. vm_compute. reflexivity. Qed.
