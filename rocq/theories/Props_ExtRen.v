(** * Properties of what is handed to an external renderer *)
From Coq Require Import ZArith List Lia Bool Floats.SpecFloat.
From Verif Require Import Bits BitBuf BitWrite Prog Wp F32 Pcm Spec_Pcm Config Hoa Oam
  Spec_Config Spec_ConfigFull ExtRen Spec_ExtRen Lem_ExtRen Lem_ExtRenCh Lem_ExtRenOb Lem_ExtRenHo Lem_ExtRenTot Lem_ExtRenWit
  ExtPcm Lem_ExtPcm.
Import ListNotations.
Open Scope Z_scope.

(** The metadata is read by the parsers p_gca, p_goa and p_gha of Spec_ExtRen, written after
    the payload syntax; [reads p d v]: the renderer finds [v] in the memory [d]. *)

(** ** C97: channel metadata *)

(** When the channel groups come first, have index or list layouts and no production metadata,
    and every downmix matrix is for the target layout, the renderer reads exactly the groups
    of the configuration, and the only effect on the configuration is that the index of a
    list layout is lost. *)
Theorem C97_channels_partial : forall c dm mem, ch_ok c -> dmx_for c dm -> are_bytes mem -> (0 < length mem)%nat ->
  exists d n c' gs, ch_store c mem = Done (d, n, c') /\ length d = length mem /\
    length gs = Z.to_nat (q_gch (c_sig c)) /\
    (forall i g, nth_error gs i = Some g -> ch_view c dm i g) /\
    (n <= Z.of_nat (length mem) -> reads p_gca d (mkFc 16 0 0, gs)) /\
    exists ls, c' = s_c_lay c ls /\ length ls = length (q_lay (c_sig c)) /\
      forall i l, nth_error (q_lay (c_sig c)) i = Some l -> nth_error ls i = Some (lay_after c i l).
Proof. exact send_channels. Qed.
Print Assumptions C97_channels_partial.

Example C97_case : ch_ok ch_ex /\ dmx_for ch_ex (Some gd_ex).
Proof. exact ch_ex_ok. Qed.

Example C97_case_active : ch_ok ch_act /\ dmx_for ch_act (Some (mkGd (Some (0, Some 5, 1)) [])).
Proof. exact ch_act_ok. Qed.
Example C97_case_read : exists d n c', ch_store ch_ex (repeat 255 40) = Done (d, n, c') /\ n <= 40 /\
  reads p_gca d (mkFc 16 0 0,
    [mkGg 2 (GIndex 2) [0; 0] 0 1 96 (Some gd_ex) [];
     mkGg 3 (GList [0; 1; 2]) [0; 0; 0] 1 5 96 (Some gd_ex) []]).
Proof. exact ch_ex_read. Qed.

(** C97 is false when an object group comes before the channel group: the renderer gets the
    number of signals and the layout of the object group. *)
Theorem C97_order_refuted : exists d n c' f g s,
    nth_error (q_type (c_sig ch_late)) 1 = Some 0 /\ nth_error (q_nsig (c_sig ch_late)) 1 = Some 2 /\
    nth_error (q_lay (c_sig ch_late)) 1 = Some (lidx 2) /\ q_gch (c_sig ch_late) = 1 /\
    ch_store ch_late (repeat 0 32) = Done (d, n, c') /\ n <= 32 /\
    exec p_gca (fresh d) = Done ((f, [g]), s) /\ gg_n g = 3 /\ gg_lay g = GIndex 0.
Proof. exact object_group_first. Qed.
Print Assumptions C97_order_refuted.

(** C97 is false for the stream that follows: the writer destroys the index of a list layout,
    and reading the same configuration again indexes a table with it. *)
Theorem C97_reconfigure_refuted : exists l s d n c',
    exec (group_layout lay_zero 2 2) (fresh [66; 0; 8]) = Done ((0, l), s) /\
    l_type l = 1 /\ firstn 2 (l_spk l) = [0; 1] /\
    ch_store (mkCh (sg [0] [2] [l] [0] [0] 1 0 0) [0] 0 dmxc0 nopm 2) (repeat 0 32) = Done (d, n, c') /\
    exists l', nth_error (q_lay (c_sig c')) 0 = Some l' /\
      exec (group_layout l' 2 2) (fresh [66; 0; 8]) = UB UOob.
Proof. exact layout_again. Qed.
Print Assumptions C97_reconfigure_refuted.

(** C97 is false for a flexible layout: a loudspeaker at 90 degrees is written in another
    syntax than it is read in by the library itself. *)
Theorem C97_flexible_refuted : exists l s also ops l2 d n l3 s3 f f3,
    exec (group_layout lay_flex0 1 1) (fresh [128; 9; 0]) = Done ((0, l), s) /\
    x_spk3d l also = Done (ops, l2) /\ x_store ops (repeat 0 8) = Done (d, n) /\
    exec (group_layout lay_flex0 1 1) (fresh d) = Done ((0, l3), s3) /\
    nth_error (l_flex l) 0 = Some f /\ nth_error (l_flex l3) 0 = Some f3 /\
    f_az f = 90 /\ f_az f3 <> 90.
Proof. exact flexible_layout. Qed.
Print Assumptions C97_flexible_refuted.

(** C97 is false with a downmix matrix for another layout: it is announced but not written. *)
Theorem C97_downmix_refuted : exists d n c' f g gs s l,
    ch_store ch_other (repeat 0 40) = Done (d, n, c') /\ n <= 40 /\
    exec p_gca (fresh d) = Done ((f, g :: gs), s) /\
    gg_dmx g = Some (mkGd None l) /\ length l = 1%nat /\ l <> [mkDent 5 2 (Some [mt_ex])].
Proof. exact other_downmix. Qed.
Print Assumptions C97_downmix_refuted.

(** C97 is false with production metadata: the group after it is not found. *)
Theorem C97_production_refuted : exists d n c' g k s,
    ch_store ch_prod (repeat 0 40) = Done (d, n, c') /\ n <= 40 /\
    exec (p_frame ;;; rd 9 ;;; g <- p_gca_group ;; k <- rd 16 ;; Ret (g, k)) (fresh d) = Done ((g, k), s) /\
    gg_n g = 2 /\ k <> 2.
Proof. exact production_length. Qed.
Print Assumptions C97_production_refuted.

(** ** C98: object metadata *)

(** With one object group whose properties agree with those the writer takes and without
    production metadata, the renderer reads every object: id, the position of every
    sub-frame, priorities, the divergence range and the predefined excluded sectors.  Of
    diffuseness, divergence and sectors by angles it reads the whole part. *)
Theorem C98_objects_partial : forall b nfr grp off mem, ob_ok b nfr grp off -> are_bytes mem -> (0 < length mem)%nat ->
  exists d n gs, ob_store b mem = Done (d, n) /\ length d = length mem /\
    length gs = Z.to_nat (o_n (b_st b)) /\
    (forall i g, nth_error gs i = Some g -> ob_view b nfr grp off i g) /\
    (n <= Z.of_nat (length mem) -> reads p_goa d (mkFc (oc_fl (b_cfg b) / 64) 0 0, gs, [])).
Proof. exact send_objects. Qed.
Print Assumptions C98_objects_partial.

Example C98_case : forall n nfr secs, (1 <= n <= 24)%nat -> In nfr [1; 2; 4]%nat -> (length secs <= 15)%nat ->
  Forall sect_ok secs -> ob_ok (ob_ex n nfr secs) nfr 1 2.
Proof. exact ob_ex_ok. Qed.

Example C98_case_read : exists d n, ob_store (ob_ex 2 1 [sec_ex]) (repeat 255 40) = Done (d, n) /\ n <= 40 /\
  let g i := mkGo i [Some (mkGp (-30) 12 7 (-5) (Some 6) (SpFull 60 9 3))] 1 2 0 0 5 [GPredef 4] in
  reads p_goa d (mkFc 16 0 0, [g 2; g 3], []).
Proof. exact ob_ex_read. Qed.

(** C98 is false for every diffuseness but zero: the coded value never comes back. *)
Theorem C98_diffuseness_refuted : forall b nfr grp off mem i v, ob_ok b nfr grp off -> are_bytes mem -> (0 < length mem)%nat ->
  (i < Z.to_nat (o_n (b_st b)))%nat -> nth_error (e_diff (b_enh b)) i = Some (coded7 v) -> 1 <= v <= 127 ->
  exists d n, ob_store b mem = Done (d, n) /\
    (n <= Z.of_nat (length mem) ->
     exists f gs g, reads p_goa d (f, gs, []) /\ nth_error gs i = Some g /\ go_diff g <> v).
Proof. exact diffuseness_lost. Qed.
Print Assumptions C98_diffuseness_refuted.

(** C98 is false for every excluded sector given by angles: no azimuth comes back, and of the
    elevations at most the code 18. *)
Theorem C98_sectors_refuted : forall b nfr grp off mem i k ex idx az1 az2 el1 el2, ob_ok b nfr grp off -> are_bytes mem -> (0 < length mem)%nat ->
  (i < Z.to_nat (o_n (b_st b)))%nat -> nth_error (e_exc (b_enh b)) i = Some ex -> (Z.of_nat k < ex_num ex) ->
  nth_error (ex_sec ex) k = Some (mkSec 0 idx (ang_az az1) (ang_az az2) (ang_el el1) (ang_el el2)) ->
  0 <= az1 < 128 -> 0 <= az2 < 128 -> 0 <= el1 < 32 -> 0 <= el2 < 32 ->
  exists d n, ob_store b mem = Done (d, n) /\
    (n <= Z.of_nat (length mem) ->
     exists f gs g a' b' e' f', reads p_goa d (f, gs, []) /\ nth_error gs i = Some g /\
       nth_error (go_sect g) k = Some (GAngles a' b' e' f') /\ a' <> az1 /\ b' <> az2 /\ (e' = el1 -> el1 = 18) /\ (f' = el2 -> el2 = 18)).
Proof. exact angles_lost. Qed.
Print Assumptions C98_sectors_refuted.

Example C98_lost_case : ob_ok (ob_exd (coded7 64) 2 1 [ang_ex]) 1 1 2 /\
  exists d n, ob_store (ob_exd (coded7 64) 2 1 [ang_ex]) (repeat 0 40) = Done (d, n) /\ n <= 40.
Proof. exact diffuse_ex. Qed.

(** C98 is false when another group comes first: the object gets the fixed position and the
    priority of the group with its own number. *)
Theorem C98_properties_refuted : exists d n f g s,
    nth_error (q_type (b_sig ob_props)) 1 = Some 1 /\ nth_error (q_nsig (b_sig ob_props)) 1 = Some 1 /\
    nth_error (q_fixed (b_sig ob_props)) 1 = Some 0 /\ nth_error (q_prio (b_sig ob_props)) 1 = Some 2 /\
    ob_store ob_props (repeat 0 40) = Done (d, n) /\ n <= 40 /\
    exec p_goa (fresh d) = Done ((f, [g], []), s) /\ go_fixed g = 1 /\ go_prio g = 7.
Proof. exact object_properties. Qed.
Print Assumptions C98_properties_refuted.

(** C98 is false with two object groups: the second object does not get its id. *)
Theorem C98_ids_refuted : exists d n f g h s,
    b_ids ob_two = Some [[10; 0]; [20; 0]] /\ q_nsig (b_sig ob_two) = [1; 1] /\ q_type (b_sig ob_two) = [1; 1] /\
    ob_store ob_two (repeat 0 40) = Done (d, n) /\ n <= 40 /\
    exec p_goa (fresh d) = Done ((f, [g; h], []), s) /\ go_id g = 10 /\ go_id h <> 20.
Proof. exact object_ids. Qed.
Print Assumptions C98_ids_refuted.

(** C98 is false with production metadata: three bytes are announced and not written. *)
Theorem C98_production_refuted : exists ops d n, x_oam_meta ob_prod = Done (ops ++ [WB 1 3; WB 0 3; WB 3 10]) /\
    ob_store ob_prod (repeat 255 40) = Done (d, n) /\ n <= 40 /\
    exists f g s, exec p_goa (fresh d) = Done ((f, [g], [(0, [255; 255; 255])]), s).
Proof. exact object_production. Qed.
Print Assumptions C98_production_refuted.

(** ** C99: HOA metadata *)

(** Without near field distance, rendering matrix and production metadata the renderer reads
    every HOA group: order, fixed position, priority and the screen. *)
Theorem C99_hoa_partial : forall a mem, ho_ok a -> are_bytes mem -> (0 < length mem)%nat ->
  exists d n gs, ho_store a mem = Done (d, n) /\ length d = length mem /\
    Forall2 (ho_view a) (hoa_at (firstn (Z.to_nat (q_num (a_sig a))) (q_type (a_sig a))) 0) gs /\
    (n <= Z.of_nat (length mem) -> reads p_gha d (mkFc (a_fl a / 64) 0 0, gs)).
Proof. exact send_hoa. Qed.
Print Assumptions C99_hoa_partial.

Example C99_case : ho_ok (ho_ex 0 (of_int 0) 0).
Proof. exact ho_ex_ok. Qed.

Example C99_case_read : exists d n, ho_store (ho_ex 0 (of_int 0) 0) (repeat 255 80) = Done (d, n) /\ n <= 80 /\
  let sc := Some (mkGs (Some (100, 200, 300)) (Some (600, 700)) [(3, GCentered 50 10 30); (4, GSides 60 900 20 40)]) in
  reads p_gha d (mkFc 16 0 0, [mkGh 1 2 3 None None sc; mkGh 1 4 3 None None sc]).
Proof. exact ho_ex_read. Qed.

(** C99 is false for the near field distance: 0.5 and 0.75 give the same payload. *)
Theorem C99_near_field_refuted : lit 1 2 <> lit 3 4 /\
  forall mem, ho_store (ho_ex 1 (lit 1 2) 0) mem = ho_store (ho_ex 1 (lit 3 4) 0) mem.
Proof. exact near_field. Qed.
Print Assumptions C99_near_field_refuted.

Example C99_near_field_case : exists ops, x_hoa_meta (ho_ex 1 (lit 1 2) 0) = Done ops.
Proof. exact near_field_written. Qed.

(** C99 is false with a rendering matrix of 100 bits: after it the screens of the two groups,
    which are the same, are read differently. *)
Theorem C99_matrix_refuted : exists d n f g h s, ho_store (ho_ex 0 (of_int 0) 1) (repeat 0 120) = Done (d, n) /\ n <= 120 /\
    exec p_gha (fresh d) = Done ((f, [g; h]), s) /\
    (exists l, gh_mat g = Some l /\ length l = 100%nat) /\ gh_screen g <> gh_screen h.
Proof. exact matrix_cut. Qed.
Print Assumptions C99_matrix_refuted.

(** ** C100: metadata buffers *)

(** Whatever the state, every channel payload is written inside its buffer and the length
    reported is that of the payload in whole bytes. *)
Theorem C100_channels_safe_partial : forall c mem, (0 < length mem)%nat -> forall ops c', x_ch_meta c = Done (ops, c') ->
  exists d, ch_store c mem = Done (d, (size ops + 7) / 8, c') /\ length d = length mem.
Proof. exact ch_total. Qed.
Print Assumptions C100_channels_safe_partial.

(** The same for the objects, *)
Theorem C100_objects_safe_partial : forall b mem, (0 < length mem)%nat -> forall ops, x_oam_meta b = Done ops ->
  exists d, ob_store b mem = Done (d, (size ops + 7) / 8) /\ length d = length mem.
Proof. exact ob_total. Qed.
Print Assumptions C100_objects_safe_partial.

(** and for HOA. *)
Theorem C100_hoa_safe_partial : forall a mem, (0 < length mem)%nat -> forall ops, x_hoa_meta a = Done ops ->
  exists d, ho_store a mem = Done (d, (size ops + 7) / 8) /\ length d = length mem.
Proof. exact ho_total. Qed.
Print Assumptions C100_hoa_safe_partial.

(** At most 24 objects in at most 4 sub-frames with at most 5 predefined sectors each always
    fit the 768 bytes. *)
Theorem C100_objects_fit_partial : forall b mem, length mem = 768%nat -> forall ops, x_oam_meta b = Done ops ->
  0 <= o_n (b_st b) <= 24 -> 0 <= Z.quot (oc_ccfl (b_cfg b)) (oc_fl (b_cfg b)) <= 4 ->
  (forall i ex, nth_error (e_exc (b_enh b)) i = Some ex -> ex_num ex <= 5 /\ Forall (fun s => sc_pre s = 1) (ex_sec ex)) ->
  exists d n, ob_store b mem = Done (d, n) /\ length d = 768%nat /\ n <= 768.
Proof. exact objects_fit. Qed.
Print Assumptions C100_objects_fit_partial.

Example C100_case : ob_ok (ob_exd (coded7 64) 2 1 [ang_ex]) 1 1 2 /\
  exists d n, ob_store (ob_exd (coded7 64) 2 1 [ang_ex]) (repeat 0 40) = Done (d, n) /\ n <= 40.
Proof. exact diffuse_ex. Qed.

(** C100 is false with 15 sectors: the length reported is beyond the buffer, whose start has
    been overwritten. *)
Theorem C100_objects_fit_refuted : exists mem d n, length mem = 768%nat /\
  ob_ok (ob_ex 24 4 (repeat sec_ex 15)) 4 1 2 /\
  ob_store (ob_ex 24 4 (repeat sec_ex 15)) mem = Done (d, n) /\ 768 < n.
Proof. exact ob_big. Qed.
Print Assumptions C100_objects_fit_refuted.

(** ** C101: samples *)

(** While no decoded sample exceeds 256 times full scale, the renderer gets the 24-bit words of
    all channels, objects and HOA signals, interleaved, least significant byte first, and the
    length reported is the number of bytes written. *)
Theorem C101_samples_partial : forall x nc no nh w, 0 <= nc -> 0 <= no -> 0 <= nh ->
  (forall c s, 0 <= c < nc + no + nh -> 0 <= s < 1024 -> float32 (x c s) /\ in_reach (x c s)) ->
  (forall c s, 0 <= c < nc + no + nh -> 0 <= s < 1024 -> word_of 24 (x c s) (w c s)) ->
  exists b, x_pcm x nc no nh 1024 = Some (b, Z.of_nat (length b)) /\ b = interleaved 24 (nc + no + nh) w 0 1024.
Proof. exact x_pcm_ok. Qed.
Print Assumptions C101_samples_partial.

(** C101 is false for a sample beyond, an infinity or a not-a-number: the conversion to an
    integer before the limit is undefined. *)
Theorem C101_overload_refuted : forall x s nc no nh, 0 < nc + no + nh -> 0 <= s < 1024 ->
  float32 (x 0 s) -> (forall v, value149 (x 0 s) = Some v -> v <= - ((2 ^ 23 + 1) * 2 ^ 149) \/ 2 ^ 23 * 2 ^ 149 <= v) ->
  x_pcm x nc no nh 1024 = None.
Proof. exact x_pcm_out. Qed.
Print Assumptions C101_overload_refuted.

Example C101_case : (float32 (of_int 100000) /\ in_reach (of_int 100000) /\ word_of 24 (of_int 100000) 8388607) /\
  (float32 (of_int 16777216) /\ forall v, value149 (of_int 16777216) = Some v ->
     v <= - ((2 ^ 23 + 1) * 2 ^ 149) \/ 2 ^ 23 * 2 ^ 149 <= v).
Proof.
  assert (V : exists v, value149 (of_int 100000) = Some v /\ v = 100000 * 2 ^ 149) by (eexists; split; vm_compute; reflexivity).
  destruct V as (v & V & ->). split; [split; [reflexivity|split]|split; [reflexivity|]].
  - exists (100000 * 2 ^ 149). split; [exact V|]. lia.
  - exists (100000 * 2 ^ 149). split; [exact V|]. vm_compute. reflexivity.
  - assert (W : value149 (of_int 16777216) = Some (16777216 * 2 ^ 149)) by (vm_compute; reflexivity).
    intros v E. rewrite W in E. injection E as <-. right. vm_compute. discriminate.
Qed.
