(** * Lem_MhasProps: concrete streams and statements on the concrete reader *)

From Coq Require Import ZArith List Lia Bool.
From Verif Require Import Bits BitBuf BitWrite Prog Escape Asi Wp Wlp Frame Loops Spec_Asi Lem_Asi Lem_AsiRT
  Lem_AsiProps Loud Mhas Spec_Mhas Lem_Mhas Lem_MhasRT Lem_Pcm Lem_Loud Lem_Scan.
Import ListNotations.
Open Scope Z_scope.

(** Transport of a completed run on bits to the concrete reader, without [wp]. *)
Lemma exec_of_run {A} (p : prog A) st x rest :
  wf st -> runA p (rest_bits st) = Done (x, rest) ->
  exists st', exec p st = Done (x, st') /\ wf st' /\ rest_bits st' = rest.
Proof.
  intros W E. pose proof (exec_refines p st W) as R. rewrite E in R. exact R.
Qed.

(** A freshly allocated state. *)
Definition ear_zero := mkEC 0 0 0 0 0 0 0 0 0 0 0 (repeat (0, []) 16).
Definition pcm_zero := mkPCM 0 0 0 0 0 0 0 (repeat 0 128) 0 0 0 0 [].
Definition mst_zero := mkM asi_zero 0 0 (repeat ear_zero 16) 0 pcm_zero 0 0 0 0.

Lemma are_bytes_pack_b d : forallb (fun b => (0 <=? b) && (b <? 256)) d = true -> are_bytes d.
Proof.
  rewrite forallb_forall. intros H. apply Forall_forall. intros b Hb. apply H in Hb. unfold is_byte. lia.
Qed.

(** ** Earcons *)
Definition some_ear := {| er_indep := true; er_id := 7; er_type := 3; er_active := true;
  er_pos := AtPoint 200 33 400; er_gain := Some 99; er_text := Some [(0x656E67, [66; 101; 101; 112])] |}.
Definition plain_ear := {| er_indep := false; er_id := 8; er_type := 1; er_active := false;
  er_pos := AtFront 2; er_gain := None; er_text := None |}.

Lemma ear_shape_zero : ear_shape (repeat ear_zero 16).
Proof. split; [reflexivity|]. repeat (constructor; [split; [reflexivity|cbn; lia]|]). constructor. Qed.

Definition d17 := pack (enc_header 19 0 60 ++ enc_ears (repeat plain_ear 17) ++ repeat false 200).
Lemma earcon_refuted : exists d, are_bytes d /\ exec (mhas_parse 100 mst_zero) (fresh d) = UB UOob.
Proof. exists d17. split; [apply are_bytes_pack_b; vm_compute; reflexivity|vm_compute; reflexivity]. Qed.

Definition d_text := pack (enc_ears [some_ear] ++ repeat false 8).
Definition d_plain := pack (enc_ears [plain_ear] ++ repeat false 100).
Lemma earcon_stale_refuted : exists d1 d2 t1 t2 s1 s2,
  exec (earcon_info (repeat ear_zero 16)) (fresh d1) = Done (Ok t1, s1) /\
  firstn (length (enc_ears [plain_ear])) (bytes_bits d2) = enc_ears [plain_ear] /\
  exec (earcon_info t1) (fresh d2) = Done (Ok t2, s2) /\
  bitpos s2 <> Z.of_nat (length (enc_ears [plain_ear])) /\
  (forall c, nth_error t2 0 = Some c -> ~ ear_shown plain_ear c).
Proof.
  exists d_text, d_plain. do 4 eexists.
  split; [vm_compute; reflexivity|]. split; [vm_compute; reflexivity|]. split; [vm_compute; reflexivity|].
  split; [vm_compute; discriminate|]. intros c E. inversion E; subst. unfold ear_shown. cbn.
  intros (_ & _ & _ & _ & _ & _ & X). discriminate.
Qed.

Lemma earcon_exact tab es st rest :
  ear_shape tab -> (1 <= length es <= 16)%nat -> Forall valid_ear es ->
  (forall i e old, nth_error es i = Some e -> nth_error tab i = Some old -> er_text e = None -> e_nlang old = 0) ->
  wf st -> rest_bits st = enc_ears es ++ rest ->
  exists cs tab' st', exec (earcon_info tab) st = Done (Ok tab', st') /\ rest_bits st' = rest /\
    firstn (length es) tab' = cs /\ Forall2 ear_shown es cs /\ skipn (length es) tab' = skipn (length es) tab /\
    ear_shape tab'.
Proof.
  intros Sh HL HV HT W HR. destruct (earcon_info_rt tab es rest Sh HL HV HT) as (cs & F & S2 & E).
  rewrite <- HR in E. destruct (exec_of_run _ _ _ _ W E) as (st' & X & W' & R').
  assert (L := F2_length _ _ _ F).
  exists cs, (cs ++ skipn (length es) tab), st'. split; [exact X|]. split; [exact R'|].
  split; [rewrite L, firstn_app, Nat.sub_diag, firstn_all; cbn [firstn]; apply app_nil_r|].
  split; [exact F|]. split; [|exact S2].
  rewrite L at 1. rewrite skipn_app, Nat.sub_diag, skipn_all. reflexivity.
Qed.

(** ** PCM *)
Definition cfg_with (size fixd : Z) := {| pc_align := false; pc_rate := inl 3; pc_bits := 0; pc_size := size;
  pc_fix := fixd; pc_ids := [0]; pc_loud := 0; pc_att := 0; pc_attg := 0 |}.
Definition cfg_packet (size fixd : Z) :=
  pack (enc_header 20 0 6 ++ enc_pcmcfg (cfg_with size fixd) ++ repeat false 24).
Definition data_packet (n : nat) := pack (enc_header 21 0 1 ++ enc_pcmdata 16 [0] (repeat [0] n)).

Lemma pcm_refuted : exists d1 d2 s1 h st1,
  exec (mhas_parse 10 mst_zero) (fresh d1) = Done (Ok (s1, h), st1) /\
  exec (mhas_parse 10 s1) (fresh d2) = UB UOob /\ k_fs (m_pcm s1) = 5 /\ k_fix (m_pcm s1) = 1024.
Proof.
  exists (cfg_packet 5 1024), (data_packet 4). do 3 eexists. split; [vm_compute; reflexivity|].
  split; [vm_compute; reflexivity|]. split; vm_compute; reflexivity.
Qed.
Lemma pcm_refuted_2048 : exists d1 d2 s1 h st1,
  exec (mhas_parse 10 mst_zero) (fresh d1) = Done (Ok (s1, h), st1) /\
  exec (mhas_parse 10 s1) (fresh d2) = UB UOob /\ k_fs (m_pcm s1) = 3.
Proof.
  exists (cfg_packet 3 0), (data_packet 1030). do 3 eexists. split; [vm_compute; reflexivity|].
  split; [|vm_compute; reflexivity].
  vm_compute. reflexivity.
Qed.

Lemma pcm_config_safe c st r : pcm_ok c -> wf st -> exec (pcm_config c) st <> UB r.
Proof. intros H W E. pose proof (wp_exec _ _ st (wp_pcm_config c H) W) as X. rewrite E in X. exact X. Qed.
Lemma pcm_config_keeps c st c' st' : pcm_ok c -> wf st -> exec (pcm_config c) st = Done (c', st') -> pcm_ok c'.
Proof. intros H W E. pose proof (wp_exec _ _ st (wp_pcm_config c H) W) as X. rewrite E in X. apply X. Qed.
Lemma pcm_payload_safe c st r : pcm_ok c -> k_fs c <> 6 -> 0 <= used_index c <= 2 -> wf st ->
  exec (pcm_payload c) st <> UB r.
Proof. intros H N U W E. pose proof (wp_exec _ _ st (wp_pcm_payload c H N U) W) as X. rewrite E in X. exact X. Qed.

Lemma pcm_config_exact c x st rest :
  length (k_ids c) = 128%nat -> valid_pcmcfg x -> wf st -> rest_bits st = enc_pcmcfg x ++ rest ->
  exists c' st', exec (pcm_config c) st = Done (c', st') /\ rest_bits st' = rest /\
    k_num c' = Z.of_nat (length (pc_ids x)) - 1 /\ k_align c' = b2z (pc_align x) /\
    k_rate c' = match pc_rate x with inl i => rate_of_index i | inr r => r end /\
    k_bits c' = bits_of_index (pc_bits x) /\ k_fs c' = pc_size x /\
    (pc_size x = 5 -> k_fix c' = pc_fix x) /\
    firstn (length (pc_ids x)) (k_ids c') = pc_ids x /\
    k_loud c' = pc_loud x /\ k_att c' = pc_att x /\ (pc_att x = 1 -> k_attg c' = pc_attg x).
Proof.
  intros H V W HR. destruct (pcm_config_rt c x rest H V) as (c' & E & K). rewrite <- HR in E.
  destruct (exec_of_run _ _ _ _ W E) as (st' & X & W' & R'). exists c', st'. intuition.
Qed.
Lemma pcm_payload_exact c (b : nat) ids rows st rest :
  length (k_ids c) = 128%nat -> k_bits c = Z.of_nat b -> b = 16%nat \/ b = 24%nat \/ b = 32%nat ->
  k_fs c = 1 \/ k_fs c = 2 -> k_att c <> 2 ->
  (1 <= length ids <= 24)%nat -> Forall (fits 7) ids ->
  Z.of_nat (length rows) = frame_rows (k_fs c) ->
  Forall (fun r => length r = length ids /\ Forall (fits_signed b) r) rows ->
  wf st -> rest_bits st = enc_pcmdata b ids rows ++ rest ->
  exists c' st', exec (pcm_payload c) st = Done (c', st') /\ rest_bits st' = rest /\
    k_samples c' = rows /\ k_nsig c' = Z.of_nat (length ids) - 1 /\ firstn (length ids) (k_ids c') = ids.
Proof.
  intros H1 H2 H3 H4 H5 H6 H7 H8 H9 W HR.
  destruct (pcm_payload_rt c b ids rows rest H1 H2 H3 H4 H5 H6 H7 H8 H9) as (c' & E & K). rewrite <- HR in E.
  destruct (exec_of_run _ _ _ _ W E) as (st' & X & W' & R'). exists c', st'. intuition.
Qed.

(** ** Loudness *)
Definition some_meas := {| ms_method := 1; ms_code := 139; ms_sys := 2; ms_rel := 3 |}.
Definition some_loud := {| ld_scope := LGroup 9; ld_set := 4; ld_dmx := 1; ld_peak := Some 640;
  ld_true := Some (600, 2, 3); ld_meas := [some_meas; some_meas] |}.
Definition tiny_loud := {| ld_scope := LGroup 9; ld_set := 0; ld_dmx := 0; ld_peak := None; ld_true := None; ld_meas := [] |}.

Lemma loudness_exact ls albums st rest :
  (length ls <= 36)%nat -> (length albums <= 36)%nat -> Forall valid_loud ls -> Forall valid_loud albums ->
  (albums <> [] -> Forall (fun l => ld_scope l = LAll) ls) ->
  wf st -> rest_bits st = enc_louds ls albums ++ rest ->
  exists st', exec loudness_info_set st = Done (Ok (mkLS (map stored_loud ls) (map (stored_body 0 0 0) albums)), st') /\
    rest_bits st' = rest.
Proof.
  intros H1 H2 H3 H4 H5 W HR. assert (E := loudness_set_rt ls albums rest H1 H2 H3 H4 H5). rewrite <- HR in E.
  destruct (exec_of_run _ _ _ _ W E) as (st' & X & W' & R'). exists st'. auto.
Qed.
Lemma loudness_overrun : exists d, firstn (length (enc_louds (repeat tiny_loud 37) [])) (bytes_bits d)
    = enc_louds (repeat tiny_loud 37) [] /\
  exec loudness_info_set (fresh d) = UB UOob.
Proof. exists (pack (enc_louds (repeat tiny_loud 37) [])). split; vm_compute; reflexivity. Qed.
Lemma loudness_album_clears : exists d x s',
  firstn (length (enc_louds [tiny_loud] [tiny_loud])) (bytes_bits d) = enc_louds [tiny_loud] [tiny_loud] /\
  exec loudness_info_set (fresh d) = Done (Ok x, s') /\ map li_type (ls_info x) <> [scope_type (ld_scope tiny_loud)].
Proof.
  exists (pack (enc_louds [tiny_loud] [tiny_loud])). do 2 eexists. split; [vm_compute; reflexivity|].
  split; [vm_compute; reflexivity|]. vm_compute. discriminate.
Qed.
Lemma wp_loudness_info ty grp pre : wp (loudness_info ty grp pre) (fun _ => True).
Proof.
  assert (M : wp loudness_measure (fun _ => True)).
  { unfold loudness_measure. apply wp_bindi, wp_rd; [lia|]. intros m Hm. wp1; [wps; exact I|].
    apply wp_bindi, wp_rd; [unfold method_bits; destruct (m =? 8); [lia|]; destruct (m =? 7); lia|].
    intros. wps; exact I. }
  unfold loudness_info. apply wp_bindi, (wp_mono _ (fun _ => True)); [|wps; exact I]. intros id _. cbv beta.
  apply wp_bindi, (wp_mono _ (fun _ => True)); [|wps; exact I]. intros t0 _. cbv beta.
  apply wp_bindi, (wp_mono _ (fun _ => True)); [|wps; exact I]. intros pk _. cbv beta.
  apply wp_bindi, (wp_mono _ (fun _ => True)); [|wps; exact I]. intros tp _. cbv beta.
  apply wp_bindi, (wp_mono _ (fun _ => True)); [|wps; exact I]. intros [[tl ts] tr] _. cbv beta iota.
  apply wp_bindi, wp_rd; [lia|]. intros n0 Hn0. change (2 ^ 4) with 16 in Hn0.
  apply wp_bindi, (wp_mono _ (fun _ => True)); [intros [?|?] _; wps; exact I|].
  unfold loudness_measures. eapply (wp_forR (fun _ _ => True) (fun _ => True)); auto.
  intros k t1 Hk _. unfold MEASUREMENT_MAX. apply wp_bindi, wp_chk; [lia|].
  apply wp_bindi, (wp_mono _ (fun _ => True)); [intros [?|?] _; wps; exact I|exact M].
Qed.
Lemma wp_loudness_albums n infos : n <= 36 -> wp (loudness_albums n infos) (fun _ => True).
Proof.
  intros Hn. unfold loudness_albums. eapply (wp_forR (fun _ _ => True) (fun _ => True)); auto.
  intros j [al inf] Hj _. unfold LOUDNESS_INFO_MAX. apply wp_bindi, wp_chk; [lia|]. cbv zeta.
  apply wp_bindi, (wp_mono _ (fun _ => True)); [intros [?|?] _; wps; exact I|apply wp_loudness_info].
Qed.
Lemma wp_read_ones n : wp (read_ones n) (fun _ => True).
Proof.
  unfold read_ones. eapply (wp_for (fun _ _ => True)); [exact I| |auto].
  intros i x _ _. wps; exact I.
Qed.
Lemma wp_loudness_ext : wp loudness_ext (fun _ => True).
Proof.
  unfold loudness_ext. apply wp_bindi, wp_rd; [lia|]. intros ty Hty. wp1; [wps; exact I|].
  apply wp_bindi, wp_rd; [lia|]. intros l Hl. change (2 ^ 4) with 16 in Hl.
  apply wp_bindi, wp_rd; [lia|]. intros b Hb.
  apply wp_bindi, (wp_mono _ (fun _ => True)); [|apply wp_read_ones]. intros _ _.
  apply wp_bindi, wp_rd; [lia|]. intros ty2 Hty2. wp1; [wps; exact I|].
  apply wp_bindi, wp_rd; [lia|]. intros l2 Hl2. change (2 ^ 4) with 16 in Hl2.
  apply wp_bindi, wp_rd; [lia|]. intros; exact I.
Qed.
Lemma wp_safe {A} (p : prog A) (Q : A -> Prop) st r : wp p Q -> wf st -> exec p st = UB r -> False.
Proof. intros H W E. pose proof (wp_exec _ _ st H W) as X. rewrite E in X. exact X. Qed.
Lemma wp_wf {A} (p : prog A) st x st' : wp p (fun _ => True) -> wf st -> exec p st = Done (x, st') -> wf st'.
Proof.
  intros H W E. apply (exec_done_runA p st x st' _ H W) in E. apply E.
Qed.

(** Undefined behaviour only comes from a count above 36: of the entries, or of the
    album entries that follow them. *)
Lemma loudness_safe st r : wf st -> exec loudness_info_set st = UB r ->
  36 < val_of (firstn 6 (rest_bits st)) \/
  exists s0 infos s1, rest_bits s0 = skipn 6 (rest_bits st) /\
    exec (loudness_infos (val_of (firstn 6 (rest_bits st)))) s0 = Done (Ok infos, s1) /\
    36 < val_of (firstn 6 (skipn 1 (rest_bits s1))).
Proof.
  intros W E. unfold loudness_info_set in E. rewrite exec_bind in E.
  destruct (exec (rd 6) st) as [[n s0]|c|u] eqn:F0; [|discriminate|
    exfalso; apply (wp_safe (rd 6) (fun _ => True) st u); [wps; exact I|exact W|exact F0]].
  destruct (exec_rd_value 6 st n s0 W ltac:(lia) F0) as (W0 & V0 & R0).
  change (Z.to_nat 6) with 6%nat in V0, R0. rewrite <- V0.
  destruct (Z_lt_dec 36 n); [left; assumption|right].
  rewrite exec_bind in E.
  destruct (exec (loudness_infos n) s0) as [[[infos|e] s1]|c|u] eqn:F1; [|discriminate|discriminate|
    exfalso; eapply (wp_safe _ _ s0 u); [apply (wp_loudness_infos n); lia|exact W0|exact F1]].
  exists s0, infos, s1. split; [exact R0|]. split; [exact F1|].
  assert (W1 : wf s1) by (eapply wp_wf; [apply (wp_loudness_infos n); lia|exact W0|exact F1]).
  rewrite exec_bind in E.
  destruct (exec (rd 1) s1) as [[ap s2]|c|u] eqn:F2; [|discriminate|
    exfalso; apply (wp_safe (rd 1) (fun _ => True) s1 u); [wps; exact I|exact W1|exact F2]].
  destruct (exec_rd_value 1 s1 ap s2 W1 ltac:(lia) F2) as (W2 & V2 & R2).
  change (Z.to_nat 1) with 1%nat in R2. rewrite <- R2. rewrite exec_bind in E.
  assert (T : forall infos al s3 r0, wf s3 ->
    exec (ep <- rd 1 ;;
          r <- (if ep =? 0 then Ret (Ok tt) else loudness_ext) ;;
          match r with Er e => Ret (Er e) | Ok _ => Ret (Ok (mkLS infos al)) end) s3 = UB r0 -> False).
  { intros i a s3 r0 W3 X. eapply (wp_safe _ (fun _ => True) s3 r0); [|exact W3|exact X].
    apply wp_bindi, wp_rd; [lia|]. intros ep _.
    apply wp_bindi, (wp_mono _ (fun _ => True)); [intros [?|?] _; exact I|].
    destruct (ep =? 0); [exact I|apply wp_loudness_ext]. }
  destruct (Z.eqb_spec ap 0).
  - exfalso. cbn [exec] in E. exact (T _ _ _ _ W2 E).
  - rewrite exec_bind in E.
    destruct (exec (rd 6) s2) as [[na s3]|c|u] eqn:F3; [|discriminate|
      exfalso; apply (wp_safe (rd 6) (fun _ => True) s2 u); [wps; exact I|exact W2|exact F3]].
    destruct (exec_rd_value 6 s2 na s3 W2 ltac:(lia) F3) as (W3 & V3 & R3).
    change (Z.to_nat 6) with 6%nat in V3. rewrite <- V3.
    destruct (Z_lt_dec 36 na); [assumption|]. exfalso.
    destruct (exec (loudness_albums na infos) s3) as [[[[al inf]|e] s4]|c|u] eqn:F4; [|discriminate|discriminate|
      eapply (wp_safe _ _ s3 u); [apply (wp_loudness_albums na infos); lia|exact W3|exact F4]].
    apply (T _ _ _ _ (wp_wf _ _ _ _ (wp_loudness_albums na infos ltac:(lia)) W3 F4) E).
Qed.

(** ** Framing *)
Definition d_loud := pack (bits_of 6 0 ++ flag false ++ flag false ++ repeat false 24).
Lemma framing_loudness_refuted : exists d s' st',
  exec (packet_body 22 4 mst_zero) (fresh d) = Done (Ok s', st') /\ bitpos st' = 8 /\ r_cnt (fresh d) = 32.
Proof. exists d_loud. do 2 eexists. split; [vm_compute; reflexivity|]. split; reflexivity. Qed.
Lemma framing_long_refuted : exists d s' st',
  exec (packet_body 3 2 mst_zero) (fresh d) = Done (Ok s', st') /\ 8 * 2 < bitpos st'.
Proof.
  exists (pack (enc_scene good_scene)). do 2 eexists. split; [vm_compute; reflexivity|]. vm_compute. reflexivity.
Qed.

(** ** A stream *)
Definition stream1 : list pkt :=
  [Sync 0; Filler 7 5 [1; 2; 3]; Scene 1 good_scene (repeat false (Z.to_nat ((- Z.of_nat (length (enc_scene good_scene))) mod 8)));
   User 2 [9]; Filler 400 200 []].
Definition bytes1 := pack (concat (map enc_pkt stream1) ++ enc_header 2 1 700 ++ repeat true 40).

Lemma good_presets : presets_allowed good_scene.
Proof.
  intros i p E. destruct i as [|[|i]]; [| |destruct i; discriminate E];
    cbn in E; injection E as <-; (eexists; split; [reflexivity|]);
    repeat (constructor; [cbn; split; intros; discriminate || congruence|]); try constructor.
Qed.
Lemma stream1_valid : Forall valid_pkt stream1.
Proof.
  unfold stream1.
  apply Forall_cons; [unfold valid_pkt, label_ok; lia|].
  apply Forall_cons; [unfold valid_pkt, label_ok, passed_over, max_type, max_length; cbn; lia|].
  apply Forall_cons.
  { split; [unfold label_ok; lia|]. split; [exact good_valid|]. split; [repeat constructor; cbn; lia|].
    split; [exact good_presets|]. split; vm_compute; [reflexivity|discriminate]. }
  apply Forall_cons; [unfold valid_pkt, label_ok, max_length; cbn; lia|].
  apply Forall_cons; [unfold valid_pkt, label_ok, passed_over, max_type, max_length; cbn; lia|].
  apply Forall_nil.
Qed.
