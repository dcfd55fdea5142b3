(** * Lem_ConfigProps: the configuration properties on concrete reader states *)

From Coq Require Import ZArith List Lia Bool.
From Verif Require Import Bits BitBuf BitWrite Prog Asi Escape Wp Wlp Loops Frame Cicp Hoa Mhas Config Leaf Spec_Config
  Spec_Asi Lem_Asi Lem_AsiProps Lem_MhasProps Lem_Config Lem_ConfigSafe Lem_Hoa Lem_HoaMat Lem_ConfigMem Lem_ConfigFrame
  Lem_ConfigWhole Lem_Dmx.
Import ListNotations.
Open Scope Z_scope.

Lemma Forall_repeat {A} (P : A -> Prop) x n : P x -> Forall P (repeat x n).
Proof. intros H. apply Forall_forall. intros y Hy. apply repeat_spec in Hy. congruence. Qed.

Lemma config_zero_ok : cfg_ok config_zero.
Proof.
  assert (L : lay_ok lay_zero) by (constructor; cbn; lia).
  constructor; try reflexivity; try exact L.
  - constructor; try reflexivity. apply Forall_repeat, L.
  - constructor; try reflexivity; try (apply Forall_repeat; unfold buf_zero; rewrite repeat_length; reflexivity).
    + exists 0. cbn. lia.
    + constructor; try reflexivity; cbn [m_mat m_sgn decc_zero d_hm hmat_zero]; rewrite repeat_length; reflexivity.
  - apply asi_zero_shape.
Qed.

(** ** Acceptance *)
Lemma config_accepted_exec user u s u' s' :
  exec (mpegh_3da_config user u) s = Done ((0, u'), s') -> accepted u'.
Proof. intros E. apply (exec_leaf _ _ _ _ _ (config_accepted user u) E). reflexivity. Qed.

(** ** Object tables *)
Lemma decoder_config_safe user u s u1 s1 r : cfg_ok u -> wf s ->
  exec (upto_signals user u) s = Done ((0, u1), s1) -> q_obj (u_sig u1) <= 24 ->
  exec (upto_elements user u) s <> UB r.
Proof.
  intros C W E H E2. unfold upto_elements in E2. rewrite exec_bind, E in E2. cbn [negb Z.eqb] in E2.
  assert (X : wlp (upto_signals user u) (fun x => fst x = 0 -> cfg_ok (snd x) /\ groups_ok (u_sig (snd x)))).
  { unfold upto_signals. cbv zeta.
    apply wlp_bindi, wlp_rd; [lia|]. intros v0 _. apply wlp_bindi, wlp_rd; [lia|]. intros fi Hf.
    apply wlp_bindi. apply wlp_any; [destruct (negb (fi =? 31)); [apply wlp_aget; auto|apply wlp_rd; [lia|auto]]|]. intros fr.
    apply wlp_bindi, wlp_rd; [lia|]. intros fl _. apply wlp_bindi, wlp_skip; [lia|]. apply wlp_bindi, wlp_rd; [lia|]. intros rdc _.
    apply wlp_bindi. eapply wlp_mono; [|apply wp_wlp; apply (wp_ref_layout (u_ref u) (cg_ref u C))].
    intros [e l] HL. cbn [snd] in HL. destruct (negb (e =? 0)) eqn:Ee; [apply wlp_ret; cbn [fst]; intros ->; discriminate|].
    apply wp_wlp. apply wp_signals_cfg.
    - destruct C. constructor; auto.
    - intros u' A1 A2 _ _ _. cbn [fst snd]. auto.
    - intros e' u' He Hz. cbn [fst] in Hz. contradiction. }
  destruct (wlp_wf _ _ _ _ _ X W E) as [W1 K]. destruct (K eq_refl) as [K1 K2]. cbn [snd] in K1, K2.
  exact (wp_safe _ _ _ _ (wp_decoder_config u1 K1 K2 H) W1 E2).
Qed.

Definition many_objects : list Z := pack (
  bits_of 8 0x0D ++ bits_of 5 3 ++ bits_of 3 1 ++ [false; false] ++ bits_of 2 0 ++ bits_of 6 6 ++
  bits_of 5 1 ++ bits_of 3 1 ++ bits_of 5 23 ++ bits_of 3 1 ++ bits_of 5 23 ++
  bits_of 4 0 ++ [false] ++ bits_of 2 3 ++ bits_of 4 5 ++ bits_of 4 7 ++ [false; false] ++
  [false; true; true] ++ repeat true 48 ++ [false; false; false; false]).
Lemma many_objects_ub : exec (mpegh_3da_config 0 config_zero) (fresh many_objects) = UB UOob.
Proof. vm_compute. reflexivity. Qed.

(** ** Signal-group info *)
Lemma sig_group_info_bits g s g' s' : 0 <= q_num g -> 0 <= r_cnt s -> exec (sig_group_info g) s = Done (g', s') ->
  r_cnt s - r_cnt s' = 4 * (q_num g + 1).
Proof. intros Hq Hc E. destruct (eats_sig_group_info g s g' s' Hc E) as [K _]. auto. Qed.

(** ** Small configurations *)
Definition small_config (prof lay nch : Z) (ext : list bool) : list Z := pack (
  bits_of 8 prof ++ bits_of 5 3 ++ bits_of 3 1 ++ [false; false] ++ bits_of 2 0 ++ bits_of 6 lay ++
  bits_of 5 0 ++ bits_of 3 0 ++ bits_of 5 (nch - 1) ++ [false] ++
  bits_of 4 0 ++ [false] ++ bits_of 2 0 ++ [false; false; false; false] ++ ext).
Definition ext1 (ty len : Z) (body : list bool) : list bool :=
  [true] ++ bits_of 2 0 ++ bits_of 4 ty ++ bits_of 4 len ++ body.

(** Position of the reader when a configuration is accepted. *)
Definition end_of (o : outcome ((Z * ucfg) * rbuf)) : option Z :=
  match o with Done ((0, _), s) => Some (bitpos s) | _ => None end.

Lemma end_of_done o z : end_of o = Some z -> exists u s, o = Done ((0, u), s) /\ bitpos s = z.
Proof.
  destruct o as [[[e u] s]|c|r]; cbn; try discriminate. destruct e; try discriminate.
  intros H. exists u, s. split; [reflexivity|congruence].
Qed.

(** ** Framing of configuration extensions *)
Definition short_ext : list Z := pack (bits_of 4 7 ++ bits_of 4 10 ++ bits_of 8 0 ++ bits_of 8 0x0D ++ repeat false 64).
Lemma short_ext_run : exists s1 s' u',
  exec config_ext_header (fresh short_ext) = Done ((7, 10), s1) /\
  exec (config_ext_one 0 0 config_zero) (fresh short_ext) = Done ((0, u'), s') /\
  bitpos s' - bitpos s1 = 16.
Proof.
  destruct (end_of_done (exec (config_ext_one 0 0 config_zero) (fresh short_ext)) 24) as (u' & s' & E & B).
  { vm_compute. reflexivity. }
  eexists. exists s', u'. split; [vm_compute; reflexivity|]. split; [exact E|]. rewrite B. vm_compute. reflexivity.
Qed.
(** A downmix configuration longer than its declared length is accepted. *)
Definition long_ext : list Z := pack (bits_of 4 1 ++ bits_of 4 0 ++ enc_dmx [mkDent 5 6 None] ++ repeat false 8).
Lemma long_ext_run : exists s1 s' u',
  exec config_ext_header (fresh long_ext) = Done ((1, 0), s1) /\
  exec (config_ext_one 0 0 config_zero) (fresh long_ext) = Done ((0, u'), s') /\
  bitpos s' - bitpos s1 = 22.
Proof.
  destruct (end_of_done (exec (config_ext_one 0 0 config_zero) (fresh long_ext)) 30) as (u' & s' & E & B).
  { vm_compute. reflexivity. }
  eexists. exists s', u'. split; [vm_compute; reflexivity|]. split; [exact E|]. rewrite B. vm_compute. reflexivity.
Qed.

(** ** Speakers *)
Lemma flexispk_safe l n s r : n <= 24 -> lay_dim l -> wf s -> exec (flexispk l n) s <> UB r.
Proof. intros Hn Hl W E. exact (wp_safe _ _ _ _ (wp_flexispk l n Hn Hl) W E). Qed.

(** A description accepted without error has legal angles: indices of 5 degrees when the
    precision is 0, of 1 degree otherwise. *)
Definition legal_angles (prec : Z) (f : flex) : Prop :=
  let k := if prec =? 0 then 5 else 1 in
  0 <= k * f_az f <= 180 /\ (f_elc f = 3 -> -90 <= k * f_el f <= 90).
Lemma spk_description_legal f prec s f' s' :
  exec (spk_description f prec) s = Done ((0, f'), s') -> f_cicp f' = 0 -> legal_angles prec f'.
Proof.
  intros E. assert (L : leaf (spk_description f prec) (fun r => fst r = 0 -> f_cicp (snd r) = 0 -> legal_angles prec (snd r))).
  { unfold spk_description. apply leaf_bind, leaf_rd. intros ic Hic. cbv zeta.
    destruct (Z.eqb_spec ic 0) as [->|Hne]; cbn [negb].
    2:{ apply leaf_bind, leaf_rd. intros i _. cbn. intros _ H. contradiction. }
    apply leaf_bind, leaf_rd. intros elc Helc. apply leaf_bind.
    apply (leaf_mono _ (fun r => fst r = 0 -> f_elc (snd r) = 3 -> -90 <= (if prec =? 0 then 5 else 1) * f_el (snd r) <= 90)).
    - intros [e g]. cbn [fst snd]. intros Hel. destruct (Z.eqb_spec e 0) as [->|He]; cbn [negb]; [|cbn; intros H; contradiction].
      specialize (Hel eq_refl). apply leaf_bind. apply (leaf_mono _ (fun a => 0 <= a)).
      2:{ destruct (negb (prec =? 0)); apply leaf_rd; intros a Ha; specialize (Ha ltac:(lia)); lia. }
      intros a Ha. destruct (Z.ltb_spec (if negb (prec =? 0) then 180 else 36) a) as [|Hle]; [cbn; discriminate|].
      apply leaf_bind.
      apply (leaf_mono _ (fun g' => f_az g' = a /\ f_el g' = f_el g /\ f_elc g' = f_elc g)).
      2:{ destruct (_ && _); [apply leaf_bind, leaf_rd; intros d _|]; cbn; auto. }
      intros g' (G1 & G2 & G3). apply leaf_bind, leaf_rd. intros lf _. cbn [leaf fst snd]. intros _ _.
      unfold legal_angles. cbn [f_az f_el f_elc s_f_lfe]. rewrite G1, G2, G3. split; [|exact Hel].
      destruct (prec =? 0); cbn [negb] in Hle; lia.
    - destruct (Z.eqb_spec elc 3) as [->|Hne]; [|cbn; intros _ H; contradiction].
      apply leaf_bind. apply (leaf_mono _ (fun a => 0 <= a)).
      2:{ destruct (negb (prec =? 0)); apply leaf_rd; intros a Ha; specialize (Ha ltac:(lia)); lia. }
      intros a Ha. destruct (Z.ltb_spec (if negb (prec =? 0) then 90 else 18) a) as [|Hle]; [cbn; discriminate|].
      destruct (negb (idx_degree _ _ _ =? 0)).
      + apply leaf_bind, leaf_rd. intros d _. cbn [leaf fst snd]. intros _ _.
        destruct (d =? 0), (prec =? 0); cbn [negb f_el s_f_el s_f_eldir s_f_elc s_f_cicp] in *; lia.
      + cbn [leaf fst snd]. intros _ _. destruct (prec =? 0); cbn [negb f_el s_f_el s_f_eldir s_f_elc s_f_cicp] in *; lia. }
  intros Hc. apply (exec_leaf _ _ _ _ _ L E eq_refl Hc).
Qed.

(** Azimuth index 63 (315 degrees) at 5 degree precision: reported as an error by the
    description, ignored by its caller. *)
Definition bad_spk : list bool := [false] ++ [false] ++ bits_of 2 0 ++ bits_of 6 63.
Lemma bad_angle_run : exists f s1 l' f' s',
  exec (spk_description flex_zero 0) (fresh (pack (tl bad_spk ++ repeat false 30))) = Done ((E_AZ_ANG, f), s1) /\
  exec (flexispk lay_zero 1) (fresh (pack (bad_spk ++ repeat false 30))) = Done (l', s') /\
  nth_error (l_flex l') 0 = Some f' /\ f_cicp f' = 0 /\ f_az f' = 315.
Proof. do 5 eexists. split; [vm_compute; reflexivity|]. split; [vm_compute; reflexivity|]. vm_compute. auto. Qed.

(** ** HOA *)
Lemma fill_config_exec h0 s h s' : 0 <= h_ntc h0 -> wf s ->
  exec (fill_config h0) s = Done (Ok h, s') -> hoa_ok h0 h.
Proof.
  intros Hn W E. assert (X := wp_exec _ _ s (wp_fill_config h0 Hn) W). rewrite E in X. apply X.
Qed.
Lemma fill_config_safe h0 s r : 0 <= h_ntc h0 -> wf s -> exec (fill_config h0) s <> UB r.
Proof. intros Hn W E. exact (wp_safe _ _ _ _ (wp_fill_config h0 Hn) W E). Qed.

Definition hoa_in (ntc : Z) : hoac := mkHoa ntc 1024 0 0 0 0 [] 0 0 0 0 0 0 0 0 0 0 0 0 0 0 0 0 0 0 0 0 0 0 0 0 0 0 0 0 0 0.
Definition hoa_bits (order amb d : Z) (w : nat) : list bool :=
  bits_of 3 order ++ [false; false] ++ bits_of 3 (amb + 1) ++ [false] ++ bits_of 3 0 ++ [false] ++ bits_of 2 0 ++
  bits_of 3 0 ++ bits_of 2 0 ++ bits_of w d ++ bits_of 3 1 ++ bits_of 2 0 ++ bits_of 4 0 ++ bits_of 2 0 ++ bits_of 2 0.
Lemma hoa_max_order : exists h s', exec (fill_config (hoa_in 4)) (fresh (pack (hoa_bits 2 0 3 2 ++ repeat false 16))) = Done (Ok h, s') /\
  h_order h = 2 /\ h_maxord h = 3.
Proof. do 2 eexists. split; [vm_compute; reflexivity|]. vm_compute. auto. Qed.

(** ** Rendering matrix *)
Lemma hoa_matrix_safe k cicp m s r : 0 <= k <= 7 -> hm_ok m -> wf s -> exec (hoa_matrix (k * k) cicp m) s <> UB r.
Proof. intros Hk Hm W E. exact (wp_safe _ _ _ _ (wp_hoa_matrix k cicp m Hk Hm) W E). Qed.

Lemma read_range_run n v rest : 1 <= n < 2 ^ 24 -> 0 <= v < n ->
  runA (read_range n) (enc_trunc n v ++ rest) = Done (v, rest).
Proof.
  intros Hn Hv. unfold read_range, enc_trunc. cbv zeta.
  destruct (Z.log2_spec n ltac:(lia)) as [L1 L2]. rewrite <- Z.add_1_r in L2.
  assert (Lk : 0 <= Z.log2 n) by apply Z.log2_nonneg.
  assert (Lm : Z.log2 n < 24) by (apply Z.log2_lt_pow2; lia).
  assert (P : 2 ^ (Z.log2 n + 1) = 2 * 2 ^ Z.log2 n) by (rewrite Z.pow_add_r by lia; lia).
  set (k := Z.log2 n) in *. set (u := 2 ^ (k + 1) - n).
  assert (Hu : 0 < u <= 2 ^ k) by (unfold u; lia).
  destruct (Z.ltb_spec v u).
  - rewrite (runA_rdb k (Z.to_nat k)) by (try lia; rewrite Z2Nat.id by lia; lia).
    destruct (Z.leb_spec u v); [lia|]. reflexivity.
  - replace (Z.to_nat (k + 1)) with (Z.to_nat k + 1)%nat by lia.
    set (x := v + u). assert (Hx : 0 <= x < 2 * 2 ^ k) by (unfold x, u; lia).
    assert (Dx := Z.div_mod x 2 ltac:(lia)). assert (Mx := Z.mod_pos_bound x 2 ltac:(lia)).
    assert (EB : bits_of (Z.to_nat k + 1) x = bits_of (Z.to_nat k) (x / 2) ++ bits_of 1 (x mod 2)).
    { apply bits_of_inj; [rewrite app_length, !bits_of_length; reflexivity|].
      rewrite val_of_app, bits_of_length. rewrite !val_bits_of.
      - change (2 ^ Z.of_nat 1) with 2. lia.
      - change (2 ^ Z.of_nat 1) with 2. lia.
      - rewrite Z2Nat.id by lia. lia.
      - rewrite Nat2Z.inj_add, Z2Nat.id by lia. rewrite Z.pow_add_r by lia. change (2 ^ Z.of_nat 1) with 2. lia. }
    rewrite EB, <- app_assoc.
    rewrite (runA_rdb k (Z.to_nat k)) by (try lia; rewrite Z2Nat.id by lia; lia).
    destruct (Z.leb_spec u (x / 2)) as [H1|H1]; [|exfalso; unfold x in *; lia].
    rewrite (runA_rdb 1 1) by (try lia; change (2 ^ Z.of_nat 1) with 2; lia).
    cbn [runA]. do 2 f_equal. unfold x in *. lia.
Qed.
Lemma read_range_exec n v s rest : 1 <= n < 2 ^ 24 -> 0 <= v < n -> wf s -> rest_bits s = enc_trunc n v ++ rest ->
  exists s', exec (read_range n) s = Done (v, s') /\ wf s' /\ rest_bits s' = rest.
Proof. intros Hn Hv W R. apply exec_of_run; [exact W|]. rewrite R. apply read_range_run; auto. Qed.

(** ** Downmix *)
Lemma dmx_config_exec cicp l s rest : (length l <= 6)%nat -> Forall valid_dent l -> Forall dent_fits l -> wf s ->
  rest_bits s = enc_dmx l ++ rest ->
  exists x s', exec (dmx_config cicp dmxc0) s = Done ((0, x), s') /\ wf s' /\ rest_bits s' = rest /\
    dx_type x = 1 /\ dx_cnt x = Z.of_nat (length l) /\ dx_id x = chosen cicp l /\
    forall i e, nth_error l i = Some e -> exists m, nth_error (dx_mat x) i = Some m /\ holds_dent e m.
Proof.
  intros L V F W R. destruct (dmx_config_run cicp l rest L V F) as (x & E & K). rewrite <- R in E.
  destruct (exec_of_run _ _ _ _ W E) as (s' & E' & W' & R'). exists x, s'. auto.
Qed.
Lemma dmx_config_exec_over cicp id lay t ts l s rest : (length l < 6)%nat -> (length ts < 8)%nat ->
  0 < id < 127 -> 0 <= lay < 64 -> valid_mtx t -> (2048 < length (t_bits t))%nat -> wf s ->
  rest_bits s = enc_dmx (mkDent id lay (Some (t :: ts)) :: l) ++ rest ->
  exec (dmx_config cicp dmxc0) s = UB UOob.
Proof.
  intros. apply exec_ub; auto; [discriminate|]. rewrite H6. apply dmx_config_over; auto.
Qed.

(** ** What a rejected or earlier configuration leaves behind *)
Definition group_cfg (bits : list bool) : list Z := pack (
  bits_of 8 0x0D ++ bits_of 5 3 ++ bits_of 3 1 ++ [false; false] ++ bits_of 2 0 ++ bits_of 6 6 ++
  bits_of 5 0 ++ bits_of 3 0 ++ bits_of 5 0 ++ [true] ++ bits ++ repeat false 40).
Definition bad_layout : list Z := group_cfg (bits_of 2 0 ++ bits_of 6 63).
Definition list_layout : list Z := group_cfg (bits_of 2 1 ++ bits_of 5 0 ++ bits_of 7 2).
Definition after_rejected (o : outcome ((Z * ucfg) * rbuf)) (d : list Z) : option (outcome ((Z * ucfg) * rbuf)) :=
  match o with Done ((e, u), _) => if e =? 0 then None else Some (exec (mpegh_3da_config 0 u) (fresh d)) | _ => None end.
Lemma stale_layout : exists e u s, exec (mpegh_3da_config 0 config_zero) (fresh bad_layout) = Done ((e, u), s) /\ e <> 0 /\
  exec (mpegh_3da_config 0 u) (fresh list_layout) = UB UOob.
Proof.
  assert (X : after_rejected (exec (mpegh_3da_config 0 config_zero) (fresh bad_layout)) list_layout = Some (UB UOob))
    by (vm_compute; reflexivity).
  destruct (exec (mpegh_3da_config 0 config_zero) (fresh bad_layout)) as [[[e u] s]| |]; try discriminate.
  exists e, u, s. split; [reflexivity|]. cbn [after_rejected] in X. destruct (Z.eqb_spec e 0); [discriminate|].
  split; [assumption|]. congruence.
Qed.

Definition with_compat : list Z := small_config 0x0D 6 6 (ext1 7 2 (bits_of 8 0 ++ bits_of 8 0x0D) ++ repeat false 8).
Definition without_compat : list Z := small_config 0x0B 6 6 (repeat false 9).
Definition after_accepted (o : outcome ((Z * ucfg) * rbuf)) (d : list Z) : option (Z * Z * Z) :=
  match o with
  | Done ((0, u), _) =>
    match exec (mpegh_3da_config 0 u) (fresh d) with
    | Done ((0, u'), _) => Some (core_channels u', ref_channels u', d_prof (u_dec u'))
    | _ => None
    end
  | _ => None
  end.
Lemma sticky_compat : exists u s u' s', exec (mpegh_3da_config 0 config_zero) (fresh with_compat) = Done ((0, u), s) /\
  exec (mpegh_3da_config 0 u) (fresh without_compat) = Done ((0, u'), s') /\
  core_channels u' = 6 /\ ref_channels u' = 6 /\ d_prof (u_dec u') = 0x0D.
Proof.
  assert (X : after_accepted (exec (mpegh_3da_config 0 config_zero) (fresh with_compat)) without_compat = Some (6, 6, 0x0D))
    by (vm_compute; reflexivity).
  destruct (exec (mpegh_3da_config 0 config_zero) (fresh with_compat)) as [[[e u] s]| |]; try discriminate.
  cbn [after_accepted] in X. destruct e; try discriminate.
  destruct (exec (mpegh_3da_config 0 u) (fresh without_compat)) as [[[e u'] s']| |] eqn:E; try discriminate.
  destruct e; try discriminate. exists u, s, u', s'. split; [reflexivity|]. split; [exact E|].
  injection X as -> -> ->. auto.
Qed.
(** The same bits in a fresh decoder are rejected. *)
Lemma fresh_rejects : exists u s, exec (mpegh_3da_config 0 config_zero) (fresh without_compat) = Done ((E_CHAN_GT_MAX, u), s).
Proof.
  assert (X : match exec (mpegh_3da_config 0 config_zero) (fresh without_compat) with Done ((e, _), _) => e =? E_CHAN_GT_MAX | _ => false end = true)
    by (vm_compute; reflexivity).
  destruct (exec (mpegh_3da_config 0 config_zero) (fresh without_compat)) as [[[e u] s]| |]; try discriminate.
  apply Z.eqb_eq in X. subst. eauto.
Qed.
