(** * Lem_Pcm: PCM packets *)

From Coq Require Import ZArith List Lia Bool.
From Verif Require Import Bits BitBuf BitWrite Prog Escape Asi Wp Wlp Frame Loops Spec_Asi Lem_Asi Lem_AsiRT
  Loud Mhas Spec_Mhas Lem_Mhas Lem_MhasRT.
Import ListNotations.
Open Scope Z_scope.

(** ** Samples *)
Lemma land_pow2 w n : 0 <= n -> 0 <= w < 2 ^ (n + 1) -> (Z.land w (2 ^ n) =? 0) = (w <? 2 ^ n).
Proof.
  intros Hn Hw. rewrite Z.pow_add_r in Hw by lia. change (2 ^ 1) with 2 in Hw.
  assert (P := pow2_pos n Hn).
  assert (T : Z.testbit (Z.land w (2 ^ n)) n = Z.testbit w n).
  { rewrite Z.land_spec, Z.pow2_bits_true by lia. apply andb_true_r. }
  destruct (Z.ltb_spec w (2 ^ n)).
  - apply Z.eqb_eq. apply Z.bits_inj'. intros i Hi. rewrite Z.land_spec, Z.bits_0, Z.pow2_bits_eqb by lia.
    destruct (Z.eqb_spec n i); [|apply andb_false_r]. subst i.
    rewrite andb_true_r. apply Z.testbit_false; [lia|]. rewrite Z.div_small by lia. reflexivity.
  - apply Z.eqb_neq. intros E. rewrite E, Z.bits_0 in T. symmetry in T.
    apply Z.testbit_false in T; [|lia].
    assert (w / 2 ^ n = 1). { symmetry. apply (Z.div_unique w (2 ^ n) 1 (w - 2 ^ n)); lia. }
    rewrite H0 in T. discriminate.
Qed.
Lemma land_ones_id w n : 0 <= n -> 0 <= w < 2 ^ n -> Z.land w (2 ^ n - 1) = w.
Proof.
  intros Hn Hw. replace (2 ^ n - 1) with (Z.ones n) by (rewrite Z.ones_equiv; lia).
  rewrite Z.land_ones by lia. apply Z.mod_small. exact Hw.
Qed.

Lemma sign_extend_16_ok v : fits_signed 16 v -> sign_extend_16 (v mod 2 ^ 16) = v.
Proof.
  unfold fits_signed. change (2 ^ (Z.of_nat 16 - 1)) with 32768. intros H. unfold sign_extend_16.
  assert (M := Z.mod_pos_bound v (2 ^ 16) ltac:(lia)).
  change 0xFFFF with (2 ^ 16 - 1). rewrite land_ones_id by lia.
  change 0x8000 with (2 ^ 15). rewrite land_pow2 by (change (2 ^ (15 + 1)) with (2 ^ 16); lia).
  change (2 ^ 15) with 32768. change (2 ^ 16) with 65536 in *.
  destruct (Z_lt_ge_dec v 0).
  - replace (v mod 65536) with (v + 65536) by (apply (Z.mod_unique v 65536 (-1)); lia).
    destruct (Z.ltb_spec (v + 65536) 32768); [lia|].
    unfold s32, to_s. change (2 ^ 32) with 4294967296. change (2 ^ (32 - 1)) with 2147483648.
    rewrite (Z.mod_small (v + 65536 + 0xFFFF0000)) by lia.
    destruct (Z.ltb_spec (v + 65536 + 0xFFFF0000) 2147483648); lia.
  - rewrite Z.mod_small by lia. destruct (Z.ltb_spec v 32768); lia.
Qed.
Lemma sign_extend_24_ok v : fits_signed 24 v -> sign_extend_24 (v mod 2 ^ 24) = v.
Proof.
  unfold fits_signed. change (2 ^ (Z.of_nat 24 - 1)) with 8388608. intros H. unfold sign_extend_24.
  assert (M := Z.mod_pos_bound v (2 ^ 24) ltac:(lia)).
  change 0xFFFFFF with (2 ^ 24 - 1). rewrite land_ones_id by lia.
  change 0x800000 with (2 ^ 23). rewrite land_pow2 by (change (2 ^ (23 + 1)) with (2 ^ 24); lia).
  change (2 ^ 23) with 8388608. change (2 ^ 24) with 16777216 in *.
  destruct (Z_lt_ge_dec v 0).
  - replace (v mod 16777216) with (v + 16777216) by (apply (Z.mod_unique v 16777216 (-1)); lia).
    destruct (Z.ltb_spec (v + 16777216) 8388608); [lia|].
    unfold s32, to_s. change (2 ^ 32) with 4294967296. change (2 ^ (32 - 1)) with 2147483648.
    rewrite (Z.mod_small (v + 16777216 + 0xFF000000)) by lia.
    destruct (Z.ltb_spec (v + 16777216 + 0xFF000000) 2147483648); lia.
  - rewrite Z.mod_small by lia. destruct (Z.ltb_spec v 8388608); lia.
Qed.

Lemma lor_byte q t : 0 <= t < 256 -> Z.lor (q * 256) t = q * 256 + t.
Proof.
  intros Ht. assert (L : Z.land (q * 256) t = 0); [|rewrite Z.add_nocarry_lxor, Z.lxor_lor by exact L; reflexivity].
  apply Z.bits_inj'. intros i Hi. rewrite Z.land_spec, Z.bits_0. change 256 with (2 ^ 8).
  destruct (Z.ltb_spec i 8).
  - rewrite Z.mul_pow2_bits_low by lia. reflexivity.
  - rewrite <- (Z.mod_small t (2 ^ 8)) by (change (2 ^ 8) with 256; lia).
    rewrite Z.mod_pow2_bits_high by lia. apply andb_false_r.
Qed.

Lemma pcm_sample_rt (b : nat) v rest :
  b = 16%nat \/ b = 24%nat \/ b = 32%nat -> fits_signed b v ->
  runA (pcm_sample (Z.of_nat b)) (enc_sample b v ++ rest) = Done (v, rest).
Proof.
  intros Hb Hv. unfold enc_sample, pcm_sample. destruct Hb as [->|[->| ->]].
  - change (Z.of_nat 16 =? 16) with true. cbv iota. change (Z.of_nat 16) with 16.
    rewrite runA_rdb by (try reflexivity; try lia; apply Z.mod_pos_bound; lia).
    cbn [runA]. rewrite sign_extend_16_ok by exact Hv. reflexivity.
  - change (Z.of_nat 24 =? 16) with false. change (Z.of_nat 24 =? 24) with true. cbv iota. change (Z.of_nat 24) with 24.
    rewrite runA_rdb by (try reflexivity; try lia; apply Z.mod_pos_bound; lia).
    cbn [runA]. rewrite sign_extend_24_ok by exact Hv. reflexivity.
  - change (Z.of_nat 32 =? 16) with false. change (Z.of_nat 32 =? 24) with false. change (Z.of_nat 32 =? 32) with true.
    cbv iota. change (Z.of_nat 32) with 32.
    unfold fits_signed in Hv. change (2 ^ (Z.of_nat 32 - 1)) with 2147483648 in Hv.
    set (w := v mod 2 ^ 32). assert (Hw : 0 <= w < 4294967296) by (apply Z.mod_pos_bound; lia).
    change (bits_of 32 w) with (bits_of (8 + (8 + (8 + 8))) w). rewrite !bits_of_split.
    change (2 ^ Z.of_nat (8 + (8 + 8))) with 16777216. change (2 ^ Z.of_nat (8 + 8)) with 65536. change (2 ^ Z.of_nat 8) with 256.
    assert (B : forall x, bits_of 8 x = bits_of 8 (x mod 256)) by (intros; symmetry; apply (bits_of_mod 8)).
    rewrite (B (w / 65536)), (B (w / 256)), (B w). rewrite <- !app_assoc.
    assert (D1 := Z.div_mod w 256 ltac:(lia)). assert (M1 := Z.mod_pos_bound w 256 ltac:(lia)).
    assert (D2 := Z.div_mod (w / 256) 256 ltac:(lia)). assert (M2 := Z.mod_pos_bound (w / 256) 256 ltac:(lia)).
    rewrite Z.div_div in D2 by lia. change (256 * 256) with 65536 in D2.
    assert (D3 := Z.div_mod (w / 65536) 256 ltac:(lia)). assert (M3 := Z.mod_pos_bound (w / 65536) 256 ltac:(lia)).
    rewrite Z.div_div in D3 by lia. change (65536 * 256) with 16777216 in D3.
    set (b0 := w mod 256) in *. set (b1 := (w / 256) mod 256) in *. set (b2 := (w / 65536) mod 256) in *.
    assert (H24 : 0 <= w / 16777216 < 256).
    { split; [apply Z.div_pos; lia|apply Z.div_lt_upper_bound; lia]. }
    set (b3 := w / 16777216) in *.
    assert (S0 : forall x, 0 <= x < 2147483648 -> s32 x = x).
    { intros x Hx. unfold s32. rewrite to_s_id; [lia|lia|]. change (2 ^ (32 - 1)) with 2147483648. lia. }
    cbn [forP]. rewrite bind_assoc, runA_rdb by (try reflexivity; try lia). cbn [bind].
    rewrite (S0 (0 * 256)) by lia. rewrite lor_byte by lia. rewrite (S0 (0 * 256 + b3)) by lia.
    rewrite bind_assoc, runA_rdb by (try reflexivity; try lia). cbn [bind].
    rewrite (S0 ((0 * 256 + b3) * 256)) by lia. rewrite lor_byte by lia. rewrite (S0 ((0 * 256 + b3) * 256 + b2)) by lia.
    rewrite bind_assoc, runA_rdb by (try reflexivity; try lia). cbn [bind].
    rewrite (S0 (((0 * 256 + b3) * 256 + b2) * 256)) by lia. rewrite lor_byte by lia. rewrite (S0 (((0 * 256 + b3) * 256 + b2) * 256 + b1)) by lia.
    rewrite bind_assoc, runA_rdb by (try reflexivity; try lia). cbn [bind runA].
    f_equal. f_equal.
    set (a := ((0 * 256 + b3) * 256 + b2) * 256 + b1) in *.
    assert (Ha : w = a * 256 + b0) by (unfold a; lia).
    assert (W : v = if w <? 2147483648 then w else w - 4294967296).
    { unfold w. change (2 ^ 32) with 4294967296. destruct (Z_lt_ge_dec v 0).
      - replace (v mod 4294967296) with (v + 4294967296) by (apply (Z.mod_unique v 4294967296 (-1)); lia).
        destruct (Z.ltb_spec (v + 4294967296) 2147483648); lia.
      - rewrite Z.mod_small by lia. destruct (Z.ltb_spec v 2147483648); lia. }
    assert (Sa : s32 (a * 256) = if w <? 2147483648 then a * 256 else (a - 16777216) * 256).
    { unfold s32, to_s. change (2 ^ 32) with 4294967296. change (2 ^ (32 - 1)) with 2147483648.
      rewrite (Z.mod_small (a * 256)) by lia.
      destruct (Z.ltb_spec (a * 256) 2147483648), (Z.ltb_spec w 2147483648); lia. }
    rewrite Sa. destruct (Z.ltb_spec w 2147483648).
    + rewrite lor_byte by lia. rewrite S0 by lia. lia.
    + rewrite lor_byte by lia. unfold s32. rewrite to_s_id; [lia|lia|]. change (2 ^ (32 - 1)) with 2147483648. lia.
Qed.

Lemma forP_ext {S} (b1 b2 : nat -> S -> prog S) : (forall i s l, runA (b1 i s) l = runA (b2 i s) l) ->
  forall n i s l, runA (forP n i b1 s) l = runA (forP n i b2 s) l.
Proof.
  intros H. induction n as [|n IH]; intros i s l; cbn [forP]; [reflexivity|].
  rewrite !runA_bind, H. destruct (runA (b2 i s) l) as [[x r]| |]; auto.
Qed.

Lemma pcm_row_rt (b : nat) t row rest :
  b = 16%nat \/ b = 24%nat \/ b = 32%nat -> (length row <= 24)%nat -> Forall (fits_signed b) row -> 0 <= t < 1024 ->
  runA (pcm_row (Z.of_nat b) (Z.of_nat (length row)) t) (concat (map (enc_sample b) row) ++ rest)
  = Done (row, rest).
Proof.
  intros Hb HL HF Ht. unfold pcm_row. rewrite Nat2Z.id.
  rewrite (forP_app _ (enc_sample b) (fun x => x) (fits_signed b) 24); [rewrite map_id; reflexivity| |lia|exact HF].
  intros i acc x r Hi Hx. rewrite runA_bind, pcm_sample_rt by assumption.
  rewrite !runA_chk by lia. reflexivity.
Qed.

Lemma pcm_rows_rt (b : nat) ns rows rest :
  b = 16%nat \/ b = 24%nat \/ b = 32%nat -> (ns <= 24)%nat -> (length rows <= 1024)%nat ->
  Forall (fun r => length r = ns /\ Forall (fits_signed b) r) rows ->
  runA (pcm_rows (Z.of_nat b) (Z.of_nat ns) (Z.of_nat (length rows)))
       (concat (map (fun r => concat (map (enc_sample b) r)) rows) ++ rest) = Done (rows, rest).
Proof.
  intros Hb Hn HL HF. unfold pcm_rows. rewrite Nat2Z.id.
  rewrite (forP_app _ (fun r => concat (map (enc_sample b) r)) (fun x => x)
    (fun r => length r = ns /\ Forall (fits_signed b) r) 1024); [rewrite map_id; reflexivity| |lia|exact HF].
  intros i acc x r Hi [Hx1 Hx2]. subst ns. rewrite runA_bind, pcm_row_rt by (auto; lia). reflexivity.
Qed.

Lemma read_ids_rt ids mem rest : Forall (fits 7) ids -> (length ids <= length mem)%nat ->
  runA (read_ids (Z.of_nat (length ids)) mem) (concat (map (bits_of 7) ids) ++ rest)
  = Done (ids ++ skipn (length ids) mem, rest).
Proof.
  intros H1 H2. unfold read_ids. rewrite Nat2Z.id.
  rewrite (forP_fill _ (bits_of 7) (fun x => x) (fits 7) (length mem)); [rewrite map_id; reflexivity| |lia|lia|exact H1].
  intros i arr x r Hi HN Hx. rdf. apply aset_done. lia.
Qed.

(** ** Data packets *)
Definition frame_rows (idx : Z) : Z := if idx =? 1 then 768 else 1024.

Lemma pcm_payload_rt c (b : nat) ids rows rest :
  length (k_ids c) = 128%nat -> k_bits c = Z.of_nat b -> b = 16%nat \/ b = 24%nat \/ b = 32%nat ->
  k_fs c = 1 \/ k_fs c = 2 -> k_att c <> 2 ->
  (1 <= length ids <= 24)%nat -> Forall (fits 7) ids ->
  Z.of_nat (length rows) = frame_rows (k_fs c) ->
  Forall (fun r => length r = length ids /\ Forall (fits_signed b) r) rows ->
  exists c', runA (pcm_payload c) (enc_pcmdata b ids rows ++ rest) = Done (c', rest) /\
    k_samples c' = rows /\ k_nsig c' = Z.of_nat (length ids) - 1 /\
    firstn (length ids) (k_ids c') = ids /\ k_bits c' = k_bits c /\ k_fs c' = k_fs c.
Proof.
  intros H128 Hb Hb' Hfs Hatt HL HF HR HRF. unfold pcm_payload, enc_pcmdata. rewrite <- !app_assoc.
  assert (fits 7 (Z.of_nat (length ids) - 1)) by (unfold fits; change (2 ^ 7) with 128; lia). rdf.
  destruct (Z.ltb_spec 23 (Z.of_nat (length ids) - 1)); [lia|].
  replace (Z.of_nat (length ids) - 1 + 1) with (Z.of_nat (length ids)) by lia.
  rewrite runA_bind, read_ids_rt by (auto; lia).
  destruct (Z.eqb_spec (k_att c) 2); [contradiction|]. cbn [bind].
  destruct (Z.eqb_spec (k_fs c) 6); [lia|]. cbn [bind].
  destruct (Z.eqb_spec (k_fs c) 0); [lia|]. destruct (Z.eqb_spec (k_fs c) 5); [lia|]. cbv zeta.
  assert (T : nth_error pcm_frame_tbl (Z.to_nat (k_fs c)) = Some (frame_rows (k_fs c))).
  { destruct Hfs as [-> | ->]; reflexivity. }
  rewrite (runA_aget pcm_frame_tbl (k_fs c) _ _ _ ltac:(lia) T). rewrite <- HR, Hb.
  assert (Z.of_nat (length rows) <= 1024) by (rewrite HR; unfold frame_rows; destruct (k_fs c =? 1); lia).
  rewrite runA_bind, (pcm_rows_rt b (length ids) rows rest) by (auto; lia).
  eexists. split; [reflexivity|]. cbn [k_samples k_nsig k_ids k_bits k_fs].
  repeat split; auto.
  rewrite firstn_app, Nat.sub_diag, firstn_all. cbn [firstn]. apply app_nil_r.
Qed.

(** ** Config packets *)
Definition bits_of_index (i : Z) : Z := if i =? 0 then 16 else if i =? 1 then 24 else 32.
Definition rate_of_index (i : Z) : Z :=
  if i =? 3 then 48000 else if i =? 4 then 44100 else if i =? 5 then 32000 else if i =? 6 then 24000
  else if i =? 7 then 22050 else if i =? 8 then 16000 else if i =? 9 then 14700 else if i =? 10 then 29400
  else 0.

Lemma rate_tbl i : 0 <= i < 31 -> nth_error sampling_rate_tbl (Z.to_nat i) = Some (rate_of_index i).
Proof.
  intros H.
  assert (F : forall n, (n < 31)%nat -> nth_error sampling_rate_tbl n = Some (rate_of_index (Z.of_nat n))).
  { intros n Hn. do 31 (destruct n as [|n]; [reflexivity|]). lia. }
  rewrite F by lia. rewrite Z2Nat.id by lia. reflexivity.
Qed.

Lemma pcm_config_rt c x rest :
  length (k_ids c) = 128%nat -> valid_pcmcfg x ->
  exists c', runA (pcm_config c) (enc_pcmcfg x ++ rest) = Done (c', rest) /\
    k_num c' = Z.of_nat (length (pc_ids x)) - 1 /\ k_align c' = b2z (pc_align x) /\
    k_rate c' = match pc_rate x with inl i => rate_of_index i | inr r => r end /\
    k_bits c' = bits_of_index (pc_bits x) /\ k_fs c' = pc_size x /\
    (pc_size x = 5 -> k_fix c' = pc_fix x) /\
    firstn (length (pc_ids x)) (k_ids c') = pc_ids x /\ length (k_ids c') = 128%nat /\
    k_loud c' = pc_loud x /\ k_att c' = pc_att x /\ (pc_att x = 1 -> k_attg c' = pc_attg x).
Proof.
  intros H128 (V1 & V2 & V3 & V4 & V5 & V6 & V7 & V8 & V9). unfold pcm_config, enc_pcmcfg. rewrite <- !app_assoc.
  assert (fits 7 (Z.of_nat (length (pc_ids x)) - 1)) by (unfold fits; change (2 ^ 7) with 128; lia). rdf. rdf.
  assert (R : exists rate, rate = match pc_rate x with inl i => rate_of_index i | inr r => r end /\
    forall (q : Z -> prog pcm) l,
     runA (si <- rd 5 ;; r0 <- aget sampling_rate_tbl si ;; rate <- (if si =? 31 then rd 24 else Ret r0) ;; q rate)
       (match pc_rate x with inl i => bits_of 5 i | inr r => bits_of 5 31 ++ bits_of 24 r end ++ l) = runA (q rate) l).
  { destruct (pc_rate x) as [i|r]; eexists; (split; [reflexivity|]); intros q l.
    - rewrite runA_rdb by (try reflexivity; try lia; change (2 ^ 5) with 32; lia). cbv beta.
      rewrite (runA_aget sampling_rate_tbl i _ _ _ ltac:(lia) (rate_tbl i V3)). destruct (Z.eqb_spec i 31); [lia|]. reflexivity.
    - rewrite <- app_assoc. rewrite runA_rdb by (try reflexivity; try lia; change (2 ^ 5) with 32; lia). cbv beta.
      rewrite (runA_aget sampling_rate_tbl 31 0) by (try reflexivity; lia). change (31 =? 31) with true. cbv iota.
      rewrite runA_rdb by (try reflexivity; try lia; exact V3). reflexivity. }
  destruct R as (rate & R1 & R2).
  rewrite (R2 (fun rate => bi <- rd 3 ;; if 2 <? bi then _ else _)). clear R2.
  assert (fits 3 (pc_bits x)) by (unfold fits; change (2 ^ 3) with 8; lia). rdf.
  destruct (Z.ltb_spec 2 (pc_bits x)); [lia|].
  assert (TB : nth_error pcm_bits_tbl (Z.to_nat (pc_bits x)) = Some (bits_of_index (pc_bits x))).
  { assert (E : pc_bits x = 0 \/ pc_bits x = 1 \/ pc_bits x = 2) by lia. destruct E as [->|[->| ->]]; reflexivity. }
  rewrite (runA_aget pcm_bits_tbl (pc_bits x) _ _ _ ltac:(lia) TB). rdf.
  assert (F : exists f, (pc_size x = 5 -> f = pc_fix x) /\ forall (q : Z -> prog pcm) l,
     runA (y <- (if pc_size x =? 5 then rd 16 else Ret (k_fix c)) ;; q y)
       ((if pc_size x =? 5 then bits_of 16 (pc_fix x) else []) ++ l) = runA (q f) l).
  { destruct (Z.eqb_spec (pc_size x) 5).
    - exists (pc_fix x). split; [reflexivity|]. intros q l. rdf. reflexivity.
    - exists (k_fix c). split; [lia|]. reflexivity. }
  destruct F as (f & F1 & F2).
  rewrite (F2 (fun f => ids <- read_ids _ _ ;; _)). clear F2.
  replace (Z.of_nat (length (pc_ids x)) - 1 + 1) with (Z.of_nat (length (pc_ids x))) by lia.
  rewrite runA_bind, read_ids_rt by (auto; lia). rdf. rdf.
  assert (G : exists g, (pc_att x = 1 -> g = pc_attg x) /\ forall (q : Z -> prog pcm) l,
     runA (y <- (if pc_att x =? 1 then rd 8 else Ret (k_attg c)) ;; q y)
       ((if pc_att x =? 1 then bits_of 8 (pc_attg x) else []) ++ l) = runA (q g) l).
  { destruct (Z.eqb_spec (pc_att x) 1).
    - exists (pc_attg x). split; [reflexivity|]. intros q l. rdf. reflexivity.
    - exists (k_attg c). split; [lia|]. reflexivity. }
  destruct G as (g & G1 & G2). rewrite (G2 (fun g => Ret _)). clear G2.
  eexists. split; [reflexivity|]. cbn [k_num k_align k_rate k_bits k_fs k_fix k_ids k_loud k_att k_attg].
  repeat split; auto.
  - rewrite firstn_app, Nat.sub_diag, firstn_all. cbn [firstn]. apply app_nil_r.
  - rewrite app_length, skipn_length. lia.
Qed.

(** ** Safety *)
Definition pcm_ok (c : pcm) : Prop :=
  length (k_ids c) = 128%nat /\ (0 <= k_bits c <= 24 \/ k_bits c = 32).

Lemma wp_read_ids n ids : n <= Z.of_nat (length ids) ->
  wp (read_ids n ids) (fun l => length l = length ids).
Proof.
  intros H. unfold read_ids. apply (wp_for (fun _ l => length l = length ids)); auto.
  intros j t Hj Ht. wps. apply wp_aset; [lia|]. rewrite aset_len; lia.
Qed.
Lemma wp_pcm_config c : pcm_ok c -> wp (pcm_config c) pcm_ok.
Proof.
  intros [H1 H2]. unfold pcm_config.
  assert (T : forall v b, nth_error pcm_bits_tbl (Z.to_nat v) = Some b -> 0 <= b <= 24 \/ b = 32).
  { intros v b E. apply nth_error_In in E. cbn in E. lia. }
  apply wp_bindi, wp_rd; [lia|]. intros num Hn. change (2 ^ 7) with 128 in Hn. do 4 wp1.
  apply wp_bindi, wp_aget; [cbn [length sampling_rate_tbl]; lia|]. intros r0 _.
  assert (K : forall bi, 0 <= bi < 8 -> forall rate,
    wp (if 2 <? bi then
    Ret (mkPCM num v rate (k_bits c) (k_fs c) (k_fix c) (k_var c) (k_ids c) (k_loud c)
           (k_att c) (k_attg c) (k_nsig c) (k_samples c))
  else
  bits <- aget pcm_bits_tbl bi ;;
  fs <- rd 3 ;;
  fix_ <- (if fs =? 5 then rd 16 else Ret (k_fix c)) ;;
  ids <- read_ids (num + 1) (k_ids c) ;;
  lo <- rd 8 ;; att <- rd 2 ;;
  ag <- (if att =? 1 then rd 8 else Ret (k_attg c)) ;;
  Ret (mkPCM num v rate bits fs fix_ (k_var c) ids lo att ag (k_nsig c) (k_samples c))) pcm_ok).
  { intros bi Hbi rate. wp1; [apply wp_ret; split; [exact H1|exact H2]|].
    apply Z.ltb_ge in E. apply wp_bindi, wp_aget; [cbn [length pcm_bits_tbl]; lia|]. intros b Hb.
    wps; (eapply wp_mono; [|apply wp_read_ids; lia]; intros ids Hids; cbv beta; wps;
      (split; cbn [k_ids k_bits]; [congruence|eauto])). }
  wp1. apply (wp_mono _ (fun _ => True)).
  - intros rate _. cbv beta. apply wp_bindi, wp_rd; [lia|]. intros bi Hbi. apply K. exact Hbi.
  - wps; exact I.
Qed.
Lemma wp_pcm_sample b : 0 <= b <= 24 \/ b = 32 -> wp (pcm_sample b) (fun _ => True).
Proof.
  intros H. unfold pcm_sample. wps; auto.
  - apply (wp_for (fun _ _ => True)); auto. intros. wps; auto.
Qed.

(** The frame-size index the payload parser ends up using. *)
Definition used_index (c : pcm) : Z := if k_fs c =? 5 then k_fix c else k_fs c.

Lemma wp_pcm_payload c : pcm_ok c -> k_fs c <> 6 -> 0 <= used_index c <= 2 ->
  wp (pcm_payload c) pcm_ok.
Proof.
  intros [H1 H2] N6 HU. unfold pcm_payload. apply wp_bindi, wp_rd; [lia|]. intros ns Hns. change (2 ^ 7) with 128 in Hns.
  cbv beta. wp1; [apply wp_ret; split; assumption|]. apply Z.ltb_ge in E.
  apply wp_bindi. eapply wp_mono; [|apply wp_read_ids; lia]. intros ids Hids. cbv beta.
  assert (K : forall ag var, wp (if k_fs c =? 0 then
    Ret (mkPCM (k_num c) (k_align c) (k_rate c) (k_bits c) (k_fs c) (k_fix c) var
           ids (k_loud c) (k_att c) ag ns (k_samples c))
  else
  let fs := if k_fs c =? 5 then k_fix c else if k_fs c =? 6 then var else k_fs c in
  n <- aget pcm_frame_tbl fs ;;
  rows <- pcm_rows (k_bits c) (ns + 1) n ;;
  Ret (mkPCM (k_num c) (k_align c) (k_rate c) (k_bits c) fs (k_fix c) var
         ids (k_loud c) (k_att c) ag ns rows)) pcm_ok).
  { intros ag var. wp1; [apply wp_ret; split; cbn [k_ids k_bits]; [congruence|exact H2]|]. cbv zeta.
    destruct (Z.eqb_spec (k_fs c) 6); [contradiction|]. fold (used_index c).
    apply wp_bindi, wp_aget; [cbn [length pcm_frame_tbl]; lia|]. intros n0 Hn0.
    assert (n0 <= 1024).
    { assert (X : used_index c = 0 \/ used_index c = 1 \/ used_index c = 2) by lia.
      destruct X as [X|[X|X]]; rewrite X in Hn0; cbn in Hn0; injection Hn0; lia. }
    apply wp_bindi. apply (wp_mono _ (fun _ => True)).
    { intros rows _. apply wp_ret. split; cbn [k_ids k_bits]; [congruence|exact H2]. }
    unfold pcm_rows. apply (wp_for (fun _ _ => True)); auto. intros j t Hj _. apply wp_bindi.
    apply (wp_mono _ (fun _ => True)); [intros; apply wp_ret; exact I|].
    unfold pcm_row. apply (wp_for (fun _ _ => True)); auto. intros j' t' Hj' _. apply wp_bindi.
    eapply wp_mono; [|apply wp_pcm_sample; exact H2]. intros; wps; exact I. }
  apply wp_bindi, (wp_mono _ (fun _ => True)); [|wps; exact I]. intros ag _. cbv beta.
  apply wp_bindi, (wp_mono _ (fun _ => True)); [|wps; exact I]. intros var _. apply K.
Qed.
