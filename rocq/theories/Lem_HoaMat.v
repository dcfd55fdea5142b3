(** * Lem_HoaMat: reading the HOA rendering matrix stays inside its tables *)

From Coq Require Import ZArith List Lia Bool.
From Verif Require Import Bits BitBuf Prog Asi Escape Wp Wlp Cicp Hoa Leaf Lem_Hoa Config Lem_ConfigSafe.
Import ListNotations.
Open Scope Z_scope.

Record hm_ok (m : hmat) : Prop := {
  hk_ids : length (m_ids m) = 32%nat;
  hk_max : length (m_max m) = 7%nat;
  hk_min : length (m_min m) = 7%nat;
  hk_sparse : length (m_sparse m) = 128%nat;
  hk_signp : length (m_signp m) = 128%nat;
  hk_valp : length (m_valp m) = 128%nat;
  hk_isv : length (m_isv m) = 128%nat;
  hk_iss : length (m_iss m) = 128%nat;
  hk_syms : length (m_syms m) = 49%nat;
  hk_vbm : length (m_vbm m) = 49%nat;
  hk_mat : Z.of_nat (length (m_mat m)) = 1536;
  hk_sgn : Z.of_nat (length (m_sgn m)) = 1568 }.

Lemma nth_upd_same {A} (l : list A) i v d : (i < length l)%nat ->
  nth i (firstn i l ++ v :: skipn (S i) l) d = v.
Proof.
  intros H. rewrite app_nth2; rewrite firstn_length, Nat.min_l by lia; [|lia].
  rewrite Nat.sub_diag. reflexivity.
Qed.
Lemma nth_upd_below {A} (l : list A) i v d k : (i < length l)%nat -> (k < i)%nat ->
  nth k (firstn i l ++ v :: skipn (S i) l) d = nth k l d.
Proof.
  intros H Hk. rewrite app_nth1 by (rewrite firstn_length; lia).
  rewrite <- (firstn_skipn i l) at 2. rewrite app_nth1 by (rewrite firstn_length; lia). reflexivity.
Qed.

Lemma wp_fill {A} (l : list A) n v (Q : list A -> Prop) :
  n <= Z.of_nat (length l) -> (forall l', length l' = length l -> Q l') -> wp (fill l n v) Q.
Proof.
  intros Hn HQ. unfold fill. apply (wp_for (fun _ t => length t = length l)); [reflexivity| |auto].
  intros j t Hj Ht. apply wp_asetL; [lia|]. intros l' Hl' _. lia.
Qed.

(** ** Gains *)
Definition gain_range (j : nat) (mx mn : list Z) : Prop :=
  length mx = 7%nat /\ length mn = 7%nat /\
  forall i, (i < j)%nat -> 1 <= nth i mx 0 - nth i mn 0 <= 110.

Lemma wp_gain_pair (Q : Z * Z -> Prop) :
  (forall a b, 1 <= a - b <= 110 -> Q (a, b)) -> wp gain_pair Q.
Proof.
  intros HQ. unfold gain_pair. cbv zeta.
  apply wp_bindi, (wp_read_escape 3 5 6); try lia. intros v Hv.
  apply wp_bindi, (wp_read_escape 4 5 6); try lia. intros w Hw.
  apply wp_ret, HQ. unfold esc_max in Hw. cbn in Hw. lia.
Qed.

Lemma gain_range_step j mx mn a b :
  (j < 7)%nat -> gain_range j mx mn -> 1 <= a - b <= 110 ->
  gain_range (S j) (firstn j mx ++ a :: skipn (S j) mx) (firstn j mn ++ b :: skipn (S j) mn).
Proof.
  intros Hj (L1 & L2 & H) Hab. unfold gain_range.
  assert (E1 := aset_length mx (Z.of_nat j) a ltac:(lia)). rewrite Nat2Z.id in E1.
  assert (E2 := aset_length mn (Z.of_nat j) b ltac:(lia)). rewrite Nat2Z.id in E2.
  split; [lia|]. split; [lia|]. intros i Hi.
  destruct (Nat.eq_dec i j) as [->|].
  - rewrite !nth_upd_same by lia. exact Hab.
  - rewrite !nth_upd_below by lia. apply H. lia.
Qed.

Lemma wp_gain_limits glp maxord mx mn :
  -1 <= maxord <= 6 -> length mx = 7%nat -> length mn = 7%nat ->
  wp (gain_limits glp maxord mx mn) (fun r => gain_range (Z.to_nat (maxord + 1)) (fst r) (snd r)).
Proof.
  intros Hm L1 L2. unfold gain_limits. destruct (negb (glp =? 1)).
  - apply wp_bindi, wp_gain_pair. intros a b Hab.
    apply wp_bindi, wp_asetL; [lia|]. intros mx1 Hx _.
    apply wp_bindi, wp_asetL; [lia|]. intros mn1 Hn _.
    apply (wp_for (fun j t => gain_range j (fst t) (snd t))).
    + split; [cbn; lia|]. split; [cbn; lia|]. intros; lia.
    + intros j [x y] Hj G. assert (G' := G). destruct G' as (G1 & G2 & _). cbn [fst snd] in *.
      apply wp_bindi, wp_aset; [lia|]. apply wp_bindi, wp_aset; [lia|].
      rewrite Nat2Z.id. apply wp_ret. cbn [fst snd]. apply gain_range_step; [lia|exact G|exact Hab].
    + auto.
  - apply (wp_for (fun j t => gain_range j (fst t) (snd t))).
    + split; [cbn; lia|]. split; [cbn; lia|]. intros; lia.
    + intros j [x y] Hj G. assert (G' := G). destruct G' as (G1 & G2 & _). cbn [fst snd] in *.
      apply wp_bindi, wp_gain_pair. intros a b Hab.
      apply wp_bindi, wp_aset; [lia|]. apply wp_bindi, wp_aset; [lia|].
      rewrite Nat2Z.id. apply wp_ret. cbn [fst snd]. apply gain_range_step; [lia|exact G|exact Hab].
    + auto.
Qed.

(** ** Speaker pairs *)
Definition pairs_in (n : nat) (l : list (Z * option nat)) : Prop :=
  Forall (fun pr => match snd pr with Some q => (q < n)%nat | None => True end) l.

Lemma upd_Forall {A} (P : A -> Prop) l i v : Forall P l -> P v -> Forall P (upd l i v).
Proof.
  intros H Hv. unfold upd. destruct (Nat.ltb i (length l)); [|exact H].
  apply Forall_app. split; [apply Forall_forall; intros x Hx; rewrite Forall_forall in H; apply H|].
  - rewrite <- (firstn_skipn i l). apply in_or_app. left. exact Hx.
  - constructor; [exact Hv|]. apply Forall_forall. intros x Hx. rewrite Forall_forall in H. apply H.
    rewrite <- (firstn_skipn (S i) l). apply in_or_app. right. exact Hx.
Qed.

Lemma sym_fold spks lfer : forall js st,
  (forall j, In j js -> (j < length spks)%nat) ->
  pairs_in (length spks) (sy_pair st) -> 0 <= sy_n st ->
  let r := fold_left (sym_step spks lfer) js st in
  pairs_in (length spks) (sy_pair r) /\ 0 <= sy_n r <= sy_n st + Z.of_nat (length js).
Proof.
  induction js as [|j js IH]; intros st Hj Hp Hn; cbn [fold_left length].
  - split; [exact Hp|lia].
  - assert (K : pairs_in (length spks) (sy_pair (sym_step spks lfer st j)) /\
                sy_n st <= sy_n (sym_step spks lfer st j) <= sy_n st + 1).
    { unfold sym_step. destruct (nth j (sy_used st) false); [split; [exact Hp|lia]|].
      destruct (_ || _); cbn [sy_pair sy_n].
      - split; [|lia]. apply upd_Forall; [exact Hp|exact I].
      - match goal with |- context [find ?f ?l] => destruct (find f l) as [q|] eqn:F end; cbn [sy_pair sy_n].
        + split; [|destruct (_ || _); lia]. apply find_some in F. destruct F as [F _]. apply in_seq in F.
          apply upd_Forall; [apply upd_Forall; [exact Hp|]|exact I]. cbn. specialize (Hj j (or_introl eq_refl)). lia.
        + split; [|lia]. apply upd_Forall; [exact Hp|exact I]. }
    destruct K as [K1 K2]. destruct (IH (sym_step spks lfer st j)) as [I1 I2]; auto.
    + intros i Hi. apply Hj. right. exact Hi.
    + lia.
    + split; [exact I1|lia].
Qed.

Lemma find_symmetric_ok spks lfer :
  pairs_in (length spks) (fst (find_symmetric spks lfer)) /\
  0 <= snd (find_symmetric spks lfer) <= Z.of_nat (length spks).
Proof.
  unfold find_symmetric. cbn [fst snd].
  destruct (sym_fold spks lfer (seq 0 (length spks))
    (mkSy (repeat false (length spks)) (repeat (P_CENTER, None) (length spks)) 0)) as [H1 H2].
  - intros j Hj. apply in_seq in Hj. lia.
  - apply Forall_forall. intros x Hx. apply repeat_spec in Hx. subst. exact I.
  - cbn. lia.
  - split; [exact H1|]. cbn [sy_n] in H2. rewrite seq_length in H2. lia.
Qed.

Lemma pair_index (spks : list spk) pairs j : pairs_in (length spks) pairs -> (0 < length spks)%nat ->
  0 <= match snd (nth j pairs (P_CENTER, None)) with Some q => Z.of_nat q | None => 0 end < Z.of_nat (length spks).
Proof.
  intros H Hl. destruct (Nat.ltb_spec j (length pairs)) as [Hj|Hj].
  - assert (K := proj1 (Forall_forall _ _) H _ (nth_In pairs (P_CENTER, None) Hj)).
    cbv beta in K. destruct (snd (nth j pairs (P_CENTER, None))); lia.
  - rewrite nth_overflow by lia. cbn. lia.
Qed.

(** ** The matrix *)
Lemma hoa_order_nth i : 0 <= i < 49 -> nth_error hoa_order_tbl (Z.to_nat i) = Some (Z.sqrt i).
Proof.
  intros H. unfold hoa_order_tbl. rewrite nth_error_map.
  rewrite (nth_error_nth' _ 0%nat) by (rewrite seq_length; lia). rewrite seq_nth by lia.
  cbn [option_map Nat.add]. rewrite Z2Nat.id by lia. reflexivity.
Qed.

Lemma wp_read_range n (Q : Z -> Prop) : 0 <= n <= 2 ^ 23 -> (forall v, Q v) -> wp (read_range n) Q.
Proof.
  intros Hn HQ. unfold read_range. cbv zeta. apply wp_bindi, wp_rd.
  - split; [apply Z.log2_nonneg|]. change 24 with (Z.log2 (2 ^ 24)). apply Z.log2_le_mono. lia.
  - intros v _. destruct (_ <=? v); [wps; apply HQ|apply HQ].
Qed.

Section cell.
Variables (m : hmat) (spks : list spk) (pairs : list (Z * option nat)) (k : Z).
Hypothesis Hk : 0 <= k <= 7.
Hypothesis Hsp : (length spks <= 24)%nat.
Hypothesis HP : pairs_in (length spks) pairs.
Hypothesis HG : gain_range (Z.to_nat k) (m_max m) (m_min m).
Hypothesis Hprec : 0 <= m_prec m <= 3.
Hypothesis L_sparse : length (m_sparse m) = 128%nat.
Hypothesis L_isv : length (m_isv m) = 128%nat.
Hypothesis L_iss : length (m_iss m) = 128%nat.
Hypothesis L_syms : length (m_syms m) = 49%nat.
Hypothesis L_vbm : length (m_vbm m) = 49%nat.

Definition cells (ms : list hgain * list Z) : Prop :=
  Z.of_nat (length (fst ms)) = 1536 /\ Z.of_nat (length (snd ms)) = 1568.

Lemma wp_matrix_cell i j ms :
  0 <= i < k * k -> 0 <= j < Z.of_nat (length spks) -> cells ms ->
  wp (matrix_cell m spks pairs (Z.of_nat (length spks)) i j ms) cells.
Proof.
  intros Hi Hj [C1 C2]. destruct ms as [mat0 sgn0]. cbn [fst snd] in *. unfold matrix_cell. cbv zeta.
  destruct HG as (G1 & G2 & G3).
  assert (P := pair_index spks pairs (Z.to_nat j) HP ltac:(lia)).
  set (out := Z.of_nat (length spks)) in *.
  set (pi := match snd (nth (Z.to_nat j) pairs (P_CENTER, None)) with Some q => Z.of_nat q | None => 0 end) in *.
  assert (Hi49 : 0 <= i < 49) by nia.
  assert (Hso : 0 <= Z.sqrt i < k).
  { split; [apply Z.sqrt_nonneg|]. apply Z.sqrt_lt_square; lia. }
  assert (B1 : 0 <= i * out + j < 1536) by nia.
  assert (B2 : 0 <= i * out + pi < 1536) by nia.
  apply wp_bindi, wp_aget; [cbn; lia|]. intros o Ho. rewrite hoa_order_nth in Ho by lia. injection Ho as <-.
  apply wp_bindi, wp_asetL; [lia|]. intros mat1 M1 _.
  apply wp_bindi, wp_asetL; [lia|]. intros sgn1 S1 _.
  apply wp_bindi, wp_aget; [lia|]. intros vb _.
  destruct (_ && _); [cbn; unfold cells; cbn; lia|].
  apply wp_bindi, wp_aget; [lia|]. intros iv _.
  destruct (negb (iv =? 0)).
  { apply wp_bindi, wp_aget; [lia|]. intros g _. apply wp_bindi, wp_asetL; [lia|]. intros mat2 M2 _.
    apply wp_bindi, wp_aget; [lia|]. intros ss _. apply wp_bindi, wp_aget; [lia|]. intros sg _.
    apply wp_bindi, wp_asetL; [lia|]. intros sgn2 S2 _. cbn. unfold cells. cbn. lia. }
  destruct (_ && _); [cbn; unfold cells; cbn; lia|].
  apply wp_bindi, wp_aget; [lia|]. intros sp _. apply wp_bindi.
  apply (wp_mono _ (fun _ => True)); [|destruct (negb _); wps; exact I]. intros hv _.
  destruct (hv =? 0); [cbn; unfold cells; cbn; lia|].
  apply wp_bindi, wp_aget; [lia|]. intros mx Hmx. apply wp_bindi, wp_aget; [lia|]. intros mn Hmn.
  assert (G := G3 (Z.to_nat (Z.sqrt i)) ltac:(lia)).
  rewrite (nth_error_nth _ _ 0 Hmx), (nth_error_nth _ _ 0 Hmn) in G.
  assert (PR : 1 <= 2 ^ m_prec m <= 8).
  { split; [change 1 with (2 ^ 0); apply Z.pow_le_mono_r; lia|change 8 with (2 ^ 3); apply Z.pow_le_mono_r; lia]. }
  apply wp_bindi, wp_read_range; [change (2 ^ 23) with 8388608; nia|]. intros idx.
  apply wp_bindi, wp_asetL; [lia|]. intros mat2 M2 _.
  apply wp_bindi, wp_aget; [lia|]. intros is _.
  destruct (negb (is =? 0)).
  { apply wp_bindi, wp_aget; [lia|]. intros ss _. apply wp_bindi, wp_aget; [lia|]. intros sg _.
    apply wp_bindi, wp_asetL; [lia|]. intros sgn2 S2 _. cbn. unfold cells. cbn. lia. }
  destruct (_ && _); [|cbn; unfold cells; cbn; lia].
  wp1. wp1. apply wp_bindi, wp_asetL; [lia|]. intros sgn2 S2 _. cbn. unfold cells. cbn. lia.
Qed.
End cell.

Lemma wp_spread spks pairs lfer valp signp isv iss :
  (length spks <= 24)%nat -> length valp = 128%nat -> length signp = 128%nat ->
  length isv = 128%nat -> length iss = 128%nat ->
  wp (spread_pairs spks pairs lfer valp signp isv iss)
     (fun r => length (fst (fst r)) = 128%nat /\ length (snd (fst r)) = 128%nat).
Proof.
  intros Hs H1 H2 H3 H4. unfold spread_pairs.
  apply (wp_for (fun j t => length (fst (fst t)) = 128%nat /\ length (snd (fst t)) = 128%nat /\
                            0 <= snd t <= Z.of_nat j)); [cbn; lia| |intros t; tauto].
  intros j [[a b] c] Hj (A & B & C). cbn [fst snd] in *.
  assert (R : forall c', 0 <= c' <= Z.of_nat (S j) -> length (fst (fst (a, b, c'))) = 128%nat /\ length (snd (fst (a, b, c'))) = 128%nat /\ 0 <= snd (a, b, c') <= Z.of_nat (S j)) by (cbn; auto).
  destruct (snd (nth j pairs (P_CENTER, None))); [|apply R; lia].
  destruct (_ && _); [|apply R; lia].
  apply wp_bindi, wp_aget; [lia|]. intros v _. apply wp_bindi, wp_asetL; [lia|]. intros a' Ha _.
  apply wp_bindi, wp_aget; [lia|]. intros s _. apply wp_bindi, wp_asetL; [lia|]. intros b' Hb _.
  cbn. lia.
Qed.

Lemma wp_matrix_data m spks pairs k :
  0 <= k <= 7 -> (length spks <= 24)%nat -> pairs_in (length spks) pairs ->
  gain_range (Z.to_nat k) (m_max m) (m_min m) -> 0 <= m_prec m <= 3 -> hm_ok m ->
  wp (matrix_data m spks pairs (k * k)) hm_ok.
Proof.
  intros Hk Hsp HP HG Hpr [K1 K2 K3 K4 K5 K6 K7 K8 K9 K10 K11 K12]. unfold matrix_data. cbv zeta.
  apply wp_bindi, wp_fill; [lia|]. intros isv0 I0. apply wp_bindi, wp_fill; [lia|]. intros iss0 J0.
  apply wp_bindi. eapply wp_mono; [|apply wp_spread; try lia].
  intros [[isv iss] cnt] [HI HJ]. cbn [fst snd] in *. apply wp_bindi.
  apply (wp_for (fun _ t => cells t)).
  - unfold cells. cbn. lia.
  - intros i ms Hi C. apply (wp_for (fun _ t => cells t)); [exact C| |auto].
    intros jj ms' Hjj C'. apply (wp_matrix_cell _ spks pairs k); cbn; auto; lia.
  - intros [mat sgn] [C1 C2]. cbn in C1, C2. apply wp_ret. constructor; cbn; auto.
Qed.

Lemma wp_rd_flags np l (Q : list Z -> Prop) : np <= Z.of_nat (length l) ->
  (forall l', length l' = length l -> Q l') -> wp (rd_flags np l) Q.
Proof. intros H HQ. unfold rd_flags. apply wp_fill_loop; [lia| |exact HQ]. intros i. wps. exact I. Qed.

Lemma wp_pair_flags m np : 0 <= np <= 24 -> hm_ok m ->
  wp (pair_flags m np) (fun r => length (snd (fst r)) = 128%nat /\ length (snd r) = 128%nat).
Proof.
  intros Hn [K1 K2 K3 K4 K5 K6 K7 K8 K9 K10 K11 K12]. unfold pair_flags.
  apply wp_bindi, wp_fill; [lia|]. intros s0 S0. apply wp_bindi, wp_fill; [lia|]. intros v0 V0.
  do 2 (apply wp_bindi; wp1). destruct (negb (v1 =? 0)).
  { apply wp_bindi, wp_fill; [lia|]. intros v' V'. cbn. lia. }
  apply wp_bindi. wp1. destruct (v2 =? 0).
  - apply wp_bindi. wp1. apply wp_bindi. apply (wp_mono _ (fun l => length l = 128%nat)); [cbn; lia|].
    destruct (v3 =? 0).
    + apply wp_bindi. wp1. destruct (negb _); [apply wp_rd_flags; lia|cbn; lia].
    + apply wp_fill; lia.
  - apply wp_bindi, wp_rd_flags; [lia|]. intros vp Vp. apply wp_bindi. wp1.
    apply wp_bindi. apply (wp_mono _ (fun l => length l = 128%nat)); [cbn; lia|].
    destruct (negb _); [|cbn; lia].
    apply (wp_for (fun _ t => length t = 128%nat)); [lia| |auto].
    intros j t Hj Ht. apply wp_bindi, wp_aget; [lia|]. intros w _.
    destruct (w =? 0); [|exact Ht]. apply wp_bindi. wp1. apply wp_asetL; [lia|]. intros; lia.
Qed.

Lemma sqrt_sq k : 0 <= k -> Z.sqrt (k * k) = k. Proof. apply Z.sqrt_square. Qed.

Lemma wp_rendering_matrix m k spks : 0 <= k <= 7 -> (length spks <= 24)%nat -> hm_ok m ->
  wp (rendering_matrix m (k * k) spks) (fun r => match r with Ok m' => hm_ok m' | Er _ => True end).
Proof.
  intros Hk Hsp HM. assert (HM' := HM). destruct HM' as [K1 K2 K3 K4 K5 K6 K7 K8 K9 K10 K11 K12].
  unfold rendering_matrix. cbv zeta. rewrite sqrt_sq by lia.
  replace (k - 1 + 1) with k by lia.
  apply wp_bindi, (wp_for (fun _ t => length (fst t) = 49%nat /\ length (snd t) = 49%nat)).
  - cbn. lia.
  - intros j [sy vb] Hj [A B]. cbn [fst snd] in *. assert (k * k <= 49) by nia.
    apply wp_bindi, wp_asetL; [lia|]. intros sy' H1 _. apply wp_bindi, wp_asetL; [lia|]. intros vb' H2 _. cbn. lia.
  - intros [syms vbm] [A B]. cbn [fst snd] in *.
    do 3 (apply wp_bindi; wp1). apply wp_bindi. eapply wp_mono; [|apply wp_gain_limits; lia].
    replace (k - 1 + 1) with k by lia. intros [mx mn] G. assert (G' := G). destruct G' as (G1 & G2 & _). cbn [fst snd] in *.
    apply wp_bindi. wp1. apply wp_bindi.
    apply (wp_mono _ (fun r => match r with Ok (sp, _) => length sp = 128%nat | Er _ => True end)).
    2:{ destruct (negb _).
        - apply wp_bindi, wp_fill; [nia|]. intros sp Hs. cbn. lia.
        - assert (L := clog2_le k 3 ltac:(lia) ltac:(change (2 ^ 3) with 8; lia)).
          apply wp_bindi, wp_rd; [lia|]. intros fso Hfso.
          destruct (Z.ltb_spec (u32 (k - 1)) fso) as [|Hle]; [exact I|].
          assert (Hf : fso < 8).
          { apply Z.lt_le_trans with (2 ^ clog2 k); [lia|]. change 8 with (2 ^ 3). apply Z.pow_le_mono_r; lia. }
          apply wp_bindi, wp_fill; [nia|]. intros sp0 H0. apply wp_bindi.
          apply (wp_for (fun _ t => length t = 128%nat)); [lia| |cbn; auto].
          intros j t Hj Ht. apply wp_asetL; [|intros; lia]. nia. }
    intros [[sparse fso]|e] Hs; [|exact I].
    apply wp_bindi. apply (wp_mono _ (fun _ => True)); [|destruct (existsb _ _); wps; exact I]. intros lfer _.
    assert (FS := find_symmetric_ok spks lfer). destruct (find_symmetric spks lfer) as [pairs np]. cbn [fst snd] in FS.
    destruct FS as [F1 F2].
    apply wp_bindi. eapply wp_mono; [|apply wp_pair_flags; [lia|exact HM]].
    intros [[[[[zop allv] anyv] alls] valp] signp] [V1 V2]. cbn [fst snd] in *.
    apply wp_bindi. wp1. apply wp_bindi.
    eapply wp_mono; [|apply (wp_matrix_data _ spks pairs k); cbn; auto; try lia].
    + intros m' Hm'. exact Hm'.
    + constructor; cbn; auto.
Qed.

Lemma layout_spk_len lay : (length (layout_spk lay) <= 24)%nat.
Proof.
  unfold layout_spk. rewrite map_length. unfold ls_set.
  assert (H : Forall (fun l => (length l <= 24)%nat) ls_set_tbl).
  { unfold ls_set_tbl. repeat (constructor; [cbn; lia|]). constructor. }
  destruct (Nat.ltb_spec (Z.to_nat lay) (length ls_set_tbl)) as [Hl|Hl].
  - rewrite Forall_forall in H. apply H, nth_In, Hl.
  - rewrite nth_overflow by lia. cbn. lia.
Qed.

Lemma wp_hoa_matrix k cicp m : 0 <= k <= 7 -> hm_ok m ->
  wp (hoa_matrix (k * k) cicp m) (fun r => match r with Ok m' => hm_ok m' | Er _ => True end).
Proof.
  intros Hk HM. unfold hoa_matrix. apply wp_bindi. wp1.
  apply (wp_forR (fun _ t => hm_ok t) (fun _ => True)); auto.
  intros j t Hj Ht. unfold hoa_matrix_one. apply wp_bindi. wp1.
  assert (Ht' := Ht). destruct Ht' as [K1 K2 K3 K4 K5 K6 K7 K8 K9 K10 K11 K12].
  apply wp_bindi, wp_asetL; [lia|]. intros ids Hi _. apply wp_bindi. wp1.
  destruct (20 <? v1); [exact I|]. apply wp_bindi, wp_esc; try lia. intros len Hlen.
  destruct (21 <? cicp); [exact I|]. destruct (negb _).
  - apply wp_bindi, wp_skip; [lia|]. cbn. constructor; cbn; auto; lia.
  - apply wp_rendering_matrix; [lia|apply layout_spk_len|]. constructor; cbn; auto; lia.
Qed.
