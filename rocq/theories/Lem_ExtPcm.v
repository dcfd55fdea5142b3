(** * Lemmas: the samples handed to an external renderer *)
From Coq Require Import ZArith List Lia Bool Floats.SpecFloat.
From Verif Require Import F32 Lem_F32 Pcm Spec_Pcm ExtPcm Lem_Pcm Lem_PcmMap Lem_PcmOut.
Import ListNotations.
Open Scope Z_scope.

(** Within 256 times full scale. *)
Definition in_reach (x : f32) : Prop :=
  exists v, value149 x = Some v /\ - (2 ^ 23 * 2 ^ 149) <= v < 2 ^ 23 * 2 ^ 149.

Lemma x24_ok x : float32 x -> in_reach x -> exists n, word_of 24 x n /\ x24 x = Some (le_bytes 3 n).
Proof.
  intros F (v & V & LT). unfold x24, MAX_24, MIN_24. change (of_int 256) with MUL_FAC_PCM_24. rewrite mul24.
  exists (Z.max (-8388608) (Z.min 8388607 (Z.quot (v * 2 ^ 8) U))). split.
  - unfold word_of. destruct x as [s|s| |s m e]; try discriminate V; exists v; (split; [exact V|reflexivity]).
  - assert (Q1 : Z.quot (v * 2 ^ 8) U <= 2147483647).
    { assert (H0 : v * 2 ^ 8 <= 2147483648 * U - 1) by (unfold U; lia). apply quot_mono in H0.
      assert (Z.quot (2147483648 * U - 1) U = 2147483647) by (vm_compute; reflexivity). lia. }
    assert (Q2 : -2147483648 <= Z.quot (v * 2 ^ 8) U).
    { rewrite <- (quot_int (-2147483648)). apply quot_mono. unfold U. lia. }
    destruct (mul_conv 8 x v ltac:(lia) F V) as [[O E]|(t & E & B)].
    + rewrite (to_int_in _ _ _ (Z.quot (v * 2 ^ 8) U)); [|apply trunc_units; assumption|lia].
      cbv zeta. rewrite bytes3. do 2 f_equal. lia.
    + exfalso. destruct t.
      * apply quot_mono in B. rewrite quot_opp, quot_int in B. lia.
      * apply quot_mono in B. rewrite quot_int in B. lia.
Qed.

Lemma x24_out x : float32 x ->
  (forall v, value149 x = Some v -> v <= - ((2 ^ 23 + 1) * 2 ^ 149) \/ 2 ^ 23 * 2 ^ 149 <= v) -> x24 x = None.
Proof.
  intros F H. unfold x24. change (of_int 256) with MUL_FAC_PCM_24. rewrite mul24.
  destruct x as [s|s| |s m e].
  - exfalso. specialize (H 0 eq_refl). lia.
  - reflexivity.
  - reflexivity.
  - set (x := S754_finite s m e) in *.
    assert (exists v, value149 x = Some v) as (v & V) by (subst x; eexists; reflexivity).
    specialize (H v V). destruct (mul_conv 8 x v ltac:(lia) F V) as [[O E]|(t & E & B)].
    + unfold to_int. rewrite (trunc_units _ _ O E).
      assert (Z.quot (v * 2 ^ 8) U < - 2 ^ 31 \/ 2 ^ 31 - 1 < Z.quot (v * 2 ^ 8) U) as [Q|Q].
      { destruct H as [H|H]; [left|right].
        - assert (v * 2 ^ 8 <= (- (2147483648 + 256)) * U) as B by (unfold U; lia).
          apply quot_mono in B. rewrite quot_int in B. lia.
        - assert (2147483648 * U <= v * 2 ^ 8) as B by (unfold U; lia).
          apply quot_mono in B. rewrite quot_int in B. lia. }
      * rewrite (proj2 (Z.leb_gt _ _)) by lia. reflexivity.
      * rewrite (proj2 (Z.leb_gt (Z.quot (v * 2 ^ 8) U) _)) by lia. rewrite andb_false_r. reflexivity.
    + rewrite E. reflexivity.
Qed.

Lemma le_bytes_len k n : length (le_bytes k n) = k.
Proof. revert n. induction k; intros; [reflexivity|]. cbn [le_bytes length]. rewrite IHk. reflexivity. Qed.

Lemma x_chans_ok x w s k ch : (forall c, ch <= c < ch + Z.of_nat k -> x24 (x c s) = Some (le_bytes 3 (w c s))) ->
  x_chans x s ch k = Some (flat_map (fun j => le_bytes 3 (w (ch + Z.of_nat j) s)) (seq 0 k)).
Proof.
  revert ch. induction k as [|k IH]; intros ch H; [reflexivity|]. cbn [x_chans seq flat_map].
  rewrite (H ch) by lia. rewrite IH by (intros; apply H; lia). rewrite Z.add_0_r. do 2 f_equal.
  rewrite <- (seq_shift k 0). rewrite !flat_map_concat_map, map_map. f_equal. apply map_ext.
  intros a. do 2 f_equal. lia.
Qed.

Lemma x_samps_ok x w nch k s : (forall c t, 0 <= c < nch -> s <= t < s + Z.of_nat k -> x24 (x c t) = Some (le_bytes 3 (w c t))) ->
  x_samps x nch s k = Some (flat_map (fun i => flat_map (fun j => le_bytes 3 (w (Z.of_nat j) (s + Z.of_nat i)))
    (seq 0 (Z.to_nat nch))) (seq 0 k)).
Proof.
  revert s. induction k as [|k IH]; intros s H; [reflexivity|]. cbn [x_samps seq flat_map].
  rewrite (x_chans_ok x w) by (intros; apply H; lia). rewrite IH by (intros; apply H; lia). rewrite Z.add_0_r. do 2 f_equal.
  rewrite <- (seq_shift k 0). rewrite !flat_map_concat_map, map_map. f_equal. apply map_ext.
  intros a. rewrite !flat_map_concat_map. f_equal. apply map_ext. intros b. do 2 f_equal. lia.
Qed.

Lemma x_pcm_ok x nc no nh w : 0 <= nc -> 0 <= no -> 0 <= nh ->
  (forall c s, 0 <= c < nc + no + nh -> 0 <= s < 1024 -> float32 (x c s) /\ in_reach (x c s)) ->
  (forall c s, 0 <= c < nc + no + nh -> 0 <= s < 1024 -> word_of 24 (x c s) (w c s)) ->
  exists b, x_pcm x nc no nh 1024 = Some (b, Z.of_nat (length b)) /\ b = interleaved 24 (nc + no + nh) w 0 1024.
Proof.
  intros A B C H W. unfold x_pcm. rewrite (x_samps_ok x w).
  2: { intros c t Hc Ht. destruct (H c t Hc ltac:(lia)) as (F & R). destruct (x24_ok _ F R) as (n & Wn & E).
       rewrite E. do 2 f_equal. eapply word_fun; [exact Wn|]. apply W; lia. }
  exists (interleaved 24 (nc + no + nh) w 0 1024). split; [|reflexivity].
  change (Z.to_nat (1024 - 0)) with (Z.to_nat 1024). unfold interleaved.
  change (Z.to_nat (24 / 8)) with 3%nat. change (Z.to_nat (1024 - 0)) with (Z.to_nat 1024). do 2 f_equal.
  assert (LL : forall A (f : A -> list Z) n l, (forall a, length (f a) = n) -> length (flat_map f l) = (length l * n)%nat).
  { clear. intros A f n l H. induction l; [reflexivity|]. cbn [flat_map length]. rewrite app_length, H, IHl. lia. }
  rewrite (LL _ _ (Z.to_nat (nc + no + nh) * 3)%nat).
  2: { intros a. rewrite (LL _ _ 3%nat); [rewrite seq_length; reflexivity|]. intros; apply le_bytes_len. }
  rewrite seq_length. lia.
Qed.

Lemma x_pcm_out x s nc no nh : 0 < nc + no + nh -> 0 <= s < 1024 ->
  float32 (x 0 s) -> (forall v, value149 (x 0 s) = Some v -> v <= - ((2 ^ 23 + 1) * 2 ^ 149) \/ 2 ^ 23 * 2 ^ 149 <= v) ->
  x_pcm x nc no nh 1024 = None.
Proof.
  intros N R F H. unfold x_pcm. pose proof (x24_out _ F H) as X.
  assert (forall k t, t <= s < t + Z.of_nat k -> x_samps x (nc + no + nh) t k = None) as G.
  { induction k as [|k IH]; intros t Ht; [lia|]. cbn [x_samps].
    destruct (Z.eq_dec t s) as [->|NE].
    - destruct (Z.to_nat (nc + no + nh)) as [|m] eqn:E; [lia|]. cbn [x_chans]. rewrite X. reflexivity.
    - rewrite (IH (t + 1)) by lia. destruct (x_chans x t 0 _); reflexivity. }
  rewrite (G (Z.to_nat 1024) 0) by lia. reflexivity.
Qed.
