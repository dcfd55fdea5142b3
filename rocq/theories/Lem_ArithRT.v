(** * Lem_ArithRT: the arithmetic decoder inverts the encoder of Spec_Arith *)

From Coq Require Import ZArith List Lia Bool.
From Verif Require Import Bits ArithRom Arith Spec_Arith Lem_Arith.
Import ListNotations.
Open Scope Z_scope.

(** Value of the first m bits of w, zeros following the end. *)
Fixpoint pvn (w : list bool) (m : nat) : Z :=
  match m with O => 0 | S m => 2 * pvn w m + bz (nth m w false) end.

Lemma pvn_S w m : pvn w (S m) = 2 * pvn w m + bz (nth m w false).
Proof. reflexivity. Qed.
Lemma firstn_one {A} (d : A) : forall m (w : list A), (S m <= length w)%nat -> firstn (S m) w = firstn m w ++ [nth m w d].
Proof.
  induction m as [|m IH]; intros w H; destruct w as [|x w]; cbn [length] in H; try lia; [reflexivity|].
  change (x :: firstn (S m) w = x :: (firstn m w ++ [nth m w d])). f_equal. apply IH. lia.
Qed.
Lemma pvn_val w : forall m, (m <= length w)%nat -> pvn w m = val_of (firstn m w).
Proof.
  induction m as [|m IH]; intros H; [reflexivity|]. cbn [pvn]. rewrite IH by lia.
  rewrite (firstn_one false m w H), val_of_app. cbn [val_of length]. change (2 ^ Z.of_nat 1) with 2. change (2 ^ Z.of_nat 0) with 1.
  destruct (nth m w false); cbn [bz Z.b2z]; lia.
Qed.
Lemma bz_range b : 0 <= bz b <= 1. Proof. destruct b; cbn; lia. Qed.
Lemma pvn_nonneg w m : 0 <= pvn w m.
Proof. induction m; cbn [pvn]; [lia|]. pose proof (bz_range (nth m w false)). lia. Qed.
Lemma pvn_add w m k : exists r, 0 <= r < 2 ^ Z.of_nat k /\ pvn w (k + m) = pvn w m * 2 ^ Z.of_nat k + r.
Proof.
  induction k as [|k (r & R & E)]; [exists 0; cbn; lia|].
  exists (2 * r + bz (nth (k + m) w false)). rewrite Nat2Z.inj_succ, Z.pow_succ_r by lia.
  pose proof (bz_range (nth (k + m) w false)). split; [lia|]. cbn [Nat.add pvn]. rewrite E. lia.
Qed.

(** ** Containment *)
Definition inside (w : list bool) (e : enc) : Prop :=
  e_base e + e_lo e <= pvn w (16 + e_cnt e) <= e_base e + e_hi e.

Lemma double_inside w e c : inside w (double e c) -> inside w e.
Proof.
  unfold inside, double. cbn [e_base e_lo e_hi e_cnt]. replace (16 + S (e_cnt e))%nat with (S (16 + e_cnt e)) by lia.
  rewrite pvn_S. pose proof (bz_range (nth (16 + e_cnt e) w false)) as B.
  generalize dependent (pvn w (16 + e_cnt e)). generalize dependent (bz (nth (16 + e_cnt e) w false)). intros. lia.
Qed.
Lemma scale_inside w e : inside w (scale e) -> inside w e.
Proof.
  unfold scale. destruct (e_hi e <? 32768); [apply double_inside|]. destruct (32768 <=? e_lo e); [apply double_inside|].
  destruct ((16384 <=? e_lo e) && (e_hi e <? 49152)); [apply double_inside|auto].
Qed.
Lemma iter_inside w : forall k e, inside w (Nat.iter k scale e) -> inside w e.
Proof. induction k as [|k IH]; intros e H; [exact H|]. apply IH. apply scale_inside. exact H. Qed.
Lemma iter_r k : forall e, Nat.iter (S k) scale e = Nat.iter k scale (scale e).
Proof. induction k as [|k IH]; intros e; [reflexivity|]. change (scale (Nat.iter (S k) scale e) = scale (Nat.iter k scale (scale e))). f_equal. apply IH. Qed.

(** ** Encoder invariant *)
Record well (e : enc) : Prop := {
  wl_base : 0 <= e_base e; wl_mod : e_base e mod 16384 = 0;
  wl_lo : 0 <= e_lo e; wl_lh : e_lo e <= e_hi e; wl_hi : e_hi e <= 65535;
  wl_top : e_base e + e_hi e < 2 ^ Z.of_nat (16 + e_cnt e) }.
Definition ready (e : enc) : Prop := well e /\ settled (e_lo e) (e_hi e).

Lemma well_double e c : well e -> (c = 0 \/ c = 16384 \/ c = 32768) -> c <= e_lo e -> e_hi e - c <= 32767 -> well (double e c).
Proof.
  intros [A B C D E F] H L U. unfold double. constructor; cbn [e_base e_lo e_hi e_cnt]; try lia.
  - rewrite Z.mul_mod, Z.add_mod, B by lia. destruct H as [-> | [-> | ->]]; reflexivity.
  - replace (16 + S (e_cnt e))%nat with (S (16 + e_cnt e)) by lia. rewrite Nat2Z.inj_succ, Z.pow_succ_r by lia. lia.
Qed.
Lemma well_scale e : well e -> well (scale e).
Proof.
  intros W. pose proof W as [A B C D E F]. unfold scale.
  destruct (Z.ltb_spec (e_hi e) 32768); [apply well_double; try assumption; try lia; auto|].
  destruct (Z.leb_spec 32768 (e_lo e)); [apply well_double; try assumption; try lia; auto|].
  destruct (Z.leb_spec 16384 (e_lo e)), (Z.ltb_spec (e_hi e) 49152); cbn [andb]; try exact W.
  apply well_double; try assumption; try lia; auto.
Qed.
Lemma scale_settled e : settled (e_lo e) (e_hi e) -> scale e = e.
Proof.
  intros [[A B] C]. unfold scale. rewrite (proj2 (Z.ltb_ge _ _)) by lia. rewrite (proj2 (Z.leb_gt _ _)) by lia.
  destruct (Z.leb_spec 16384 (e_lo e)), (Z.ltb_spec (e_hi e) 49152); cbn [andb]; try reflexivity. lia.
Qed.
Lemma iter_settled k e : settled (e_lo e) (e_hi e) -> Nat.iter k scale e = e.
Proof. intros S. induction k as [|k IH]; [reflexivity|]. change (scale (Nat.iter k scale e) = e). rewrite IH. apply scale_settled, S. Qed.
Lemma scale_cases e : well e -> settled (e_lo e) (e_hi e) \/
  (exists c, (c = 0 \/ c = 16384 \/ c = 32768) /\ c <= e_lo e /\ e_hi e - c <= 32767 /\ scale e = double e c).
Proof.
  intros [A B C D E F]. unfold scale, settled.
  destruct (Z.ltb_spec (e_hi e) 32768); [right; exists 0; split; [auto|]; split; [lia|]; split; [lia|reflexivity]|].
  destruct (Z.leb_spec 32768 (e_lo e)); [right; exists 32768; split; [auto|]; split; [lia|]; split; [lia|reflexivity]|].
  destruct (Z.leb_spec 16384 (e_lo e)), (Z.ltb_spec (e_hi e) 49152); cbn [andb]; try (left; lia).
  right; exists 16384; split; [auto|]; split; [lia|]; split; [lia|reflexivity].
Qed.
Lemma iter_ready : forall k e, well e -> 32768 < (e_hi e - e_lo e + 1) * 2 ^ Z.of_nat k -> ready (Nat.iter k scale e).
Proof.
  induction k as [|k IH]; intros e W H.
  - change (2 ^ Z.of_nat 0) with 1 in H. split; [exact W|]. cbn [Nat.iter]. destruct W. unfold settled. cbn. lia.
  - rewrite iter_r. destruct (scale_cases e W) as [S|(c & C1 & C2 & C3 & E)].
    + rewrite scale_settled by exact S. rewrite iter_settled by exact S. split; assumption.
    + apply IH; [apply well_scale, W|]. rewrite E. cbn [double e_hi e_lo].
      rewrite Nat2Z.inj_succ, Z.pow_succ_r in H by lia. nia.
Qed.

(** ** The decoder follows the encoder *)
Record sync (w : list bool) (e : enc) (s : ast) (bs : list bool) (n : Z) : Prop := {
  sy_lo : a_low s = e_lo e; sy_hi : a_high s = e_hi e; sy_v : a_val s = pvn w (16 + e_cnt e) - e_base e;
  sy_bs : bs = skipn (16 + e_cnt e) w; sy_n : n = 16 + Z.of_nat (e_cnt e) }.

Lemma skipn_step {A} (d : A) m (w : list A) : match skipn m w with
  | [] => nth m w d = d /\ skipn (S m) w = []
  | b :: r => nth m w d = b /\ skipn (S m) w = r end.
Proof.
  revert w. induction m as [|m IH]; intros w.
  - destruct w; cbn; auto.
  - destruct w as [|x w]; [cbn; auto|]. exact (IH w).
Qed.

Lemma renorm_sync w : forall m fuel e v bs n, (m < fuel)%nat -> well e -> inside w e ->
  v = pvn w (16 + e_cnt e) - e_base e -> bs = skipn (16 + e_cnt e) w -> n = 16 + Z.of_nat (e_cnt e) ->
  32768 < (e_hi e - e_lo e + 1) * 2 ^ Z.of_nat m -> inside w (Nat.iter m scale e) ->
  exists s' bs' n', renorm fuel v (e_lo e) (e_hi e) bs n = Got (s', bs', n') /\ sync w (Nat.iter m scale e) s' bs' n'.
Proof.
  induction m as [|m IH]; intros fuel e v bs n F W IN V B N H IT.
  - destruct fuel as [|fuel]; [lia|]. cbn [renorm]. change (2 ^ Z.of_nat 0) with 1 in H. pose proof W as [A1 A2 A3 A4 A5 A6].
    rewrite (proj2 (Z.ltb_ge _ _)) by lia. rewrite !Z.geb_leb. rewrite (proj2 (Z.leb_gt _ _)) by lia.
    assert (Q : (16384 <=? e_lo e) && (e_hi e <? 49152) = false).
    { destruct (Z.leb_spec 16384 (e_lo e)), (Z.ltb_spec (e_hi e) 49152); cbn; try reflexivity. lia. }
    rewrite Q. eexists _, _, _. split; [reflexivity|]. change (Nat.iter 0 scale e) with e. constructor; cbn [a_low a_high a_val]; assumption || reflexivity.
  - destruct (scale_cases e W) as [S|(c & C1 & C2 & C3 & E)].
    + rewrite iter_settled by exact S. destruct fuel as [|fuel]; [lia|]. cbn [renorm]. destruct S as [[S1 S2] S3].
      rewrite (proj2 (Z.ltb_ge _ _)) by lia. rewrite !Z.geb_leb. rewrite (proj2 (Z.leb_gt _ _)) by lia.
      assert (Q : (16384 <=? e_lo e) && (e_hi e <? 49152) = false).
      { destruct (Z.leb_spec 16384 (e_lo e)), (Z.ltb_spec (e_hi e) 49152); cbn; try reflexivity. lia. }
      rewrite Q. eexists _, _, _. split; [reflexivity|]. constructor; cbn [a_low a_high a_val]; assumption || reflexivity.
    + rewrite iter_r in *. rewrite E in *. destruct fuel as [|fuel]; [lia|].
      assert (W' : well (double e c)) by (rewrite <- E; apply well_scale, W).
      pose proof (iter_inside w m _ IT) as IN'. pose proof W as [A1 A2 A3 A4 A5 A6].
      assert (VR : e_lo e <= v <= e_hi e) by (unfold inside in IN; lia).
      pose proof (skipn_step false (16 + e_cnt e) w) as SK. rewrite <- B in SK.
      set (b := nth (16 + e_cnt e) w false) in *.
      assert (STEP : exists s' bs' n',
       (olet hi := w32 (e_hi e - c) in olet lo := w32 (e_lo e - c) in olet v := w32 (v - c) in
        olet hi := w32 (hi + (hi + 1)) in olet lo := w32 (lo + lo) in olet v := shl32 v 1 in
        match bs with
        | [] => renorm fuel v lo hi [] (n + 1)
        | b :: bs => renorm fuel (Z.lor v (bz b)) lo hi bs (n + 1)
        end) = Got (s', bs', n') /\ sync w (Nat.iter m scale (double e c)) s' bs' n').
      { rewrite (w32_ok (e_hi e - c)) by lia. cbn [obind]. rewrite (w32_ok (e_lo e - c)) by lia. cbn [obind].
        rewrite (w32_ok (v - c)) by lia. cbn [obind]. rewrite (w32_ok (e_hi e - c + (e_hi e - c + 1))) by lia. cbn [obind].
        rewrite (w32_ok (e_lo e - c + (e_lo e - c))) by lia. cbn [obind].
        rewrite (shl32_ok (v - c) 1) by lia. cbn [obind].
        replace ((v - c) * 2 ^ 1) with (2 * (v - c)) by lia.
        replace (e_hi e - c + (e_hi e - c + 1)) with (e_hi (double e c)) by (cbn [double e_hi]; lia).
        replace (e_lo e - c + (e_lo e - c)) with (e_lo (double e c)) by (cbn [double e_lo]; lia).
        assert (CN : (16 + e_cnt (double e c) = S (16 + e_cnt e))%nat) by (cbn [double e_cnt]; lia).
        assert (VV : 2 * (v - c) + bz b = pvn w (16 + e_cnt (double e c)) - e_base (double e c)).
        { rewrite CN, pvn_S. cbn [double e_base]. fold b. rewrite V. lia. }
        assert (HH : 32768 < (e_hi (double e c) - e_lo (double e c) + 1) * 2 ^ Z.of_nat m).
        { cbn [double e_hi e_lo]. rewrite Nat2Z.inj_succ, Z.pow_succ_r in H by lia. nia. }
        assert (NN : n + 1 = 16 + Z.of_nat (e_cnt (double e c))) by (cbn [double e_cnt]; lia).
        destruct bs as [|b0 bs].
        - destruct SK as [SK1 SK2].
          apply (IH fuel (double e c)); try assumption; try lia.
          + rewrite <- VV, SK1. cbn [bz]. lia.
          + rewrite CN. symmetry. exact SK2.
        - destruct SK as [SK1 SK2]. rewrite lor_bit.
          apply (IH fuel (double e c)); try assumption; try lia.
          + rewrite <- VV. fold b in SK1. rewrite <- SK1. reflexivity.
          + rewrite CN. symmetry. exact SK2. }
      cbn [renorm]. unfold scale in E.
      destruct (Z.ltb_spec (e_hi e) 32768) as [X|X].
      { assert (c = 0) by (apply (f_equal e_lo) in E; cbn [double e_lo] in E; lia). subst c. exact STEP. }
      rewrite !Z.geb_leb. destruct (Z.leb_spec 32768 (e_lo e)) as [Y|Y].
      { assert (c = 32768) by (apply (f_equal e_lo) in E; cbn [double e_lo] in E; lia). subst c. exact STEP. }
      destruct ((16384 <=? e_lo e) && (e_hi e <? 49152)).
      { assert (c = 16384) by (apply (f_equal e_lo) in E; cbn [double e_lo] in E; lia). subst c. exact STEP. }
      apply (f_equal e_cnt) in E. cbn [double e_cnt] in E. lia.
Qed.

(** One symbol. *)
Definition narrowed (e : enc) (cf : list Z) (y : Z) : Prop :=
  e_lo e <= e_lo (narrow e cf y) /\ e_lo (narrow e cf y) <= e_hi (narrow e cf y) /\ e_hi (narrow e cf y) <= e_hi e.

Lemma step_eq e cf y : enc_step e (cf, y) = Nat.iter 17 scale (narrow e cf y).
Proof. reflexivity. Qed.
Lemma narrow_inside w e cf y : inside w (narrow e cf y) =
  (e_base e + e_lo (narrow e cf y) <= pvn w (16 + e_cnt e) <= e_base e + e_hi (narrow e cf y)).
Proof. reflexivity. Qed.

Lemma settled_width e : well e -> settled (e_lo e) (e_hi e) -> 16386 <= e_hi e - e_lo e + 1 <= 65536.
Proof. intros [? ? ? ? ? ?] [? ?]. lia. Qed.

Lemma narrow_ok e cf y : ready e -> freq_table cf -> is_symbol cf y -> narrowed e cf y.
Proof.
  intros [W S] T Y.
  assert (G : good (mkAst (e_lo e) (e_lo e) (e_hi e))).
  { destruct W, S as [S1 S2]. constructor; cbn; lia. }
  destruct (share_bounds _ cf y G T Y) as (B1 & B2 & B3).
  unfold narrowed, narrow. cbn [e_lo e_hi]. unfold lower, upper, width in *. cbn [a_high a_low] in *.
  destruct (y =? 0); lia.
Qed.

Lemma step_ready e cf y : ready e -> freq_table cf -> is_symbol cf y -> ready (enc_step e (cf, y)).
Proof.
  intros R T Y. pose proof (narrow_ok e cf y R T Y) as (N1 & N2 & N3). destruct R as [[A1 A2 A3 A4 A5 A6] S].
  rewrite step_eq. apply iter_ready.
  - constructor; cbn [narrow e_base e_cnt] in *; lia || assumption.
  - change (2 ^ Z.of_nat 17) with 131072. lia.
Qed.

Lemma step_inside w e cf y : ready e -> freq_table cf -> is_symbol cf y -> inside w (enc_step e (cf, y)) ->
  inside w (narrow e cf y) /\ inside w e.
Proof.
  intros R T Y H. rewrite step_eq in H. apply iter_inside in H. split; [exact H|].
  pose proof (narrow_ok e cf y R T Y) as (N1 & N2 & N3). rewrite narrow_inside in H. unfold inside.
  generalize dependent (pvn w (16 + e_cnt e)). intros z H. lia.
Qed.

Lemma step_sync w e cf y s bs n : ready e -> freq_table cf -> is_symbol cf y -> sync w e s bs n ->
  inside w (enc_step e (cf, y)) -> bs <> [] ->
  exists s' bs' n', arith_decode s bs n cf (Z.of_nat (length cf)) = Got (y, s', bs', n') /\
    sync w (enc_step e (cf, y)) s' bs' n' /\ good s'.
Proof.
  intros R T Y SY H NE. destruct (step_inside w e cf y R T Y H) as [IN IE].
  pose proof (narrow_ok e cf y R T Y) as (N1 & N2 & N3).
  pose proof SY as [SL SH SV SB SN]. pose proof R as [W S].
  assert (G : good s).
  { destruct W, S as [S1 S2]. unfold inside in IE. clear - wl_lo0 wl_lh0 wl_hi0 S1 S2 IE SL SH SV.
    generalize dependent (pvn w (16 + e_cnt e)). intros z H IE. constructor; lia. }
  assert (LW : e_lo (narrow e cf y) = a_low s + lower s cf y) by (unfold lower, width; cbn [narrow e_lo]; rewrite SL, SH; reflexivity).
  assert (UW : e_hi (narrow e cf y) = a_low s + upper s cf y - 1).
  { unfold upper, width. cbn [narrow e_hi]. rewrite SL, SH. destruct (y =? 0); lia. }
  destruct (decode_ok s bs n cf G T) as [(E & _)|(_ & y' & k & s' & D & Y' & G' & O & _ & _ & RN)]; [congruence|].
  assert (y' = y) as ->.
  { assert (OY : lower s cf y <= off s < upper s cf y).
    { rewrite narrow_inside in IN. unfold off. clear - IN LW UW SV.
      generalize dependent (pvn w (16 + e_cnt e)). intros z H IN. lia. }
    apply (symbol_unique cf (cumul s) y' y T Y' Y).
    - apply (cum_ge (a_val s - a_low s) (a_high s - a_low s + 1)); [pose proof (good_width s G); lia|]. exact (proj1 O).
    - intros P. destruct (Z.lt_ge_cases (cumul s) (entry cf (y' - 1))) as [X|X]; [exact X|].
      apply (cum_ge (a_val s - a_low s) (a_high s - a_low s + 1)) in X; [|pose proof (good_width s G); lia].
      unfold upper in O. rewrite (proj2 (Z.eqb_neq y' 0)) in O by lia. unfold off, width in O. lia.
    - apply (cum_ge (a_val s - a_low s) (a_high s - a_low s + 1)); [pose proof (good_width s G); lia|]. exact (proj1 OY).
    - intros P. destruct (Z.lt_ge_cases (cumul s) (entry cf (y - 1))) as [X|X]; [exact X|].
      apply (cum_ge (a_val s - a_low s) (a_high s - a_low s + 1)) in X; [|pose proof (good_width s G); lia].
      unfold upper in OY. rewrite (proj2 (Z.eqb_neq y 0)) in OY by lia. unfold off, width in OY. lia. }
  rewrite D. rewrite <- LW, <- UW in RN.
  assert (W2 : well (narrow e cf y)).
  { destruct W as [A1 A2 A3 A4 A5 A6]. constructor; cbn [narrow e_base e_cnt]; lia || assumption. }
  rewrite step_eq in *.
  assert (WD : 32768 < (e_hi (narrow e cf y) - e_lo (narrow e cf y) + 1) * 2 ^ Z.of_nat 17).
  { change (2 ^ Z.of_nat 17) with 131072. lia. }
  pose proof (renorm_sync w 17 20 (narrow e cf y) (a_val s) bs n) as RS.
  change (e_cnt (narrow e cf y)) with (e_cnt e) in RS. change (e_base (narrow e cf y)) with (e_base e) in RS.
  specialize (RS ltac:(lia) W2 IN SV SB SN WD H). destruct RS as (s2 & bs2 & n2 & RS & SY').
  rewrite RN in RS. injection RS as <- <- <-.
  eexists _, _, _. split; [reflexivity|]. split; [exact SY'|exact G'].
Qed.

(** ** Sequences *)
Definition coded (x : list Z * Z) : Prop := freq_table (fst x) /\ is_symbol (fst x) (snd x).

Lemma scale_cnt e : (e_cnt e <= e_cnt (scale e))%nat.
Proof. unfold scale. destruct (_ <? _); [cbn; lia|]. destruct (_ <=? _); [cbn; lia|]. destruct (_ && _); cbn; lia. Qed.
Lemma iter_cnt k e : (e_cnt e <= e_cnt (Nat.iter k scale e))%nat.
Proof. induction k as [|k IH]; [cbn; lia|]. change (e_cnt e <= e_cnt (scale (Nat.iter k scale e)))%nat. pose proof (scale_cnt (Nat.iter k scale e)). lia. Qed.
Lemma step_cnt e x : (e_cnt e <= e_cnt (enc_step e x))%nat.
Proof. destruct x as [cf y]. rewrite step_eq. exact (iter_cnt 17 (narrow e cf y)). Qed.
Lemma fold_cons {A B} (f : A -> B -> A) x l e : fold_left f (x :: l) e = fold_left f l (f e x).
Proof. reflexivity. Qed.
Lemma all_eq x l e : enc_all (x :: l) e = enc_all l (enc_step e x).
Proof. exact (fold_cons enc_step x l e). Qed.
Lemma all_cnt : forall l e, (e_cnt e <= e_cnt (enc_all l e))%nat.
Proof. induction l as [|x l IH]; intros e; [cbn; lia|]. rewrite all_eq. exact (Nat.le_trans _ _ _ (step_cnt e x) (IH (enc_step e x))). Qed.
Lemma all_ready : forall l e, Forall coded l -> ready e -> ready (enc_all l e).
Proof.
  induction l as [|[cf y] l IH]; intros e F R; [exact R|]. rewrite all_eq.
  destruct (Forall_inv F) as [T Y]. apply IH; [exact (Forall_inv_tail F)|]. apply step_ready; assumption.
Qed.
Lemma all_inside w : forall l e, Forall coded l -> ready e -> inside w (enc_all l e) -> inside w e.
Proof.
  induction l as [|[cf y] l IH]; intros e F R H; [exact H|]. rewrite all_eq in H.
  destruct (Forall_inv F) as [T Y]. cbn [fst snd] in T, Y.
  pose proof (step_ready e cf y R T Y) as R'. apply IH in H; [|exact (Forall_inv_tail F)|exact R'].
  exact (proj2 (step_inside w e cf y R T Y H)).
Qed.
Lemma sync_more w e s bs n : sync w e s bs n -> (16 + e_cnt e < length w)%nat -> bs <> [].
Proof.
  intros [_ _ _ B _] L E. subst bs. apply (f_equal (@length bool)) in E. rewrite skipn_length in E. cbn in E. lia.
Qed.

Lemma all_sync w : forall l e s bs n, Forall coded l -> ready e -> sync w e s bs n ->
  inside w (enc_all l e) -> (16 + e_cnt (enc_all l e) < length w)%nat ->
  exists s' bs' n', decode_all s bs n (map fst l) = Got (map snd l, s', bs', n') /\ sync w (enc_all l e) s' bs' n'.
Proof.
  induction l as [|[cf y] l IH]; intros e s bs n F R SY H L.
  - eexists _, _, _. split; [reflexivity|exact SY].
  - destruct (Forall_inv F) as [T Y]. cbn [fst snd] in T, Y. pose proof (Forall_inv_tail F) as F'.
    rewrite all_eq in *.
    pose proof (step_ready e cf y R T Y) as R'.
    pose proof (all_inside w l _ F' R' H) as H1.
    pose proof (step_cnt e (cf, y)). pose proof (all_cnt l (enc_step e (cf, y))).
    destruct (step_sync w e cf y s bs n R T Y SY H1 (sync_more w e s bs n SY ltac:(lia))) as (s1 & bs1 & n1 & D & SY1 & _).
    destruct (IH _ s1 bs1 n1 F' R' SY1 H L) as (s2 & bs2 & n2 & D2 & SY2).
    exists s2, bs2, n2. split; [|exact SY2]. cbn [map fst snd decode_all]. rewrite D. cbn [obind]. rewrite D2. reflexivity.
Qed.

(** ** The code word *)
Lemma ready0 : ready enc0.
Proof. split; [constructor; cbn; lia|unfold settled; cbn; lia]. Qed.

Lemma code_length e : length (code_word e) = (e_cnt e + 2)%nat.
Proof. unfold code_word. apply bits_of_length. Qed.

Lemma code_inside e rest : ready e -> inside (code_word e ++ rest) e.
Proof.
  intros [[A1 A2 A3 A4 A5 A6] [[S1 S2] S3]]. set (w := code_word e ++ rest).
  set (k := if e_lo e <? 16384 then 1 else 2).
  pose proof (Z.div_mod (e_base e) 16384 ltac:(lia)) as DM. rewrite A2 in DM.
  assert (K : k = 1 /\ e_lo e < 16384 \/ k = 2 /\ 16384 <= e_lo e).
  { unfold k. destruct (Z.ltb_spec (e_lo e) 16384); lia. }
  assert (P : pvn w (e_cnt e + 2) = e_base e / 16384 + k).
  { rewrite pvn_val by (unfold w; rewrite app_length, code_length; lia).
    unfold w. rewrite firstn_app, code_length, Nat.sub_diag, firstn_O, app_nil_r.
    rewrite firstn_all2 by (rewrite code_length; lia). unfold code_word. fold k.
    apply val_bits_of.
    assert (Q : 2 ^ Z.of_nat (16 + e_cnt e) = 16384 * 2 ^ Z.of_nat (e_cnt e + 2)).
    { replace (Z.of_nat (16 + e_cnt e)) with (14 + Z.of_nat (e_cnt e + 2)) by lia. rewrite Z.pow_add_r by lia. reflexivity. }
    assert (0 <= e_base e / 16384) by (apply Z.div_pos; lia). nia. }
  destruct (pvn_add w (e_cnt e + 2) 14) as (r & R & E). replace (14 + (e_cnt e + 2))%nat with (16 + e_cnt e)%nat in E by lia.
  change (2 ^ Z.of_nat 14) with 16384 in *. unfold inside. fold w. rewrite E, P. lia.
Qed.

Lemma first_sync w : (16 <= length w)%nat -> let '(s, r) := first_symbol w in sync w enc0 s r 16.
Proof.
  intros L. unfold first_symbol. rewrite (proj2 (Nat.leb_le _ _)) by exact L.
  rewrite take_bits_all by exact L. constructor; cbn [enc0 e_lo e_hi e_base e_cnt a_low a_high a_val]; try reflexivity.
  rewrite pvn_val by lia. change (16 + 0)%nat with 16%nat. lia.
Qed.

Lemma roundtrip l rest : Forall coded l -> (15 <= length rest)%nat ->
  exists s r s', first_symbol (encode l ++ rest) = (s, r) /\
    exists n, decode_all s r 16 (map fst l) = Got (map snd l, s', skipn (Z.to_nat n) (encode l ++ rest), n) /\
      n - 14 = Z.of_nat (length (encode l)).
Proof.
  intros F L. set (w := encode l ++ rest). set (e := enc_all l enc0).
  assert (LW : length w = (e_cnt e + 2 + length rest)%nat) by (unfold w, encode; rewrite app_length, code_length; reflexivity).
  pose proof (first_sync w ltac:(lia)) as FS. destruct (first_symbol w) as [s r].
  destruct (all_sync w l enc0 s r 16 F ready0 FS) as (s' & bs' & n' & D & SY).
  { apply code_inside. apply all_ready; [exact F|exact ready0]. }
  { fold e. lia. }
  exists s, r, s'. split; [reflexivity|]. exists n'. fold e in SY. destruct SY as [_ _ _ B N].
  split; [|rewrite N; unfold encode; rewrite code_length; fold e; lia].
  rewrite D. do 2 f_equal. rewrite B. do 2 f_equal. lia.
Qed.
