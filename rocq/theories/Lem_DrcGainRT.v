(** * Lem_DrcGainRT: a DRC gain payload is read as it was written *)
From Coq Require Import ZArith List Lia Bool ZifyBool.
From Verif Require Import Bits BitBuf Prog Wp BitWrite Asi Leaf Loud Config Loops DrcCfg DrcGain Lem_DrcUv Lem_DrcTime Lem_DrcGain Spec_Drc Spec_DrcGain.
Import ListNotations.
Open Scope Z_scope.

Lemma bit_run {B} (b : bool) (k : Z -> prog B) rest :
  runA (bind (rd 1) k) (b :: rest) = runA (k (if b then 1 else 0)) rest.
Proof.
  unfold rd. cbn [bind runA]. change ((1 <? 0) || (24 <? 1)) with false. cbn match.
  destruct (Z.ltb_spec (Z.of_nat (length (b :: rest))) 1) as [H|H]; [cbn [length] in H; lia|]. destruct b; reflexivity.
Qed.

(** ** First gain *)
Lemma initial_rt prof g rest A (f : Z -> prog A) : valid_first prof g ->
  runA (bind (initial_gain prof) f) (enc_first prof g ++ rest) = runA (f g) rest.
Proof.
  intros H. unfold initial_gain, enc_first.
  assert (P8 : 2 ^ 8 = 256) by reflexivity. assert (P10 : 2 ^ 10 = 1024) by reflexivity.
  destruct H as [(-> & H)|[(-> & H)|(-> & H)]]; cbn [Z.eqb Pos.eqb]; rewrite bind_assoc.
  - cbn [app]. rewrite bit_run, bind_assoc, (runA_rdb 8 8); [|reflexivity|lia|lia]. cbn [bind].
    destruct (Z.ltb_spec g 0); cbn [Z.eqb]; f_equal; f_equal; lia.
  - destruct (Z.eqb_spec g 0) as [->|]; cbn [app]; rewrite bit_run; cbn [Z.eqb]; [reflexivity|].
    rewrite bind_assoc, (runA_rdb 10 10); [|reflexivity|lia|lia]. cbn [bind]. f_equal. f_equal. lia.
  - destruct (Z.eqb_spec g 0) as [->|]; cbn [app]; rewrite bit_run; cbn [Z.eqb]; [reflexivity|].
    rewrite bind_assoc, (runA_rdb 8 8); [|reflexivity|lia|lia]. cbn [bind]. f_equal. f_equal. lia.
Qed.

(** ** Number of nodes *)
Lemma count_rt : forall k fuel i rest, (k < fuel)%nat ->
  runA (count_nodes fuel i) (repeat false k ++ true :: rest) = Done (i + Z.of_nat k + 1, rest).
Proof.
  induction k as [|k IH]; intros [|fuel] i rest H; try lia; cbn [count_nodes repeat app]; rewrite bit_run; cbn match; cbn [Z.eqb Pos.eqb].
  - cbn [runA]. f_equal. f_equal. lia.
  - rewrite IH by lia. f_equal. f_equal. lia.
Qed.

Lemma slopes_rt nd k rest : (k <= 31)%nat ->
  runA (decode_slopes nd) (repeat false k ++ true :: rest) = Done ((0, s_nd_n nd (Z.of_nat k + 1)), rest).
Proof.
  intros H. unfold decode_slopes, avail. cbn [bind runA]. rewrite runA_bind, Nat2Z.id, count_rt
    by (rewrite app_length, repeat_length; cbn [length]; lia).
  unfold NODE_MAX, LC_NODE_MAX. replace (128 <? 0 + Z.of_nat k + 1) with false by lia. replace (32 <? 0 + Z.of_nat k + 1) with false by lia. reflexivity.
Qed.

(** ** Gains *)
Definition gain_body (prof : Z) (node : nat) (nd : nodes) : prog (Z * nodes) :=
    r <- update_value false (gain_tbl prof) ;;
    match r with Er e => Ret (e, nd) | Ok d =>
    p <- aget (nd_g nd) (Z.of_nat node - 1) ;;
    nd <- put_g nd (Z.of_nat node) (p + d) ;;
    Ret (0, nd) end.

Lemma gains_loop prof : forall diffs k nd v pre rest, nodes_shape nd -> length pre = k -> (S k + length diffs <= 128)%nat ->
  firstn (S k) (nd_g nd) = pre ++ [v] -> Forall (known_diff prof) diffs ->
  exists nd', runA (forE (length diffs) (S k) (gain_body prof) nd) (flat_map (enc_diff prof) diffs ++ rest) = Done ((0, nd'), rest) /\
    nodes_shape nd' /\ nd_n nd' = nd_n nd /\ nd_t nd' = nd_t nd /\
    firstn (S k + length diffs) (nd_g nd') = pre ++ gains_from v diffs.
Proof.
  induction diffs as [|d diffs IH]; intros k nd v pre rest H L B E V.
  - cbn [length forE flat_map app runA gains_from]. exists nd. rewrite Nat.add_0_r. repeat split; auto; apply H.
  - cbn [length forE flat_map gains_from]. rewrite <- app_assoc.
    pose proof (Forall_inv V) as Vd. cbv beta in Vd. apply Forall_inv_tail in V. cbn [length] in B.
    assert (G : nth_error (nd_g nd) k = Some v).
    { assert (X : nth_error (firstn (S k) (nd_g nd)) k = Some v) by (rewrite E, nth_error_app2 by lia; rewrite L, Nat.sub_diag; reflexivity).
      rewrite <- X. symmetry. clear. generalize (nd_g nd). intros l. revert k. induction l as [|y l IHl]; intros [|k]; try reflexivity. cbn [nth_error]. rewrite <- (IHl k). reflexivity. }
    unfold gain_body at 1. rewrite bind_assoc, gain_value_rt by exact Vd. rewrite bind_assoc.
    replace (Z.of_nat (S k) - 1) with (Z.of_nat k) by lia. rewrite (aget_ok _ _ _ G). cbn [bind]. rewrite put_g_ok by (auto; lia). cbn [bind].
    change (0 =? 0) with true. cbn match.
    set (nd1 := s_nd_g nd (upd (nd_g nd) (S k) (v + d))).
    assert (LG : length (nd_g nd) = 128%nat) by apply H.
    destruct (IH (S k) nd1 (v + d) (pre ++ [v]) rest) as (nd' & X & S1 & S2 & S3 & S4); auto.
    + apply shape_ug; auto. lia.
    + rewrite app_length. cbn [length]. lia.
    + lia.
    + unfold nd1. cbn [s_nd_g nd_g]. rewrite upd_firstn_eq by lia. rewrite E. reflexivity.
    + exists nd'. split; [exact X|]. split; [exact S1|]. split; [exact S2|]. split; [exact S3|].
      replace (S k + S (length diffs))%nat with (S (S k) + length diffs)%nat by lia. rewrite S4. rewrite <- app_assoc. reflexivity.
Qed.

Lemma gains_rt prof nd v diffs rest : nodes_shape nd -> nd_n nd = 1 + Z.of_nat (length diffs) -> (length diffs <= 31)%nat ->
  valid_first prof v -> Forall (known_diff prof) diffs ->
  exists nd', runA (decode_gains prof nd) (enc_first prof v ++ flat_map (enc_diff prof) diffs ++ rest) = Done ((0, nd'), rest) /\
    nodes_shape nd' /\ nd_n nd' = nd_n nd /\ nd_t nd' = nd_t nd /\ firstn (S (length diffs)) (nd_g nd') = gains_from v diffs.
Proof.
  intros H N B Vf Vd. unfold decode_gains. rewrite initial_rt by exact Vf.
  change 0 with (Z.of_nat 0) at 1. rewrite put_g_ok by (auto; lia). cbn [bind].
  set (nd1 := s_nd_g nd (upd (nd_g nd) 0 v)). change (nd_n nd1) with (nd_n nd). replace (Z.to_nat (nd_n nd - 1)) with (length diffs) by lia.
  destruct (gains_loop prof diffs 0 nd1 v [] rest) as (nd' & X & S); auto; try lia.
  - apply shape_ug; auto. lia.
  - exists nd'. split; [exact X|]. exact S.
Qed.

(** ** Times *)
Lemma insert_after E l t : existsb (fun x => E <? x) l = true -> insert_end E (l ++ [t]) = insert_end E l ++ [t].
Proof.
  induction l as [|x l IH]; intros H; [discriminate|]. cbn [existsb] in H. cbn [app insert_end].
  destruct (Z.leb_spec x E); [|reflexivity]. replace (E <? x) with false in H by lia. cbn [orb] in H. rewrite IH by exact H. reflexivity.
Qed.
Lemma insert_none E l r : existsb (fun x => E <? x) l = false -> insert_end E (l ++ r) = l ++ insert_end E r.
Proof.
  induction l as [|x l IH]; intros H; [reflexivity|]. cbn [existsb] in H. apply orb_false_elim in H as [H1 H2]. cbn [app insert_end].
  replace (x <=? E) with true by lia. rewrite IH by exact H2. reflexivity.
Qed.

Lemma firstn_in_snoc {A} (l : list A) k v (pre : list A) : firstn k l = pre -> (k < length l)%nat -> firstn (S k) (upd l k v) = pre ++ [v].
Proof. intros <- H. apply upd_firstn_eq. exact H. Qed.

Section Times.
Variables (p : gpar) (nmax off : Z).
Hypothesis HT : table_for nmax (gp_tbl p).
Hypothesis HN : 7 <= nmax <= 256.
Hypothesis HM : 1 <= gp_tmin p.
Let E := gp_frame p + off.

Definition mid (nd : nodes) (pre : list Z) (resv : bool) : Prop :=
  nodes_shape nd /\ resv = existsb (fun x => E <? x) pre /\
  firstn (if resv then S (length pre) else length pre) (nd_t nd) = (if resv then insert_end E pre else pre).

Lemma insert_length e l : length (insert_end e l) = S (length l).
Proof. induction l as [|x l IH]; [reflexivity|]. cbn [insert_end]. destruct (x <=? e); cbn [length]; [rewrite IH|]; reflexivity. Qed.

Lemma closed_loop : forall steps pre toff resv nd rest, mid nd pre resv -> (resv = true -> E < toff) ->
  (length pre + length steps <= 31)%nat -> Forall (fun d => 1 <= d <= 2 * nmax) steps ->
  exists nd' toff' resv', runA (forE (length steps) (length pre) (time_end_body p off) (toff, resv, nd)) (flat_map (enc_time nmax) steps ++ rest)
      = Done ((0, (toff', resv', nd')), rest) /\
    mid nd' (pre ++ times_from (gp_tmin p) toff steps) resv' /\ nd_n nd' = nd_n nd /\ nd_g nd' = nd_g nd.
Proof.
  induction steps as [|d steps IH]; intros pre toff resv nd rest M R B V.
  - cbn [length forE flat_map times_from app runA]. rewrite app_nil_r. exists nd, toff, resv. auto.
  - pose proof (Forall_inv V) as Vd. cbv beta in Vd. apply Forall_inv_tail in V. cbn [length] in B.
    cbn [length forE flat_map times_from]. rewrite <- app_assoc. unfold time_end_body at 1. rewrite bind_assoc, time_value_rt by auto.
    destruct M as (H & MR & MF). assert (LT : length (nd_t nd) = 128%nat) by apply H.
    set (t := toff + d * gp_tmin p). assert (Ht : toff < t) by (unfold t; nia). fold E.
    assert (Fin : forall nd1, mid nd1 (pre ++ [t]) (existsb (fun x => E <? x) (pre ++ [t])) -> nd_n nd1 = nd_n nd -> nd_g nd1 = nd_g nd -> 
      exists nd' toff' resv', runA (forE (length steps) (S (length pre)) (time_end_body p off) (t, existsb (fun x => E <? x) (pre ++ [t]), nd1)) (flat_map (enc_time nmax) steps ++ rest)
      = Done ((0, (toff', resv', nd')), rest) /\
       mid nd' (pre ++ t :: times_from (gp_tmin p) t steps) resv' /\ nd_n nd' = nd_n nd /\ nd_g nd' = nd_g nd).
    { intros nd1 M1 N1 G1. destruct (IH (pre ++ [t]) t _ nd1 rest M1) as (nd' & toff' & resv' & X & Y1 & Y2 & Y3); auto.
      - rewrite existsb_app. cbn [existsb]. destruct (Z.ltb_spec E t); [auto|]. rewrite !orb_false_r. intros X. rewrite <- MR in X. specialize (R X). lia.
      - rewrite app_length. cbn [length]. lia.
      - exists nd', toff', resv'. rewrite app_length in X. cbn [length] in X. replace (length pre + 1)%nat with (S (length pre)) in X by lia.
        split; [exact X|]. rewrite <- app_assoc in Y1. cbn [app] in Y1. split; [exact Y1|]. split; congruence. }
    destruct (Z.leb_spec t E).
    + destruct resv; [specialize (R eq_refl); lia|]. rewrite bind_assoc, put_t_ok by (auto; lia). cbn [bind]. change (0 =? 0) with true. cbn match.
      assert (X : existsb (fun x => E <? x) (pre ++ [t]) = false).
      { rewrite existsb_app, <- MR. cbn [existsb orb]. destruct (Z.ltb_spec E t); [lia|reflexivity]. }
      specialize (Fin (s_nd_t nd (upd (nd_t nd) (length pre) t))). rewrite X in Fin. apply Fin; auto.
      split; [apply shape_ut; auto; lia|]. split; [auto|]. cbn match. cbn [s_nd_t nd_t]. rewrite app_length. cbn [length].
      replace (length pre + 1)%nat with (S (length pre)) by lia. apply firstn_in_snoc; [exact MF|lia].
    + rewrite bind_assoc. replace (Z.of_nat (length pre) + 1) with (Z.of_nat (S (length pre))) by lia.
      rewrite put_t_ok by (auto; lia). cbn [bind].
      assert (X : existsb (fun x => E <? x) (pre ++ [t]) = true) by (rewrite existsb_app; cbn [existsb]; destruct (Z.ltb_spec E t); [apply orb_true_r|lia]).
      set (nd1 := s_nd_t nd (upd (nd_t nd) (S (length pre)) t)).
      assert (H1 : nodes_shape nd1) by (apply shape_ut; auto; lia).
      destruct resv.
      * cbn [bind]. change (0 =? 0) with true. cbn match.
        specialize (Fin nd1). rewrite X in Fin. apply Fin; auto. split; [exact H1|]. split; [auto|]. cbn match.
        unfold nd1. cbn [s_nd_t nd_t]. rewrite insert_after by auto. rewrite app_length. cbn [length].
        replace (S (length pre + 1))%nat with (S (S (length pre))) by lia. apply firstn_in_snoc; [exact MF|lia].
      * rewrite bind_assoc, put_t_ok by (auto; lia). cbn [bind]. change (0 =? 0) with true. cbn match.
        set (nd2 := s_nd_t nd1 (upd (nd_t nd1) (length pre) E)).
        specialize (Fin nd2). rewrite X in Fin. apply Fin; auto. split; [apply shape_ut; auto; lia|]. split; [auto|]. cbn match.
        rewrite insert_none by auto. cbn [insert_end]. destruct (Z.leb_spec t E); [lia|].
        rewrite app_length. cbn [length].
        assert (N1 : nth_error (nd_t nd2) (S (length pre)) = Some t).
        { unfold nd2. rewrite nth_ut by (auto; lia). destruct (Nat.eqb_spec (S (length pre)) (length pre)); [lia|].
          unfold nd1. rewrite nth_ut by (auto; lia). rewrite Nat.eqb_refl. reflexivity. }
        replace (S (length pre + 1)) with (S (S (length pre))) by lia. rewrite (nth_firstn_snoc _ _ _ N1).
        unfold nd2. cbn [s_nd_t nd_t]. rewrite upd_firstn_eq by (rewrite (proj2 H1); lia).
        unfold nd1. cbn [s_nd_t nd_t]. rewrite upd_firstn_le by lia. rewrite MF, <- app_assoc. reflexivity.
Qed.

Lemma open_loop : forall steps pre toff nd rest, nodes_shape nd -> firstn (length pre) (nd_t nd) = pre ->
  (length pre + length steps <= 32)%nat -> Forall (fun d => 1 <= d <= 2 * nmax) steps ->
  Forall (fun t => t < 2 * FRAME_MAX - gp_frame p) (times_from (gp_tmin p) toff steps) ->
  exists nd' toff', runA (forE (length steps) (length pre) (time_open_body p) (toff, nd)) (flat_map (enc_time nmax) steps ++ rest)
      = Done ((0, (toff', nd')), rest) /\ nodes_shape nd' /\ nd_n nd' = nd_n nd /\ nd_g nd' = nd_g nd /\
    firstn (length pre + length steps) (nd_t nd') = pre ++ times_from (gp_tmin p) toff steps.
Proof.
  induction steps as [|d steps IH]; intros pre toff nd rest H F B V T.
  - cbn [length forE flat_map times_from app runA]. rewrite app_nil_r, Nat.add_0_r. exists nd, toff. split; [reflexivity|]. auto.
  - pose proof (Forall_inv V) as Vd. cbv beta in Vd. apply Forall_inv_tail in V. cbn [length times_from] in B, T.
    pose proof (Forall_inv T) as Td. apply Forall_inv_tail in T. cbv beta in Td.
    cbn [length forE flat_map times_from]. rewrite <- app_assoc. unfold time_open_body at 1. rewrite bind_assoc, time_value_rt by auto.
    assert (LT : length (nd_t nd) = 128%nat) by apply H.
    set (t := toff + d * gp_tmin p) in *. destruct (Z.leb_spec (2 * FRAME_MAX - gp_frame p) t); [lia|].
    rewrite bind_assoc, put_t_ok by (auto; lia). cbn [bind]. change (0 =? 0) with true. cbn match.
    destruct (IH (pre ++ [t]) t (s_nd_t nd (upd (nd_t nd) (length pre) t)) rest) as (nd' & toff' & X & S1 & S2 & S3 & S4); auto.
    + apply shape_ut; auto. lia.
    + cbn [s_nd_t nd_t]. rewrite app_length. cbn [length]. replace (length pre + 1)%nat with (S (length pre)) by lia. apply firstn_in_snoc; [exact F|lia].
    + rewrite app_length. cbn [length]. lia.
    + exists nd', toff'. rewrite app_length in X, S4. cbn [length] in X, S4. replace (length pre + 1)%nat with (S (length pre)) in X by lia.
      split; [exact X|]. split; [exact S1|]. split; [exact S2|]. split; [exact S3|].
      replace (length pre + S (length steps))%nat with (length pre + 1 + length steps)%nat by lia. rewrite S4, <- app_assoc. reflexivity.
Qed.

Lemma times_len tm : forall steps t, length (times_from tm t steps) = length steps.
Proof. induction steps as [|d r IH]; intros t; [reflexivity|]. cbn [times_from length]. rewrite IH. reflexivity. Qed.

Lemma times_rt full fe steps nd n rest : nodes_shape nd -> nd_n nd = Z.of_nat n -> (1 <= n <= 32)%nat ->
  (full <> 0 -> fe = true) -> length steps = (if fe then n - 1 else n)%nat -> Forall (fun d => 1 <= d <= 2 * nmax) steps ->
  (fe = false -> Forall (fun t => t < 2 * FRAME_MAX - gp_frame p) (times_from (gp_tmin p) off steps)) ->
  exists nd', runA (decode_times p full off nd) ((if full =? 0 then [fe] else []) ++ flat_map (enc_time nmax) steps ++ rest) = Done ((0, nd'), rest) /\
    nodes_shape nd' /\ nd_n nd' = nd_n nd /\ nd_g nd' = nd_g nd /\
    firstn n (nd_t nd') = (if fe then insert_end E (times_from (gp_tmin p) off steps) else times_from (gp_tmin p) off steps).
Proof.
  intros H N B FU L V T. unfold decode_times.
  assert (W : forall A (f : Z -> prog A) r, runA (bind (if full =? 0 then rd 1 else Ret 1) f) ((if full =? 0 then [fe] else []) ++ r) = runA (f (if fe then 1 else 0)) r).
  { intros A f r. destruct (Z.eqb_spec full 0); [apply bit_run|]. rewrite FU by assumption. reflexivity. }
  rewrite W. clear W FU. destruct fe; cbn [Z.eqb Pos.eqb].
  - replace (Z.to_nat (nd_n nd - 1)) with (length steps) by lia.
    destruct (closed_loop steps [] off false nd rest) as (nd' & toff' & resv' & X & (S1 & S2 & S3) & S4 & S5); auto.
    + split; [exact H|]. split; reflexivity.
    + discriminate.
    + cbn [length]. lia.
    + cbn [length] in X. rewrite runA_bind, X. change (negb (0 =? 0)) with false. cbn match. cbn [app] in S2, S3. rewrite times_len in S3.
      destruct resv'.
      * exists nd'. split; [reflexivity|]. split; [exact S1|]. split; [exact S4|]. split; [exact S5|].
        replace n with (S (length steps)) by lia. exact S3.
      * fold E. replace (nd_n nd' - 1) with (Z.of_nat (n - 1)) by lia. rewrite put_t_ok by (auto; lia). cbn [bind].
        eexists. split; [reflexivity|]. split; [apply shape_ut; auto; lia|]. split; [exact S4|]. split; [exact S5|].
        cbn [s_nd_t nd_t]. replace n with (S (n - 1)) at 1 by lia. rewrite upd_firstn_eq by (rewrite (proj2 S1); lia).
        replace (n - 1)%nat with (length steps) by lia. rewrite S3. rewrite <- (app_nil_r (times_from _ _ _)) at 2.
        rewrite insert_none by auto. reflexivity.
  - replace (Z.to_nat (nd_n nd)) with (length steps) by lia.
    destruct (open_loop steps [] off nd rest) as (nd' & toff' & X & S1 & S2 & S3 & S4); auto.
    + cbn [length]. lia.
    + cbn [length] in X. rewrite runA_bind, X. exists nd'. split; [reflexivity|]. split; [exact S1|]. split; [exact S2|]. split; [exact S3|].
      cbn [length plus app] in S4. rewrite <- L. exact S4.
Qed.
End Times.

(** ** Bands *)
Section Bands.
Variables (p : gpar) (nmax : Z).
Hypothesis HT : table_for nmax (gp_tbl p).
Hypothesis HN : 7 <= nmax <= 256.
Hypothesis HM : 1 <= gp_tmin p.
Hypothesis HF : gp_frame p = 1024.

Definition raw_holds (nd : nodes) (ts gs : list Z) : Prop :=
  nodes_shape nd /\ nd_n nd = Z.of_nat (length ts) /\ length gs = length ts /\ (length ts <= 32)%nat /\
  firstn (length ts) (nd_t nd) = ts /\ firstn (length gs) (nd_g nd) = gs.

Lemma gains_len : forall diffs v, length (gains_from v diffs) = S (length diffs).
Proof. induction diffs as [|d r IH]; intros v; [reflexivity|]. cbn [gains_from length]. f_equal. rewrite <- (IH (v + d)). destruct r; reflexivity. Qed.

Lemma nodes_rt g m nd rest : nodes_shape nd -> valid_band 1024 (gp_tmin p) nmax g m ->
  exists nd', runA (read_nodes p g nd) (enc_band nmax g m ++ rest) = Done ((0, nd'), rest) /\
    raw_holds nd' (raw_times 1024 (gp_tmin p) g m) (meant_gains m).
Proof.
  intros H V. unfold read_nodes. cbv zeta. change (time_offset p g) with (origin (gp_tmin p) g). set (off := origin (gp_tmin p) g).
  unfold avail. cbn [bind runA]. 
  destruct m as [v|fe steps v diffs]; cbn [enc_band app].
  - replace (Z.of_nat (length (false :: enc_first (gs_prof g) v ++ rest)) <? 1) with false by (cbn [length]; lia).
    rewrite bind_assoc, bit_run. cbn [bind]. change (negb (0 =? 0)) with false. cbn match. change (0 =? 0) with true. cbn match.
    rewrite initial_rt by exact V. change 0 with (Z.of_nat 0) at 1. rewrite put_g_ok by (auto; lia). cbn [bind].
    set (nd1 := s_nd_g nd _). assert (H1 : nodes_shape nd1) by (apply shape_ug; auto; lia).
    change 0 with (Z.of_nat 0) at 1. rewrite put_t_ok by (auto; lia). cbn [bind runA]. eexists. split; [reflexivity|].
    cbn [raw_times meant_gains length]. rewrite HF.
    split; [apply shape_n, shape_ut; auto; lia|]. split; [reflexivity|]. split; [reflexivity|]. split; [cbn; lia|].
    split; cbn [s_nd_n s_nd_t nd_t nd_g]; [apply (upd_firstn_eq _ 0); rewrite (proj2 H1); lia|].
    unfold nd1. cbn [s_nd_g nd_g]. apply (upd_firstn_eq _ 0). rewrite (proj1 H). lia.
  - destruct V as (V1 & V2 & V3 & V4 & V5 & V6 & V7).
    match goal with |- context [Z.of_nat (length ?l) <? 1] => replace (Z.of_nat (length l) <? 1) with false by (cbn [length]; lia) end.
    rewrite bind_assoc, bit_run. cbn [bind]. change (negb (0 =? 0)) with false. cbn match. change (1 =? 0) with false. cbn match.
    rewrite <- !app_assoc. cbn [app]. rewrite runA_bind, slopes_rt by exact V1. change (negb (0 =? 0)) with false. cbn match.
    set (nd1 := s_nd_n nd _). assert (H1 : nodes_shape nd1) by (apply shape_n, H).
    destruct (times_rt p nmax off HT HN HM (gs_full g) fe steps nd1 (S (length diffs))
      (enc_first (gs_prof g) v ++ flat_map (enc_diff (gs_prof g)) diffs ++ rest)) as (nd2 & X & S1 & S2 & S3 & S4); auto.
    + unfold nd1. cbn [s_nd_n nd_n]. lia.
    + lia.
    + destruct fe; lia.
    + intros ->. rewrite HF. unfold FRAME_MAX. eapply Forall_impl; [|exact V7]. cbv beta. intros; lia.
    + rewrite <- !app_assoc, runA_bind, X. change (negb (0 =? 0)) with false. cbn match.
      destruct (gains_rt (gs_prof g) nd2 v diffs rest) as (nd3 & Y & R1 & R2 & R3 & R4); auto.
      { rewrite S2. unfold nd1. cbn [s_nd_n nd_n]. lia. }
      exists nd3. split; [exact Y|].
      assert (LR : length (raw_times 1024 (gp_tmin p) g (Many fe steps v diffs)) = S (length diffs)).
      { cbn [raw_times]. destruct fe; [rewrite insert_length|]; rewrite times_len; lia. }
      unfold raw_holds. rewrite LR. cbn [meant_gains]. rewrite gains_len. split; [exact R1|]. split; [|split; [reflexivity|split; [lia|split; [|exact R4]]]].
      * rewrite R2, S2. unfold nd1. cbn [s_nd_n nd_n]. lia.
      * rewrite R3, S4, HF. reflexivity.
Qed.

Lemma raw_below g m t : valid_band 1024 (gp_tmin p) nmax g m -> gp_tmin p <= 512 -> In t (raw_times 1024 (gp_tmin p) g m) -> t < 3 * 1024.
Proof.
  intros V M.
  assert (O : origin (gp_tmin p) g < 0).
  { unfold origin. destruct (gs_align g =? 0); [lia|]. assert (A := Z.mul_div_le (gp_tmin p - 1) 2 ltac:(lia)).
    remember ((gp_tmin p - 1) / 2) as q. lia. }
  destruct m as [v|fe steps v diffs]; cbn [raw_times].
  - intros [<-|[]]. lia.
  - destruct V as (_ & _ & _ & _ & _ & _ & V). rewrite Forall_forall in V.
    destruct fe; intros Ht; [|specialize (V t Ht); cbv beta in V; lia].
    assert (I : forall l, In t (insert_end (1024 + origin (gp_tmin p) g) l) -> t = 1024 + origin (gp_tmin p) g \/ In t l).
    { induction l as [|x l IH]; cbn [insert_end]; [intros [<-|[]]; auto|]. destruct (x <=? _); cbn [In]; intros [<-|X]; auto. destruct (IH X); auto. }
    destruct (I _ Ht) as [->|X]; [lia|]. specialize (V t X). exact V.
Qed.

Lemma holds_of nd ts gs nd' : raw_holds nd ts gs -> nodes_shape nd' -> nd_n nd' = nd_n nd -> nd_g nd' = nd_g nd ->
  firstn (length ts) (nd_t nd') = arrange 1024 ts -> holds nd' (arrange 1024 ts) gs.
Proof.
  intros (H & N & L & B & T & G) H' N' G' A.
  assert (LA : length (arrange 1024 ts) = length ts) by (unfold arrange; rewrite app_length, map_length; apply filter_split).
  unfold holds. rewrite LA, N', G'. auto.
Qed.

Lemma band_rt g m k l rest : gp_tmin p <= 512 -> length l = 4%nat -> Forall nodes_shape l -> (k < 4)%nat -> valid_band 1024 (gp_tmin p) nmax g m ->
  exists nd', runA (band_nodes_body p g k l) (enc_band nmax g m ++ rest) = Done ((0, upd l k nd'), rest) /\ nodes_shape nd' /\
    holds nd' (meant_times 1024 (gp_tmin p) g m) (meant_gains m).
Proof.
  intros M L S Hk V. unfold band_nodes_body.
  destruct (nth_error l k) as [nd|] eqn:En; [|apply nth_error_None in En; lia]. rewrite (aget_ok _ _ _ En). cbn [bind].
  assert (H : nodes_shape nd) by (rewrite Forall_forall in S; apply S; eapply nth_error_In; eauto).
  destruct (nodes_rt g m nd rest H V) as (nd1 & X & R). rewrite runA_bind, X.
  rewrite aset_ok by lia. cbn [bind]. change (negb (0 =? 0)) with false. cbn match. rewrite HF.
  destruct (R) as (H1 & N1 & L1 & B1 & T1 & G1).
  destruct (reservoir_eq 1024 nd1 (length (raw_times 1024 (gp_tmin p) g m)) H1 N1 ltac:(lia)) as (e & nd2 & -> & S1 & S2 & S3 & S4).
  rewrite T1 in S4. destruct S4 as [(-> & _ & S4)|(_ & S4)].
  - cbn [bind]. rewrite aset_ok by (rewrite upd_length; lia). cbn [bind runA]. exists nd2. split.
    + f_equal. f_equal. f_equal. unfold upd.
      rewrite firstn_app, firstn_firstn, Nat.min_id, firstn_length. replace (k - Nat.min k (length l))%nat with 0%nat by lia. cbn [firstn]. rewrite app_nil_r. f_equal. f_equal.
      rewrite skipn_app, firstn_length. rewrite skipn_all2 by (rewrite firstn_length; lia). replace (Datatypes.S k - Nat.min k (length l))%nat with 1%nat by lia. reflexivity.
    + split; [exact S1|]. unfold meant_times. eapply holds_of; eauto.
  - apply existsb_exists in S4 as (t & Ht & O). apply filter_In in Ht as (Ht & _). apply raw_below in Ht; [|exact V|exact M].
    unfold over, FRAME_MAX in O. lia.
Qed.

Lemma bands_rt g : gp_tmin p <= 512 -> forall ms k l rest, length l = 4%nat -> Forall nodes_shape l -> (k + length ms <= 4)%nat -> Forall (valid_band 1024 (gp_tmin p) nmax g) ms ->
  exists l', runA (forE (length ms) k (band_nodes_body p g) l) (flat_map (enc_band nmax g) ms ++ rest) = Done ((0, l'), rest) /\
    length l' = 4%nat /\ Forall nodes_shape l' /\ (forall i, (i < k)%nat -> nth_error l' i = nth_error l i) /\
    forall b m, nth_error ms b = Some m -> exists nd, nth_error l' (k + b) = Some nd /\ holds nd (meant_times 1024 (gp_tmin p) g m) (meant_gains m).
Proof.
  intros M. induction ms as [|m ms IH]; intros k l rest L S B V.
  - exists l. split; [reflexivity|]. split; [exact L|]. split; [exact S|]. split; [auto|]. intros [|b] m E; discriminate.
  - pose proof (Forall_inv V) as Vm. apply Forall_inv_tail in V. cbn [length] in B.
    cbn [length forE flat_map]. rewrite <- app_assoc.
    destruct (band_rt g m k l (flat_map (enc_band nmax g) ms ++ rest) M L S ltac:(lia) Vm) as (nd & X & H & HH).
    rewrite runA_bind, X. change (0 =? 0) with true. cbn match.
    destruct (IH (Datatypes.S k) (upd l k nd) rest) as (l' & Y & L' & S' & K & R); auto.
    + rewrite upd_length; lia.
    + apply Forall_forall. intros x Hx. apply In_nth_error in Hx as (i & Hi). rewrite upd_nth in Hi by lia. destruct (Nat.eqb i k); [congruence|].
      rewrite Forall_forall in S. apply S. eapply nth_error_In; eauto.
    + lia.
    + exists l'. split; [exact Y|]. split; [exact L'|]. split; [exact S'|]. split.
      * intros i Hi. rewrite K by lia. rewrite upd_nth by lia. destruct (Nat.eqb_spec i k); [lia|reflexivity].
      * intros [|b] m' E.
        -- injection E as <-. exists nd. split; [|exact HH]. rewrite Nat.add_0_r, K by lia. rewrite upd_nth by lia. rewrite Nat.eqb_refl. reflexivity.
        -- destruct (R b m' E) as (nd' & N' & H'). exists nd'. split; [|exact H']. rewrite <- N'. f_equal. lia.
Qed.

Lemma set_rt sets k g ms st rest : gp_tmin p <= 512 -> gain_shape st -> (k < 24)%nat -> nth_error sets k = Some g -> 0 <= gs_count g <= 4 ->
  (gp_low p = true -> gs_full g <> 0) -> valid_gset 1024 (gp_tmin p) nmax g ms ->
  exists sq, runA (gain_set_body p sets k st) (enc_set nmax g ms ++ rest) = Done ((0, upd st k sq), rest) /\ seq_shape sq /\
    set_holds 1024 (gp_tmin p) g ms sq.
Proof.
  intros M (L & S) Hk Eg HC LO V. unfold gain_set_body. rewrite (aget_ok _ _ _ Eg). cbn [bind].
  destruct (nth_error st k) as [sq|] eqn:Es; [|apply nth_error_None in Es; lia]. rewrite (aget_ok _ _ _ Es). cbn [bind].
  assert (Hsq : seq_shape sq) by (rewrite Forall_forall in S; apply S; eapply nth_error_In; eauto). destruct Hsq as (L0 & S0).
  unfold enc_set, set_holds. destruct (Z.eqb_spec (gs_prof g) 3) as [E3|E3]; cbn [negb].
  - destruct (sq_nodes sq) as [|nd r] eqn:En; [discriminate|]. change 0 with (Z.of_nat 0) at 1. rewrite (aget_ok (nd :: r) 0 nd) by reflexivity. cbn [bind].
    assert (H : nodes_shape nd) by (apply Forall_inv in S0; exact S0).
    change 0 with (Z.of_nat 0) at 1. rewrite put_g_ok by (auto; lia). cbn [bind]. set (nd1 := s_nd_g nd _).
    assert (H1 : nodes_shape nd1) by (apply shape_ug; auto; lia).
    change 0 with (Z.of_nat 0) at 1. rewrite put_t_ok by (auto; lia). cbn [bind]. rewrite HF. set (nd2 := s_nd_n _ 1).
    change 0 with (Z.of_nat 0) at 1. rewrite (aset_ok (nd :: r) 0) by (cbn [length]; lia). cbn [bind]. rewrite aset_ok by lia. cbn [bind runA app].
    exists (mkSq 1 (nd2 :: r)). split; [reflexivity|].
    assert (H2 : nodes_shape nd2) by (apply shape_n, shape_ut; auto; lia).
    split; [split; [exact L0|constructor; [exact H2|apply Forall_inv_tail in S0; exact S0]]|].
    split; [reflexivity|]. exists nd2, r. split; [reflexivity|]. split; [reflexivity|]. split; [reflexivity|]. split.
    + apply (upd_firstn_eq (nd_t nd1) 0). rewrite (proj2 H1). lia.
    + apply (upd_firstn_eq (nd_g nd) 0). rewrite (proj1 H). lia.
  - destruct V as [V|(V1 & V2 & V3)]; [contradiction|]. unfold read_sequence.
    replace (gp_low p && (gs_full g =? 0)) with false by (destruct (gp_low p); [specialize (LO eq_refl); lia|reflexivity]).
    replace (Z.to_nat (gs_count g)) with (length ms) by lia.
    destruct (bands_rt g M ms 0 (sq_nodes sq) rest L0 S0 ltac:(lia) V3) as (l' & X & L' & S' & _ & R).
    rewrite runA_bind, X. rewrite aset_ok by lia. cbn [bind runA]. exists (mkSq (gs_count g) l'). split; [reflexivity|].
    split; [split; [exact L'|exact S']|]. split; [reflexivity|]. intros b m E. exact (R b m E).
Qed.

Lemma sets_rt (sets : list gset) : gp_tmin p <= 512 -> (length sets <= 24)%nat -> forall suf mss pre st rest, sets = pre ++ suf -> gain_shape st ->
  Forall (fun g => 0 <= gs_count g <= 4 /\ (gp_low p = true -> gs_full g <> 0)) suf ->
  Forall2 (valid_gset 1024 (gp_tmin p) nmax) suf mss ->
  exists st', runA (forE (length suf) (length pre) (gain_set_body p sets) st) (enc_sets nmax suf mss ++ rest) = Done ((0, st'), rest) /\
    gain_shape st' /\ (forall i, ~ (length pre <= i < length sets)%nat -> nth_error st' i = nth_error st i) /\
    forall i g ms, nth_error suf i = Some g -> nth_error mss i = Some ms ->
      exists sq, nth_error st' (length pre + i) = Some sq /\ set_holds 1024 (gp_tmin p) g ms sq.
Proof.
  intros M LS. induction suf as [|g suf IH]; intros mss pre st rest E S C V.
  - inversion V; subst mss. exists st. split; [reflexivity|]. split; [exact S|]. split; [auto|]. intros [|i] g ms X; discriminate.
  - destruct mss as [|ms mss]; [inversion V|]. assert (V1 : valid_gset 1024 (gp_tmin p) nmax g ms) by (inversion V; auto).
    assert (V2 : Forall2 (valid_gset 1024 (gp_tmin p) nmax) suf mss) by (inversion V; auto). clear V.
    destruct (Forall_inv C) as (C1 & C2). apply Forall_inv_tail in C.
    assert (LE : length sets = (length pre + Datatypes.S (length suf))%nat) by (rewrite E, app_length; reflexivity).
    cbn [length forE enc_sets]. rewrite <- app_assoc.
    destruct (set_rt sets (length pre) g ms st (enc_sets nmax suf mss ++ rest)) as (sq & X & Q & HH); auto.
    { lia. } { rewrite E, nth_error_app2, Nat.sub_diag by lia. reflexivity. }
    rewrite runA_bind, X. change (0 =? 0) with true. cbn match. destruct (S) as (L & SS).
    destruct (IH mss (pre ++ [g]) (upd st (length pre) sq) rest) as (st' & Y & S' & K & R); auto.
    + rewrite E, <- app_assoc. reflexivity.
    + split; [rewrite upd_length; lia|]. apply Forall_forall. intros x Hx. apply In_nth_error in Hx as (i & Hi). rewrite upd_nth in Hi by lia.
      destruct (Nat.eqb i (length pre)); [congruence|]. rewrite Forall_forall in SS. apply SS. eapply nth_error_In; eauto.
    + rewrite app_length in Y, K, R. cbn [length] in Y, K, R. replace (length pre + 1)%nat with (Datatypes.S (length pre)) in Y by lia.
      exists st'. split; [exact Y|]. split; [exact S'|]. split.
      * intros i Hi. rewrite K by lia. rewrite upd_nth by lia. destruct (Nat.eqb_spec i (length pre)); [lia|reflexivity].
      * intros [|i] g' ms' G1 G2.
        -- injection G1 as <-. injection G2 as <-. exists sq. split; [|exact HH]. rewrite Nat.add_0_r, K by lia. rewrite upd_nth by lia. rewrite Nat.eqb_refl. reflexivity.
        -- destruct (R i g' ms' G1 G2) as (s' & N' & H'). exists s'. split; [|exact H']. rewrite <- N'. f_equal. lia.
Qed.

Lemma ext_rt x rest A (f : Z -> prog A) : valid_gain_ext x ->
  runA (bind (rd 1) (fun b => if b =? 1 then e <- read_gain_ext ;; f e else f 0)) (enc_gain_ext x ++ rest) = runA (f 0) rest.
Proof.
  destruct x as [[[ty w] c]|]; cbn [enc_gain_ext app]; intros V; rewrite bit_run; [|reflexivity].
  destruct V as (V1 & V2 & V3). change (1 =? 1) with true. cbn match. unfold read_gain_ext. rewrite bind_assoc, <- !app_assoc.
  rewrite (runA_rdb 4 4); [|reflexivity|lia|change (2 ^ 4) with 16; lia]. replace (ty =? 0) with false by lia. rewrite bind_assoc.
  rewrite (runA_rdb 3 3); [|reflexivity|lia|change (2 ^ 3) with 8; lia]. rewrite bind_assoc.
  rewrite (runA_rdb (w + 4) (Z.to_nat (w + 4))); [|lia|lia|lia]. rewrite bind_assoc. unfold skip. cbn [bind runA].
  replace (Z.of_nat (length c) - 1 + 1) with (Z.of_nat (length c)) by lia.
  replace (Z.of_nat (length c) <? 0) with false by lia.
  replace (Z.of_nat (length (c ++ bits_of 4 0 ++ rest)) <? Z.of_nat (length c)) with false by (rewrite app_length; lia).
  rewrite Nat2Z.id, skipn_app, skipn_all, Nat.sub_diag. cbn [app skipn].
  rewrite bind_assoc, (runA_rdb 4 4); [|reflexivity|lia|change (2 ^ 4) with 16; lia]. reflexivity.
Qed.

Lemma gain_rt sets mss x st rest : gp_tmin p <= 512 -> (length sets <= 24)%nat -> gain_shape st ->
  Forall (fun g => 0 <= gs_count g <= 4 /\ (gp_low p = true -> gs_full g <> 0)) sets ->
  Forall2 (valid_gset 1024 (gp_tmin p) nmax) sets mss -> valid_gain_ext x ->
  exists st', runA (read_gain p sets st) (enc_sets nmax sets mss ++ enc_gain_ext x ++ rest) = Done ((0, st'), rest) /\
    gain_shape st' /\ (forall i, (length sets <= i)%nat -> nth_error st' i = nth_error st i) /\
    forall i g ms, nth_error sets i = Some g -> nth_error mss i = Some ms ->
      exists sq, nth_error st' i = Some sq /\ set_holds 1024 (gp_tmin p) g ms sq.
Proof.
  intros M LS S C V VX. unfold read_gain.
  destruct (sets_rt sets M LS sets mss [] st (enc_gain_ext x ++ rest) eq_refl S C V) as (st' & X & S' & K & R).
  cbn [length] in X, K, R. rewrite runA_bind, X. change (negb (0 =? 0)) with false. cbn match.
  exists st'. split; [|split; [exact S'|split; [|exact R]]].
  - rewrite (ext_rt x rest _ (fun e => Ret (e, st')) VX). reflexivity.
  - intros i Hi. apply K. lia.
Qed.
End Bands.

(** ** On the bit buffer *)
From Verif Require Import Lem_DrcGainSafe.

Lemma coef_counts c : coef_within c -> (length (co_sets c) <= 24)%nat /\ Forall (fun g => 0 <= gs_count g <= 4) (co_sets c).
Proof. intros (L & W). split; [lia|]. apply Forall_forall. intros g Hg. apply (W g Hg). Qed.

Lemma gain_safe tb tm low c st s : table_of tb tm -> coef_within c -> gain_shape st -> wf s ->
  match exec (read_gain (mkGP tm tb 1024 low) (co_sets c) st) s with
  | UB _ => False
  | Jmp _ => True
  | Done ((e, st'), s') => wf s' /\ gain_shape st' /\
      (e = 0 -> forall i g sq, nth_error (co_sets c) i = Some g -> nth_error st' i = Some sq -> set_usable 1024 g sq)
  end.
Proof.
  intros T C S W. destruct (coef_counts c C) as (C1 & C2).
  assert (X := wp_exec _ (fun r => gain_shape (snd r) /\ (fst r = 0 -> ginv (co_sets c) (length (co_sets c)) (snd r))) s
    (gain_wp (mkGP tm tb 1024 low) (co_sets c) st _ (table_par tb tm low T) C1 C2 S (fun _ _ A B => conj A B)) W).
  destruct (exec _ s) as [[[e st'] s']|j|r]; [|exact I|exact X].
  destruct X as (X & W' & _). cbn [fst snd] in X. destruct X as (X1 & X2). split; [exact W'|]. split; [exact X1|].
  intros E i g sq Hg Hs. destruct (X2 E) as (_ & Y). apply (Y i g sq); auto. apply nth_error_Some. congruence.
Qed.

Lemma time_table_overrun rate old : 1000 <= rate < 3000 -> zlen old = 526 -> init_dec old rate = UB UOob.
Proof.
  intros H L. unfold init_dec. replace (rate <? 1000) with false by lia. cbv zeta.
  destruct (delta_tmin_cases rate ltac:(lia)) as [(_ & ->)|X]; [|lia].
  rewrite create_out; [reflexivity|exact L|]. vm_compute; discriminate.
Qed.

Lemma time_table_made rate old : 3000 <= rate <= 48000 -> zlen old = 526 ->
  exists tm tb, init_dec old rate = Done (Ok (tm, tb)) /\ zlen tb = 526 /\
    (tm = 4 \/ tm = 8 \/ tm = 16 \/ tm = 32) /\ tm * 750 <= rate < 2000 * tm.
Proof.
  intros H L. unfold init_dec. replace (rate <? 1000) with false by lia. cbv zeta.
  assert (C := delta_tmin_cases rate ltac:(lia)). set (d := delta_tmin rate) in *.
  assert (T : d = 4 \/ d = 8 \/ d = 16 \/ d = 32) by lia.
  assert (N : 7 <= FRAME_MAX / d <= 262) by (destruct T as [-> | [-> | [-> | ->]]]; vm_compute; split; discriminate).
  destruct (create_in old (FRAME_MAX / d) L N) as (t & E & L' & _). rewrite E. exists d, t. split; [reflexivity|]. split; [exact L'|]. split; [exact T|]. lia.
Qed.

Lemma table_nmax tb tm : table_of tb tm -> table_for (1024 / tm) tb /\ 7 <= 1024 / tm <= 256 /\ 1 <= tm <= 512.
Proof.
  intros H. apply table_of_inv in H as (T & F & _). split; [exact F|].
  destruct T as [-> | [-> | [-> | ->]]]; vm_compute; intuition discriminate.
Qed.

Lemma gain_payload tb tm low c mss x st s rest : table_of tb tm -> coef_within c -> gain_shape st -> wf s ->
  (low = true -> forall g, In g (co_sets c) -> gs_full g <> 0) ->
  Forall2 (valid_gset 1024 tm (1024 / tm)) (co_sets c) mss -> valid_gain_ext x ->
  rest_bits s = enc_sets (1024 / tm) (co_sets c) mss ++ enc_gain_ext x ++ rest ->
  exists st' s', exec (read_gain (mkGP tm tb 1024 low) (co_sets c) st) s = Done ((0, st'), s') /\ rest_bits s' = rest /\
    (forall i g ms, nth_error (co_sets c) i = Some g -> nth_error mss i = Some ms ->
      exists sq, nth_error st' i = Some sq /\ set_holds 1024 tm g ms sq) /\
    (forall i, (length (co_sets c) <= i)%nat -> nth_error st' i = nth_error st i).
Proof.
  intros T C S W LO V VX R. destruct (coef_counts c C) as (C1 & C2). destruct (table_nmax tb tm T) as (TF & N & M).
  destruct (gain_rt (mkGP tm tb 1024 low) (1024 / tm) TF N (proj1 M) eq_refl (co_sets c) mss x st rest) as (st' & X & _ & K & HH); auto.
  - apply M.
  - apply Forall_forall. intros g Hg. rewrite Forall_forall in C2. split; [apply C2, Hg|]. cbn [gp_low]. intros E. apply LO; auto.
  - pose proof (exec_refines (read_gain (mkGP tm tb 1024 low) (co_sets c) st) s W) as E. rewrite R, X in E.
    destruct E as (s' & E & _ & R'). exists st', s'. split; [exact E|]. split; [exact R'|]. split; [exact HH|exact K].
Qed.

Lemma band_unambiguous tm g m1 m2 r1 r2 tb : table_of tb tm ->
  valid_band 1024 tm (1024 / tm) g m1 -> valid_band 1024 tm (1024 / tm) g m2 ->
  enc_band (1024 / tm) g m1 ++ r1 = enc_band (1024 / tm) g m2 ++ r2 ->
  r1 = r2 /\ meant_times 1024 tm g m1 = meant_times 1024 tm g m2 /\ meant_gains m1 = meant_gains m2.
Proof.
  intros T V1 V2 E. destruct (table_nmax tb tm T) as (TF & N & M).
  set (p := mkGP tm tb 1024 false). set (nd := mkNd 0 (repeat 0 128) (repeat 0 128)).
  assert (H : nodes_shape nd) by (split; reflexivity).
  destruct (nodes_rt p (1024 / tm) TF N (proj1 M) eq_refl g m1 nd r1 H V1) as (n1 & X1 & (_ & A1 & B1 & _ & C1 & D1)).
  destruct (nodes_rt p (1024 / tm) TF N (proj1 M) eq_refl g m2 nd r2 H V2) as (n2 & X2 & (_ & A2 & B2 & _ & C2 & D2)).
  rewrite E, X2 in X1. injection X1 as X1 X3. subst n2 r2. split; [reflexivity|].
  assert (L : length (raw_times 1024 (gp_tmin p) g m1) = length (raw_times 1024 (gp_tmin p) g m2)) by lia.
  split.
  - unfold meant_times. change tm with (gp_tmin p). rewrite <- C1, <- C2. rewrite L. reflexivity.
  - rewrite <- D1, <- D2. rewrite B1, B2, L. reflexivity.
Qed.

Definition ex_set0 : gset := mkGS 0 1 0 0 0 0 1 0 [(0, 0)] [].
Lemma ex_within : coef_within (mkCo 0 [ex_set0]).
Proof.
  split; [cbn; lia|]. intros g [<-|[]]. split; [cbn; lia|]. split; [reflexivity|]. split; [reflexivity|]. split; [discriminate|].
  intros _. split; [reflexivity|]. intros b [<-|[]]. cbn. lia.
Qed.

Lemma ex_valid : let ex_set := mkGS 0 1 0 0 0 0 1 0 [(0, 0)] [] in let ex_const := mkGS 3 1 1 0 0 0 1 0 [] [] in
  coef_within (mkCo 0 [ex_set; ex_const]) /\ Forall2 (valid_gset 1024 32 32) [ex_set; ex_const] [[Many true [3; 9; 30] (-24) [1; -7; 8]]; []] /\
  meant_times 1024 32 ex_set (Many true [3; 9; 30] (-24) [1; -7; 8]) = [-705; 95; 383; 1023] /\
  meant_gains (Many true [3; 9; 30] (-24) [1; -7; 8]) = [-24; -23; -30; -22].
Proof.
  cbv zeta. split; [|split; [|split; reflexivity]].
  - split; [cbn; lia|]. intros g [<-|[<-|[]]].
    + apply ex_within. left. reflexivity.
    + split; [cbn; lia|]. split; [reflexivity|]. split; [reflexivity|]. split; [reflexivity|]. intros X. exfalso. apply X. reflexivity.
  - constructor; [|constructor; [left; reflexivity|constructor]]. right. split; [cbn; lia|]. split; [reflexivity|]. constructor; [|constructor].
    split; [cbn; lia|]. split; [intros; reflexivity|]. split; [reflexivity|]. split; [repeat constructor; lia|].
    split; [left; split; [reflexivity|lia]|]. split; [apply Forall_forall; intros d [<-|[<-|[<-|[]]]]; unfold known_diff; vm_compute; tauto|]. apply Forall_forall. intros t Ht. vm_compute in Ht. destruct Ht as [<-|[<-|[<-|[]]]]; lia.
Qed.

Lemma order_refuted : let ex_set := mkGS 0 1 0 0 0 0 1 0 [(0, 0)] [] in
  exists m, valid_band 1024 32 32 ex_set m /\ meant_times 1024 32 ex_set m = [-737; 543; 31; 1023] /\
  forall tb st s rest, table_of tb 32 -> gain_shape st -> wf s -> rest_bits s = enc_band 32 ex_set m ++ [false] ++ rest ->
  exists st' s' sq nd, exec (read_gain (mkGP 32 tb 1024 false) [ex_set] st) s = Done ((0, st'), s') /\
    nth_error st' 0 = Some sq /\ nth_error (sq_nodes sq) 0 = Some nd /\ firstn 4 (nd_t nd) = [-737; 543; 31; 1023] /\ nd_n nd = 4.
Proof.
  cbv zeta. exists (Many true [1; 40; 40] 0 [0; 0; 0]).
  assert (V : valid_band 1024 32 32 ex_set0 (Many true [1; 40; 40] 0 [0; 0; 0])).
  { split; [cbn; lia|]. split; [intros; reflexivity|]. split; [reflexivity|]. split; [repeat constructor; lia|].
    split; [left; split; [reflexivity|lia]|]. split; [apply Forall_forall; intros d [<-|[<-|[<-|[]]]]; unfold known_diff; vm_compute; tauto|]. apply Forall_forall. intros t Ht. vm_compute in Ht. destruct Ht as [<-|[<-|[<-|[]]]]; lia. }
  split; [exact V|]. split; [reflexivity|]. intros tb st s rest T S W R.
  destruct (gain_payload tb 32 false (mkCo 0 [ex_set0]) [[Many true [1; 40; 40] 0 [0; 0; 0]]] None st s rest T ex_within S W) as (st' & s' & X & _ & HH & _).
  - discriminate.
  - constructor; [|constructor]. right. split; [cbn; lia|]. split; [reflexivity|]. constructor; [exact V|constructor].
  - exact I.
  - cbn [enc_sets co_sets]. unfold enc_set. cbn [gs_prof ex_set0 Z.eqb flat_map enc_gain_ext]. rewrite !app_nil_r. exact R.
  - destruct (HH 0%nat ex_set0 [Many true [1; 40; 40] 0 [0; 0; 0]] eq_refl eq_refl) as (sq & E & Y & Z0). cbn [gs_prof ex_set0 Z.eqb] in Y, Z0.
    destruct (Z0 0%nat _ eq_refl) as (nd & E2 & (N1 & _ & T1 & _)). exists st', s', sq, nd. split; [exact X|]. split; [exact E|]. split; [exact E2|].
    split; [exact T1|exact N1].
Qed.
