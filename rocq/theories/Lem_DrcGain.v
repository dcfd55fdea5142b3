(** * Lem_DrcGain: any DRC gain payload leaves the node structures in order *)
From Coq Require Import ZArith List Lia Bool ZifyBool.
From Verif Require Import Bits BitBuf Prog Wp Asi Leaf Loud Config DrcCfg DrcGain Lem_DrcUv Lem_DrcTime Spec_Drc Spec_DrcGain.
Import ListNotations.
Open Scope Z_scope.

(** ** Array updates *)
Definition upd {A} (l : list A) (i : nat) (v : A) : list A := firstn i l ++ v :: skipn (S i) l.

Lemma upd_length {A} (l : list A) i v : (i < length l)%nat -> length (upd l i v) = length l.
Proof. intros H. unfold upd. rewrite app_length, firstn_length. cbn [length]. rewrite skipn_length. lia. Qed.

Lemma upd_nth {A} (l : list A) i v k : (i < length l)%nat ->
  nth_error (upd l i v) k = if Nat.eqb k i then Some v else nth_error l k.
Proof.
  intros H. unfold upd. destruct (Nat.eqb_spec k i) as [->|Hk].
  - rewrite nth_error_app2; rewrite firstn_length; [|lia]. replace (i - Nat.min i (length l))%nat with 0%nat by lia. reflexivity.
  - destruct (Nat.lt_ge_cases k i).
    + rewrite nth_error_app1 by (rewrite firstn_length; lia). rewrite <- (firstn_skipn i l) at 2.
      rewrite nth_error_app1 by (rewrite firstn_length; lia). reflexivity.
    + rewrite nth_error_app2; rewrite firstn_length; [|lia].
      destruct (k - Nat.min i (length l))%nat as [|q] eqn:Q; [lia|]. cbn [nth_error].
      rewrite <- (firstn_skipn (S i) l) at 2. rewrite nth_error_app2; rewrite firstn_length; [|lia]. f_equal. lia.
Qed.

Lemma upd_firstn_eq {A} (l : list A) i v : (i < length l)%nat -> firstn (S i) (upd l i v) = firstn i l ++ [v].
Proof.
  intros H. unfold upd. rewrite firstn_app, firstn_length. rewrite firstn_all2 by (rewrite firstn_length; lia).
  replace (S i - Nat.min i (length l))%nat with 1%nat by lia. reflexivity.
Qed.

Lemma upd_firstn_le {A} (l : list A) i v n : (n <= i)%nat -> (i < length l)%nat -> firstn n (upd l i v) = firstn n l.
Proof.
  intros H1 H. unfold upd. rewrite firstn_app, firstn_length. replace (n - Nat.min i (length l))%nat with 0%nat by lia.
  cbn [firstn]. rewrite app_nil_r, firstn_firstn. replace (Nat.min n i) with n by lia. reflexivity.
Qed.

Lemma upd_app {A} (pre post : list A) x v : upd (pre ++ x :: post) (length pre) v = pre ++ v :: post.
Proof.
  unfold upd. rewrite firstn_app, Nat.sub_diag, firstn_all. cbn [firstn]. rewrite app_nil_r. f_equal. f_equal.
  rewrite skipn_app. rewrite skipn_all2 by lia. replace (S (length pre) - length pre)%nat with 1%nat by lia. reflexivity.
Qed.

Lemma aset_ok {A} (l : list A) i v : (i < length l)%nat -> aset l (Z.of_nat i) v = Ret (upd l i v).
Proof. intros H. unfold aset. replace ((0 <=? Z.of_nat i) && (Z.of_nat i <? Z.of_nat (length l))) with true by lia. rewrite Nat2Z.id. reflexivity. Qed.

Lemma aget_ok {A} (l : list A) i v : nth_error l i = Some v -> aget l (Z.of_nat i) = Ret v.
Proof. intros H. unfold aget. replace (0 <=? Z.of_nat i) with true by lia. rewrite Nat2Z.id, H. reflexivity. Qed.

Lemma chk_ok i n : 0 <= i < n -> chk i n = Ret tt.
Proof. intros H. unfold chk. replace ((0 <=? i) && (i <? n)) with true by lia. reflexivity. Qed.

Lemma put_t_ok nd i v : nodes_shape nd -> (i < 128)%nat -> put_t nd (Z.of_nat i) v = Ret (s_nd_t nd (upd (nd_t nd) i v)).
Proof. intros (_ & H) Hi. unfold put_t. rewrite aset_ok by lia. reflexivity. Qed.
Lemma put_g_ok nd i v : nodes_shape nd -> (i < 128)%nat -> put_g nd (Z.of_nat i) v = Ret (s_nd_g nd (upd (nd_g nd) i v)).
Proof. intros (H & _) Hi. unfold put_g. rewrite aset_ok by lia. reflexivity. Qed.

Lemma shape_t nd l : nodes_shape nd -> length l = 128%nat -> nodes_shape (s_nd_t nd l).
Proof. intros (H & _) L. split; assumption. Qed.
Lemma shape_g nd l : nodes_shape nd -> length l = 128%nat -> nodes_shape (s_nd_g nd l).
Proof. intros (_ & H) L. split; assumption. Qed.
Lemma shape_n nd n : nodes_shape nd -> nodes_shape (s_nd_n nd n).
Proof. intros (H1 & H2). split; assumption. Qed.
Lemma shape_ut nd i v : nodes_shape nd -> (i < 128)%nat -> nodes_shape (s_nd_t nd (upd (nd_t nd) i v)).
Proof. intros H Hi. apply shape_t; [exact H|]. destruct H as (_ & L). rewrite upd_length; lia. Qed.
Lemma shape_ug nd i v : nodes_shape nd -> (i < 128)%nat -> nodes_shape (s_nd_g nd (upd (nd_g nd) i v)).
Proof. intros H Hi. apply shape_g; [exact H|]. destruct H as (L & _). rewrite upd_length; lia. Qed.
Lemma nth_ut nd i v k : nodes_shape nd -> (i < 128)%nat ->
  nth_error (nd_t (s_nd_t nd (upd (nd_t nd) i v))) k = if Nat.eqb k i then Some v else nth_error (nd_t nd) k.
Proof. intros (_ & L) Hi. cbn [s_nd_t nd_t]. apply upd_nth. lia. Qed.

(** ** The node reservoir *)
Lemma nth_firstn_snoc {A} (l : list A) k x : nth_error l k = Some x -> firstn (S k) l = firstn k l ++ [x].
Proof.
  revert k. induction l as [|y l IH]; intros [|k] H; try discriminate; cbn in H.
  - injection H as ->. reflexivity.
  - cbn [firstn]. cbn [firstn] in IH. rewrite (IH k H). reflexivity.
Qed.

Lemma filter_len {A} (f : A -> bool) l : (length (filter f l) <= length l)%nat.
Proof. induction l as [|x l IH]; [apply le_n|]. cbn. destruct (f x); cbn; lia. Qed.

Lemma split_loop F nd : nodes_shape nd -> forall m i, (i + m <= 128)%nat ->
  forP m i (split_body F) (filter (fun t => F <=? t) (firstn i (nd_t nd)), filter (fun t => t <? F) (firstn i (nd_t nd)), nd)
  = Ret (filter (fun t => F <=? t) (firstn (i + m) (nd_t nd)), filter (fun t => t <? F) (firstn (i + m) (nd_t nd)), nd).
Proof.
  intros (LG & LT). induction m as [|m IH]; intros i Hi.
  - rewrite Nat.add_0_r. reflexivity.
  - cbn [forP split_body].
    destruct (nth_error (nd_t nd) i) as [t|] eqn:E; [|apply nth_error_None in E; lia].
    rewrite (aget_ok _ _ _ E). cbn [bind].
    assert (P := nth_firstn_snoc _ _ _ E).
    assert (FL := filter_len (fun t => t <? F) (firstn i (nd_t nd))).
    assert (FP := filter_len (fun t => F <=? t) (firstn i (nd_t nd))).
    rewrite firstn_length in FL, FP. unfold zlen, NODE_MAX.
    specialize (IH (S i)). replace (i + S m)%nat with (S i + m)%nat by lia.
    destruct (t <? F) eqn:C; rewrite chk_ok by lia; cbn [bind]; rewrite P in IH; rewrite !filter_app in IH; cbn [filter] in IH;
      rewrite C in IH; [replace (F <=? t) with false in IH by lia|replace (F <=? t) with true in IH by lia];
      rewrite app_nil_r in IH; apply IH; lia.
Qed.

Definition over (F : Z) (t : Z) : bool := 2 * FRAME_MAX - F <=? t - 2 * F.

Lemma prev_loop F : forall suf pre mid nd tail, nodes_shape nd ->
  nd_t nd = map (fun t => t - 2 * F) pre ++ mid ++ tail -> length mid = length suf ->
  exists nd' e, forE (length suf) (length pre) (prev_body F (pre ++ suf)) nd = Ret (e, nd') /\ nodes_shape nd' /\
    nd_n nd' = nd_n nd /\ nd_g nd' = nd_g nd /\
    (e = 0 /\ existsb (over F) suf = false /\ nd_t nd' = map (fun t => t - 2 * F) (pre ++ suf) ++ tail \/
     e = E_DRC_UNEXPECTED /\ existsb (over F) suf = true).
Proof.
  induction suf as [|t suf IH]; intros pre mid nd tail H E L.
  - destruct mid; [|discriminate]. exists nd, 0. repeat split; auto; try apply H. left. rewrite app_nil_r. auto.
  - destruct mid as [|x mid]; [discriminate|]. cbn [length forE]. unfold prev_body at 1.
    rewrite (aget_ok (pre ++ t :: suf) (length pre) t) by (rewrite nth_error_app2, Nat.sub_diag by lia; reflexivity).
    cbn [bind existsb]. unfold over at 1 3. destruct (2 * FRAME_MAX - F <=? t - 2 * F) eqn:C; cbn [orb].
    + exists nd, E_DRC_UNEXPECTED. split; [reflexivity|]. repeat split; auto; apply H.
    + assert (Hl : (length pre < 128)%nat).
      { destruct H as (_ & LT). rewrite E in LT. rewrite !app_length, map_length in LT. cbn in LT. lia. }
      rewrite put_t_ok by auto. cbn [bind]. change (0 =? 0) with true. cbn match.
      destruct (IH (pre ++ [t]) mid (s_nd_t nd (upd (nd_t nd) (length pre) (t - 2 * F))) tail) as (nd' & e & X & S1 & S2 & S3 & S4).
      * apply shape_ut; auto.
      * cbn [s_nd_t nd_t]. rewrite E. cbn [app]. rewrite <- (map_length (fun t => t - 2 * F) pre), upd_app, map_app, <- app_assoc. reflexivity.
      * cbn in L. lia.
      * exists nd', e. rewrite app_length in X. cbn [length] in X. replace (length pre + 1)%nat with (S (length pre)) in X by lia.
        rewrite <- app_assoc in X, S4. cbn [app] in X, S4. auto.
Qed.

Lemma cur_loop np : forall suf pre mid nd tail H0, nodes_shape nd -> length H0 = np ->
  nd_t nd = H0 ++ pre ++ mid ++ tail -> length mid = length suf ->
  forP (length suf) (length pre) (cur_body np (pre ++ suf)) nd = Ret (s_nd_t nd (H0 ++ (pre ++ suf) ++ tail)).
Proof.
  induction suf as [|t suf IH]; intros pre mid nd tail H0 H L0 E L.
  - destruct mid; [|discriminate]. cbn. rewrite app_nil_r. cbn [app] in E. rewrite <- E. destruct nd; reflexivity.
  - destruct mid as [|x mid]; [discriminate|]. cbn [length forP]. unfold cur_body at 1.
    rewrite (aget_ok (pre ++ t :: suf) (length pre) t) by (rewrite nth_error_app2, Nat.sub_diag by lia; reflexivity).
    cbn [bind].
    assert (Hl : (np + length pre < 128)%nat).
    { destruct H as (_ & LT). rewrite E in LT. rewrite !app_length in LT. cbn in LT. lia. }
    rewrite put_t_ok by auto. cbn [bind].
    specialize (IH (pre ++ [t]) mid (s_nd_t nd (upd (nd_t nd) (np + length pre) t)) tail H0).
    rewrite app_length in IH. cbn [length] in IH. replace (length pre + 1)%nat with (S (length pre)) in IH by lia.
    replace ((pre ++ [t]) ++ suf) with (pre ++ t :: suf) in IH by (rewrite <- app_assoc; reflexivity). rewrite IH; auto.
    + apply shape_ut; auto.
    + cbn [s_nd_t nd_t]. rewrite E. rewrite !app_assoc. rewrite <- L0, <- app_length, <- !app_assoc. rewrite (app_assoc H0).
      cbn [app]. rewrite upd_app. rewrite <- !app_assoc. reflexivity.
Qed.

Lemma filter_split F l : (length (filter (fun t => (F <=? t)%Z) l) + length (filter (fun t => (t <? F)%Z) l) = length l)%nat.
Proof.
  induction l as [|t l IH]; [reflexivity|]. cbn [filter length].
  destruct (t <? F) eqn:C; [replace (F <=? t) with false by lia|replace (F <=? t) with true by lia]; cbn [length]; lia.
Qed.

Lemma reservoir_eq F nd n : nodes_shape nd -> nd_n nd = Z.of_nat n -> (n <= 128)%nat ->
  exists e nd', reservoir F nd = Ret (e, nd') /\ nodes_shape nd' /\ nd_n nd' = nd_n nd /\ nd_g nd' = nd_g nd /\
  (e = 0 /\ existsb (over F) (filter (fun t => F <=? t) (firstn n (nd_t nd))) = false /\
   firstn n (nd_t nd') = arrange F (firstn n (nd_t nd)) \/
   e = E_DRC_UNEXPECTED /\ existsb (over F) (filter (fun t => F <=? t) (firstn n (nd_t nd))) = true).
Proof.
  intros H En Hn. unfold reservoir. rewrite En, Nat2Z.id.
  assert (SL := split_loop F nd H n 0 ltac:(lia)). cbn [firstn filter] in SL. cbn [plus] in SL. rewrite SL. cbn [bind].
  set (R := firstn n (nd_t nd)). set (P := filter (fun t => F <=? t) R). set (C := filter (fun t => t <? F) R).
  assert (LR : length R = n) by (unfold R; rewrite firstn_length; destruct H as (_ & L); lia).
  assert (LS : (length P + length C = n)%nat) by (rewrite <- LR; apply filter_split).
  assert (ET : nd_t nd = firstn (length P) (nd_t nd) ++ skipn (length P) (nd_t nd)) by (symmetry; apply firstn_skipn).
  assert (LT : length (nd_t nd) = 128%nat) by apply H.
  destruct (prev_loop F P [] (firstn (length P) (nd_t nd)) nd (skipn (length P) (nd_t nd))) as (nd1 & e & X & S1 & S2 & S3 & S4); auto.
  { rewrite firstn_length. lia. }
  cbn [length app] in X, S4. rewrite X. cbn [bind].
  destruct S4 as [(-> & S5 & S6)|(-> & S5)].
  - change (negb (0 =? 0)) with false. cbn match.
    assert (CL := cur_loop (length P) C [] (firstn (length C) (skipn (length P) (nd_t nd))) nd1 (skipn n (nd_t nd)) (map (fun t => t - 2 * F) P)).
    cbn [length app] in CL. rewrite CL; auto.
    + cbn [bind app]. eexists _, _. split; [reflexivity|].
      split. { apply shape_t; [exact S1|]. rewrite !app_length, map_length, skipn_length. lia. }
      split; [cbn [s_nd_t nd_n]; congruence|]. split; [exact S3|]. left. split; [reflexivity|]. split; [exact S5|].
      cbn [s_nd_t nd_t]. rewrite app_assoc. rewrite firstn_app.
      rewrite firstn_all2 by (rewrite app_length, map_length; lia).
      rewrite app_length, map_length. replace (n - (length P + length C))%nat with 0%nat by lia. cbn [firstn]. rewrite app_nil_r. reflexivity.
    + rewrite map_length. reflexivity.
    + rewrite S6. cbn [app]. f_equal.
      rewrite <- (firstn_skipn (length C) (skipn (length P) (nd_t nd))) at 1. f_equal.
      rewrite skipn_skipn_add. f_equal. lia.
    + rewrite firstn_length, skipn_length. lia.
  - cbn. eexists _, _. split; [reflexivity|]. rewrite <- En.
    split; [exact S1|]. split; [exact S2|]. split; [exact S3|]. right. split; [reflexivity|exact S5].
Qed.
