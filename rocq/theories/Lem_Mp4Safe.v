(** * Lem_Mp4Safe: memory safety of the scene boxes with tests of the counts *)
From Coq Require Import ZArith List Lia Bool ZifyBool.
From Verif Require Import Bits BitBuf Prog Asi Wp Frame Spec_Asi Lem_Asi Lem_AsiRT Mp4 Spec_Mp4 Lem_DrcGain Lem_DrcGainSafe Leaf Lem_Mp4.
Import ListNotations.
Open Scope Z_scope.

Ltac ws := repeat first [ wp1 | lazymatch goal with
  | |- wp (let '(_, _) := ?x in _) _ => destruct x
  | |- wp (guard _ _ _) _ => unfold guard end ].

Lemma ZL {A} (l : list A) n (H : length l = n) : forall i, (i < n)%nat -> 0 <= Z.of_nat i < Z.of_nat (length l).
Proof. intros. lia. Qed.

Lemma wp_grp_one i arr : (i < 16)%nat -> groups_shape arr -> wp (grp_one i arr) groups_shape.
Proof.
  intros Hi (S1 & S2). unfold grp_one. do 4 wp1. apply wp_bindi, wp_aget; [lia|]. intros g0 E0. rewrite Nat2Z.id in E0.
  assert (M0 : length (g_mem g0) = 128%nat) by (eapply (nth_Forall _ _ _ _ S2); exact E0).
  ws; apply wp_aset_upd; try lia; (split; [rewrite upd_length by lia; exact S1|apply upd_Forall; [lia|exact S2|exact M0]]).
Qed.

Lemma wp_put_start i s arr : (i < 16)%nat -> groups_shape arr -> wp (put_start arr (Z.of_nat i) s) groups_shape.
Proof.
  intros Hi (S1 & S2). unfold put_start. apply wp_bindi, wp_aget; [lia|]. intros g0 E0. rewrite Nat2Z.id in E0.
  assert (M0 : length (g_mem g0) = 128%nat) by (eapply (nth_Forall _ _ _ _ S2); exact E0).
  apply wp_aset_upd; [lia|]. split; [rewrite upd_length by lia; exact S1|apply upd_Forall; [lia|exact S2|exact M0]].
Qed.

Lemma wp_maeg arr : groups_shape arr -> wp (maeg true arr) (fun r => match r with Ok (_, n, a) => groups_shape a /\ 0 <= n <= 16 | Er e => e = E_MAE end).
Proof.
  intros S0. unfold maeg. do 6 wp1. unfold guard. cbn [andb]. destruct (Z.ltb_spec 16 v1); [wp1; reflexivity|].
  apply wp_bindi. apply (wp_for (fun _ => groups_shape)); [exact S0|intros j t Hj Ht; apply wp_grp_one; [lia|exact Ht]|].
  intros a1 H1. apply wp_bindi. change 0 with (Z.of_nat 0) at 1. eapply wp_mono; [|apply wp_put_start; [lia|exact H1]].
  intros a2 H2. apply wp_bindi. change 1 with (Z.of_nat 1) at 1. eapply wp_mono; [|apply wp_put_start; [lia|exact H2]].
  intros a3 H3. wp1. split; [exact H3|lia].
Qed.

Lemma wp_mem n (mem : list Z) : (n <= length mem)%nat ->
  wp (forP n 0 (fun j m => rd 1 ;;; v <- rd 7 ;; aset m (Z.of_nat j) v) mem) (fun m => length m = length mem).
Proof.
  intros H. apply (wp_for (fun _ m => length m = length mem)); [reflexivity| |auto].
  intros j t Hj Ht. do 4 wp1. apply wp_aset_upd; [lia|]. rewrite upd_length by lia. exact Ht.
Qed.

Lemma wp_swi_one i arr : (i < 8)%nat -> switches_shape arr -> wp (swi_one i arr) switches_shape.
Proof.
  intros Hi (S1 & S2). unfold swi_one. apply wp_bindi, wp_aget; [lia|]. intros g0 E0. rewrite Nat2Z.id in E0.
  assert (M0 : length (s_mem g0) = 32%nat) by (eapply (nth_Forall _ _ _ _ S2); exact E0). do 8 wp1.
  apply wp_bindi. eapply wp_mono; [|apply wp_mem; lia]. intros m Hm. cbv beta in Hm |- *. do 4 wp1.
  apply wp_aset_upd; [lia|]. split; [rewrite upd_length by lia; exact S1|apply upd_Forall; [lia|exact S2|cbn [s_mem]; congruence]].
Qed.

Lemma wp_maes arr : switches_shape arr -> wp (maes true arr) (fun r => match r with Ok (n, a) => switches_shape a /\ 0 <= n <= 8 | Er e => e = E_MAE end).
Proof.
  intros S0. unfold maes. do 4 wp1. unfold guard. cbn [andb]. destruct (Z.ltb_spec 8 v0); [wp1; reflexivity|].
  apply wp_bindi. apply (wp_for (fun _ => switches_shape)); [exact S0|intros j t Hj Ht; apply wp_swi_one; [lia|exact Ht]|].
  intros a1 H1. wp1. split; [exact H1|lia].
Qed.

Lemma wp_con_one j cs : (j < 16)%nat -> length cs = 16%nat -> wp (con_one j cs) (fun c => length c = 16%nat).
Proof.
  intros Hj L. unfold con_one. do 2 wp1. apply wp_bindi, wp_aget; [lia|]. intros c0 E0.
  ws; apply wp_aset_upd; try lia; rewrite upd_length by lia; exact L.
Qed.

Lemma wp_pre_one i arr : (i < 8)%nat -> presets_shape arr -> wp (pre_one true i arr) (fun r => match r with Ok a => presets_shape a | Er e => e = E_MAE end).
Proof.
  intros Hi (S1 & S2). unfold pre_one. do 4 wp1. apply wp_bindi, wp_aget; [lia|]. intros g0 E0. rewrite Nat2Z.id in E0.
  assert (M0 : length (p_conds g0) = 16%nat) by (eapply (nth_Forall _ _ _ _ S2); exact E0). do 6 wp1.
  unfold guard. cbn [andb]. destruct (Z.ltb_spec 16 v3); [wp1; reflexivity|]. cbv zeta. rewrite s8_small by lia.
  apply wp_bindi. apply (wp_for (fun _ cs => length cs = 16%nat)); [exact M0|intros j t Hj Ht; apply wp_con_one; [lia|exact Ht]|].
  intros cs Hc. apply wp_bindi, wp_aset_upd; [lia|]. wp1. split; [rewrite upd_length by lia; exact S1|apply upd_Forall; [lia|exact S2|exact Hc]].
Qed.

Lemma wp_maep arr : presets_shape arr -> wp (maep true arr) (fun r => match r with Ok (n, a) => presets_shape a /\ 0 <= n <= 8 | Er e => e = E_MAE end).
Proof.
  intros S0. unfold maep. do 4 wp1. unfold guard. cbn [andb]. destruct (Z.ltb_spec 8 v0); [wp1; reflexivity|].
  apply wp_bindi. apply (wp_forR (fun _ => presets_shape) (fun e => e = E_MAE)); [exact S0|intros j t Hj Ht; apply wp_pre_one; [lia|exact Ht]| |].
  - intros a1 H1. cbv beta. wp1. split; [exact H1|lia].
  - intros c Hc. cbv beta. wp1. exact Hc.
Qed.

(** ** Descriptions *)
Lemma wp_block d j id : (j < 128)%nat -> desc_shape d -> wp (block d (Z.of_nat j) id) desc_shape.
Proof.
  intros H (S1 & S2 & S3). unfold block. apply wp_bindi, wp_aset_upd; [lia|]. apply wp_bindi, wp_aset_upd; [lia|]. wp1.
  split; [cbn [ds_len]; rewrite upd_length by lia; exact S1|]. split; [cbn [ds_id]; rewrite upd_length by lia; exact S2|]. cbn [ds_len]. apply upd_Forall; [lia|exact S3|lia].
Qed.

Lemma wp_row n (Q : unit -> Prop) : n <= 256 -> (forall u, Q u) -> wp (row n) Q.
Proof.
  intros H HQ. unfold row. apply (wp_for (fun _ _ => True)); [exact I| |auto]. intros j t Hj _. wps; exact I.
Qed.

Lemma wp_gblock j d : (j < 128)%nat -> desc_shape d -> wp (gblock j d) desc_shape.
Proof.
  intros H S0. unfold gblock. do 6 wp1. apply wp_bindi. eapply wp_mono; [|apply wp_block; [exact H|exact S0]]. intros d' S'. cbv beta. do 2 wp1.
  apply wp_bindi, wp_row; [lia|]. intros _. wps. exact S'.
Qed.
Lemma wp_pblock j d : (j < 128)%nat -> desc_shape d -> wp (pblock j d) desc_shape.
Proof.
  intros H S0. unfold pblock. do 4 wp1. apply wp_bindi. eapply wp_mono; [|apply wp_block; [exact H|exact S0]]. intros d' S'. cbv beta. do 2 wp1.
  apply wp_bindi, wp_row; [lia|]. intros _. wps. exact S'.
Qed.
Lemma wp_sblock g j d : (j < 128)%nat -> desc_shape g -> desc_shape d -> wp (sblock g j d) desc_shape.
Proof.
  intros H (G1 & _ & G3) S0. unfold sblock. do 6 wp1. apply wp_bindi. eapply wp_mono; [|apply wp_block; [exact H|exact S0]]. intros d' S'. cbv beta. do 2 wp1.
  apply wp_bindi, wp_aget; [lia|]. intros n En.
  assert (Bn : -128 <= n <= 127) by (apply (nth_Forall _ _ _ _ G3 En)).
  apply wp_bindi, wp_row; [lia|]. intros _. wps. exact S'.
Qed.

Lemma wp_mael g s p : desc_shape g -> desc_shape s -> desc_shape p ->
  wp (mael true g s p) (fun r => match r with Ok (g, s, p) => desc_shape g /\ desc_shape s /\ desc_shape p | Er e => e = E_MAE end).
Proof.
  intros Sg Ss Sp. unfold mael. do 10 wp1. unfold guard. cbn [andb]. destruct (Z.leb_spec 128 (v3 + 1)); [wp1; reflexivity|].
  apply wp_bindi. apply (wp_for (fun _ => desc_shape)); [exact Sg|intros j t Hj Ht; apply wp_gblock; [lia|exact Ht]|]. intros g1 Sg1.
  apply wp_bindi. rewrite <- (Z2Nat.id (v3 + 1)) by lia. eapply wp_mono; [|apply wp_block; [lia|exact Sg1]]. intros g2 Sg2. cbv beta. do 4 wp1.
  apply wp_bindi. apply (wp_for (fun _ => desc_shape)); [exact Ss|intros j t Hj Ht; apply wp_sblock; [lia|exact Sg2|exact Ht]|]. intros s1 Ss1.
  apply wp_bindi. replace (v5 + 1) with (Z.of_nat (Z.to_nat (v5 + 1))) at 1 by lia. eapply wp_mono; [|apply wp_block; [lia|exact Ss1]]. intros s2 Ss2. cbv beta.
  destruct (Sg2) as (G1 & _ & G3). apply wp_bindi, wp_aget; [lia|]. intros n En. assert (Bn : -128 <= n <= 127) by (apply (nth_Forall _ _ _ _ G3 En)).
  apply wp_bindi.
  assert (REST : wp (rd 3;;; np <- rd 5;; p1 <- forP (Z.to_nat (np + 1)) 0 pblock p;; p2 <- block p1 (np + 1) 0;; Ret (Ok (g2, s2, p2)))
    (fun r => match r with Ok (g, s, p) => desc_shape g /\ desc_shape s /\ desc_shape p | Er e => e = E_MAE end)).
  { do 4 wp1. apply wp_bindi. apply (wp_for (fun _ => desc_shape)); [exact Sp|intros j t Hj Ht; apply wp_pblock; [lia|exact Ht]|]. intros p1 Sp1.
    apply wp_bindi. replace (v7 + 1) with (Z.of_nat (Z.to_nat (v7 + 1))) at 1 by lia. eapply wp_mono; [|apply wp_block; [lia|exact Sp1]]. intros p2 Sp2. wp1. auto. }
  destruct (Z.leb_spec 0 n); [apply wp_chk; [lia|]; exact REST|wp1; exact REST].
Qed.

(** ** The same result with and without the tests *)
Definition agree {A} (p q : prog (res A)) : Prop := forall s, exec q s = exec p s \/ exists s', exec q s = Done (Er E_MAE, s').

Lemma agree_refl {A} (p : prog (res A)) : agree p p.
Proof. left. reflexivity. Qed.
Lemma agree_bind {A B} (p : prog A) (k k' : A -> prog (res B)) : (forall a, agree (k a) (k' a)) -> agree (bind p k) (bind p k').
Proof. intros H s. rewrite !exec_bind. destruct (exec p s) as [[a s1]| |]; [apply H|left; reflexivity|left; reflexivity]. Qed.
Lemma agree_guard {A} bad (p q : prog (res A)) : agree p q -> agree (guard false bad p) (guard true bad q).
Proof. intros H s. unfold guard. cbn [andb]. destruct bad; [right; exists s; reflexivity|apply H]. Qed.
Lemma agree_forR {T} (b b' : nat -> T -> prog (res T)) : (forall i x, agree (b i x) (b' i x)) -> forall n i x, agree (forR n i b x) (forR n i b' x).
Proof.
  intros H. induction n as [|n IH]; intros i x s; [left; reflexivity|]. cbn [forR]. rewrite !exec_bind.
  destruct (H i x s) as [E|(s' & E)]; rewrite E.
  - destruct (exec (b i x) s) as [[[y|e] s1]| |]; try (left; reflexivity). apply IH.
  - right. exists s'. reflexivity.
Qed.

Lemma agree_maeg arr : agree (maeg false arr) (maeg true arr).
Proof. unfold maeg. repeat (apply agree_bind; intro). apply agree_guard, agree_refl. Qed.
Lemma agree_maes arr : agree (maes false arr) (maes true arr).
Proof. unfold maes. repeat (apply agree_bind; intro). apply agree_guard, agree_refl. Qed.
Lemma agree_mael g s p : agree (mael false g s p) (mael true g s p).
Proof. unfold mael. do 5 (apply agree_bind; intro). apply agree_guard, agree_refl. Qed.
Lemma agree_pre_one i arr : agree (pre_one false i arr) (pre_one true i arr).
Proof. unfold pre_one. do 6 (apply agree_bind; intro). apply agree_guard, agree_refl. Qed.
Lemma agree_maep arr : agree (maep false arr) (maep true arr).
Proof.
  unfold maep. do 2 (apply agree_bind; intro). apply agree_guard. intro s. rewrite !exec_bind.
  destruct (agree_forR _ _ agree_pre_one (Z.to_nat a0) 0 arr s) as [E|(s' & E)]; rewrite E; [left; reflexivity|right; exists s'; reflexivity].
Qed.

(** ** Descriptions: one row too many *)
Lemma skipn_skipn {A} (x y : nat) (l : list A) : skipn x (skipn y l) = skipn (y + x) l.
Proof. revert l. induction y as [|y IH]; intros l; [reflexivity|]. destruct l; [rewrite !skipn_nil; reflexivity|]. cbn [skipn Nat.add]. apply IH. Qed.

Lemma runA_any {A} n (k : Z -> prog A) l : 0 <= n <= 24 -> n <= Z.of_nat (length l) -> exists v, runA (bind (rd n) k) l = runA (k v) (skipn (Z.to_nat n) l).
Proof.
  intros H1 H2. unfold rd. cbn [bind runA]. replace ((n <? 0) || (24 <? n)) with false by lia. replace (Z.of_nat (length l) <? n) with false by lia. eauto.
Qed.

Lemma gblock_any j d l : (j < 128)%nat -> desc_shape d -> (17 <= length l)%nat ->
  exists d', runA (gblock j d) l = Done (d', skipn 17 l) /\ desc_shape d'.
Proof.
  intros Hj Sd Hl. pose proof (wp_runA _ _ (wp_gblock j d Hj Sd) l) as HW.
  assert (exists d', runA (gblock j d) l = Done (d', skipn 17 l)) as (d' & E).
  { destruct Sd as (S1 & S2 & S3). unfold gblock. rewrite runA_bind. unfold chk. replace ((0 <=? Z.of_nat j) && (Z.of_nat j <? 128)) with true by lia. cbn [runA].
    destruct (runA_any 1 (fun _ => bind (rd 7) (fun id => d <- block d (Z.of_nat j) id ;; rd 8 ;;; row 1 ;;; chk 1 256 ;;; Ret d)) l ltac:(lia) ltac:(lia)) as (v & E). unfold chk in E. rewrite E. clear E. change (Z.to_nat 1) with 1%nat.
    destruct (runA_any 7 (fun id => d <- block d (Z.of_nat j) id ;; rd 8 ;;; row 1 ;;; chk 1 256 ;;; Ret d) (skipn 1 l) ltac:(lia) ltac:(rewrite skipn_length; lia)) as (id & E). unfold chk in E. rewrite E. clear E. change (Z.to_nat 7) with 7%nat.
    rewrite skipn_skipn. cbn [Nat.add]. unfold block. rewrite (aset_ok _ j) by lia. cbn [bind]. rewrite (aset_ok _ j) by lia. cbn [bind].
    destruct (runA_any 8 (fun _ => row 1 ;;; (if (0 <=? 1) && (1 <? 256) then Ret tt else Undef UOob) ;;; Ret (mkDs (upd (ds_len d) j 1) (upd (ds_id d) j id))) (skipn 8 l) ltac:(lia) ltac:(rewrite skipn_length; lia)) as (w & E). rewrite E. clear E. change (Z.to_nat 8) with 8%nat.
    rewrite skipn_skipn. cbn [Nat.add]. unfold row. change (Z.to_nat 1) with 1%nat. cbn [forP bind]. unfold chk. change (Z.of_nat 0) with 0. cbn [Z.leb Z.ltb Z.compare andb bind Pos.compare Pos.compare_cont].
    unfold rd. cbn [bind runA]. change ((1 <? 0) || (24 <? 1)) with false. cbv iota. rewrite skipn_length. replace (Z.of_nat (length l - 16) <? 1) with false by lia. change (Z.to_nat 1) with 1%nat. rewrite skipn_skipn. cbn [Nat.add]. eauto. }
  rewrite E in HW. eauto.
Qed.

Lemma gloop_any : forall n i d l, (i + n <= 128)%nat -> desc_shape d -> (17 * n <= length l)%nat ->
  exists d', runA (forP n i gblock d) l = Done (d', skipn (17 * n) l) /\ desc_shape d'.
Proof.
  induction n as [|n IH]; intros i d l Hi Sd Hl; [exists d; split; [reflexivity|exact Sd]|]. cbn [forP]. rewrite runA_bind.
  destruct (gblock_any i d l ltac:(lia) Sd ltac:(lia)) as (d1 & E1 & S1). rewrite E1.
  destruct (IH (S i) d1 (skipn 17 l) ltac:(lia) S1 ltac:(rewrite skipn_length; lia)) as (d2 & E2 & S2). rewrite E2. exists d2. split; [|exact S2]. rewrite skipn_skipn. do 3 f_equal. lia.
Qed.

Lemma mael_over hd tl g s p : length hd = 33%nat -> (17 * 128 <= length tl)%nat -> desc_shape g ->
  runA (mael false g s p) (hd ++ bits_of 7 127 ++ tl) = UB UOob.
Proof.
  intros Hh Ht Sg. unfold mael. set (X := bits_of 7 127 ++ tl).
  assert (LX : (7 <= length X)%nat) by (unfold X; rewrite app_length, bits_of_length; lia).
  assert (SK : forall A n (k : Z -> prog A) m, 0 <= n <= 24 -> Z.of_nat m + n <= 33 -> exists v, runA (bind (rd n) k) (skipn m (hd ++ X)) = runA (k v) (skipn (m + Z.to_nat n) (hd ++ X))).
  { intros A n k m H1 H2. destruct (runA_any n k (skipn m (hd ++ X)) H1 ltac:(rewrite skipn_length, app_length; lia)) as (v & E). exists v. rewrite E, skipn_skipn. reflexivity. }
  change (hd ++ X) with (skipn 0 (hd ++ X)).
  do 4 match goal with |- runA (bind (rd ?n) ?k) (skipn ?m _) = _ => let v := fresh "v" in let E := fresh "E" in destruct (SK _ n k m ltac:(lia) ltac:(lia)) as (v & E); rewrite E; clear E; cbv beta end.
  replace (skipn _ (hd ++ X)) with X by (rewrite skipn_app; replace (0 + _ + _ + _ + _)%nat with (length hd) by (rewrite Hh; reflexivity); rewrite skipn_all, Nat.sub_diag; reflexivity).
  unfold X. rewrite (runA_rdb 7 7) by lia. unfold guard. cbn [andb]. change (Z.to_nat (127 + 1)) with 128%nat. rewrite runA_bind.
  destruct (gloop_any 128 0 g tl ltac:(lia) Sg Ht) as (g' & E & (S1 & _)). rewrite E. unfold block. change (127 + 1) with (Z.of_nat 128). rewrite aset_out by lia. reflexivity.
Qed.

(** ** A preset of 128 to 255 conditions: the conditions are left unread *)
Lemma maep_long x arr rest : valid_bpreset x -> (128 <= length (pr_conds x))%nat -> presets_shape arr ->
  exists arr' c, runA (maep false arr) (box_presets [x] ++ rest) = Done (Ok (1, arr'), flat_map box_cond (pr_conds x) ++ rest) /\
    nth_error arr' 0 = Some c /\ p_num c = Z.of_nat (length (pr_conds x)) - 256 /\ view_preset c = {| pr_id := pr_id x; pr_kind := pr_kind x; pr_conds := [] |}.
Proof.
  intros (V1 & V2 & V3 & _) V5 (S1 & S2). destruct arr as [|old arr]; [discriminate S1|].
  unfold maep, box_presets. cbn [length flat_map]. rewrite app_nil_r. rp. unfold guard. cbn [andb]. change (Z.to_nat (Z.of_nat 1)) with 1%nat. cbn [forR]. rewrite !runA_bind.
  unfold pre_one, box_preset. rp. cbn [aget]. rewrite (aget_ok (old :: arr) 0 old eq_refl). cbn [bind]. rp. unfold guard. cbn [andb]. cbv zeta.
  set (n := Z.of_nat (length (pr_conds x))) in *.
  assert (En : s8 n = n - 256) by (unfold s8, to_s; change (2 ^ 8) with 256; change (2 ^ (8 - 1)) with 128; rewrite Z.mod_small by lia; destruct (Z.ltb_spec n 128); lia).
  rewrite En. replace (Z.to_nat (n - 256)) with 0%nat by lia. cbn [forP bind]. rewrite (aset_ok _ 0) by (cbn; lia). cbn [bind runA].
  eexists _, _. split; [reflexivity|]. split; [reflexivity|]. split; [reflexivity|]. unfold view_preset. cbn [p_id p_kind p_num p_conds]. replace (Z.to_nat (n - 256)) with 0%nat by lia. reflexivity.
Qed.

(** ** On the reader *)
Lemma groups_exec id l arr s rest : fits 8 id -> (length l <= 16)%nat -> Forall valid_bgroup l -> groups_shape arr ->
  wf s -> rest_bits s = box_groups id l ++ rest ->
  exists arr' s', exec (maeg false arr) s = Done (Ok (id, Z.of_nat (length l), arr'), s') /\ rest_bits s' = rest /\ groups_shape arr' /\
    forall k b, nth_error l k = Some b -> exists old c, nth_error arr k = Some old /\ nth_error arr' k = Some c /\
      same_group (view_group c) (bg_group b) /\ gr_members (view_group c) = Range (start_of k (g_start old)) 2.
Proof.
  intros H1 H2 H3 H4 W R. destruct (maeg_rt false id l arr rest H1 H2 H3 H4) as (a & E & K1 & K2).
  pose proof (exec_refines (maeg false arr) s W) as X. rewrite R, E in X. destruct X as (s' & X & W' & R'). exists a, s'. auto.
Qed.
Lemma switches_exec l arr s rest : (length l <= 8)%nat -> Forall valid_bswitch l -> switches_shape arr ->
  wf s -> rest_bits s = box_switches l ++ rest ->
  exists arr' s', exec (maes false arr) s = Done (Ok (Z.of_nat (length l), arr'), s') /\ rest_bits s' = rest /\ switches_shape arr' /\
    map view_switch (firstn (length l) arr') = l.
Proof.
  intros H2 H3 H4 W R. destruct (maes_rt false l arr rest H2 H3 H4) as (a & E & K1 & K2).
  pose proof (exec_refines (maes false arr) s W) as X. rewrite R, E in X. destruct X as (s' & X & W' & R'). exists a, s'. auto.
Qed.
Lemma presets_exec l arr s rest : (length l <= 8)%nat -> Forall (fun p => valid_bpreset p /\ (length (pr_conds p) <= 16)%nat) l -> presets_shape arr ->
  wf s -> rest_bits s = box_presets l ++ rest ->
  exists arr' s', exec (maep false arr) s = Done (Ok (Z.of_nat (length l), arr'), s') /\ rest_bits s' = rest /\ presets_shape arr' /\
    map view_preset (firstn (length l) arr') = l.
Proof.
  intros H2 H3 H4 W R. destruct (maep_rt false l arr rest H2 H3 H4) as (a & E & K1 & K2).
  pose proof (exec_refines (maep false arr) s W) as X. rewrite R, E in X. destruct X as (s' & X & W' & R'). exists a, s'. auto.
Qed.

Lemma groups_over id l arr s rest : fits 8 id -> (16 < length l <= 127)%nat -> Forall valid_bgroup l -> groups_shape arr ->
  wf s -> rest_bits s = box_groups id l ++ rest -> exec (maeg false arr) s = UB UOob.
Proof. intros H1 H2 H3 H4 W R. apply exec_ub; [exact W|discriminate|]. rewrite R. apply maeg_over; assumption. Qed.
Lemma switches_over l arr s rest : (8 < length l <= 127)%nat -> Forall valid_bswitch l -> switches_shape arr ->
  wf s -> rest_bits s = box_switches l ++ rest -> exec (maes false arr) s = UB UOob.
Proof. intros H2 H3 H4 W R. apply exec_ub; [exact W|discriminate|]. rewrite R. apply maes_over; assumption. Qed.
Lemma presets_over l arr s rest : (length l <= 127)%nat -> Forall (fun x => valid_bpreset x /\ (length (pr_conds x) <= 127)%nat) l ->
  ((8 < length l)%nat \/ Exists (fun x => (16 < length (pr_conds x))%nat) l) -> presets_shape arr ->
  wf s -> rest_bits s = box_presets l ++ rest -> exec (maep false arr) s = UB UOob.
Proof. intros H1 H2 H3 H4 W R. apply exec_ub; [exact W|discriminate|]. rewrite R. apply maep_over; assumption. Qed.
Lemma conditions_lost x arr s rest : valid_bpreset x -> (128 <= length (pr_conds x))%nat -> presets_shape arr ->
  wf s -> rest_bits s = box_presets [x] ++ rest ->
  exists arr' c s', exec (maep false arr) s = Done (Ok (1, arr'), s') /\ rest_bits s' = flat_map box_cond (pr_conds x) ++ rest /\
    nth_error arr' 0 = Some c /\ p_num c < 0 /\ pr_conds (view_preset c) = [].
Proof.
  intros V L H4 W R. destruct (maep_long x arr rest V L H4) as (a & c & E & K1 & K2 & K3).
  pose proof (exec_refines (maep false arr) s W) as X. rewrite R, E in X. destruct X as (s' & X & W' & R'). exists a, c, s'.
  split; [exact X|]. split; [exact R'|]. split; [exact K1|]. split; [destruct V as (_ & _ & V & _); lia|rewrite K3; reflexivity].
Qed.
Lemma descriptions_over hd tl g d p s : length hd = 33%nat -> (17 * 128 <= length tl)%nat -> desc_shape g ->
  wf s -> rest_bits s = hd ++ bits_of 7 127 ++ tl -> exec (mael false g d p) s = UB UOob.
Proof. intros H1 H2 H3 W R. apply exec_ub; [exact W|discriminate|]. rewrite R. apply mael_over; assumption. Qed.

(** ** Safety *)
Definition guarded {A} (p q : prog (res A)) (ok : A -> Prop) (s : rbuf) : Prop :=
  (exists s', exec q s = Done (Er E_MAE, s')) \/
  (exec q s = exec p s /\ match exec p s with Done (Ok a, s') => ok a /\ wf s' | Done (Er _, _) => False | Jmp _ => True | UB _ => False end).

Lemma guarded_of {A} (p q : prog (res A)) (ok : A -> Prop) s : agree p q -> wp q (fun r => match r with Ok a => ok a | Er e => e = E_MAE end) -> wf s -> guarded p q ok s.
Proof.
  intros H HW W. pose proof (wp_exec _ _ s HW W) as X. destruct (H s) as [E|E]; [|left; exact E].
  destruct (exec q s) as [[[a|e] s']| |] eqn:Q.
  - right. split; [congruence|]. rewrite <- E. destruct X as (X1 & X2 & _). auto.
  - left. destruct X as (-> & _). exists s'. exact Q.
  - right. split; [congruence|]. rewrite <- E. exact I.
  - destruct X.
Qed.

(** A program that first reads [i] bits it ignores, then the field. *)
Lemma runA_rd_at {A} n (k : Z -> prog A) l m : 0 <= n <= 24 ->
  runA (bind (rd n) k) (skipn m l) = Jmp INSUFFICIENT_INPUT_BYTES \/
  runA (bind (rd n) k) (skipn m l) = runA (k (field_at l m (Z.to_nat n))) (skipn (m + Z.to_nat n) l).
Proof.
  intros H. unfold rd. cbn [bind runA]. replace ((n <? 0) || (24 <? n)) with false by lia.
  destruct (Z.of_nat (length (skipn m l)) <? n); [left; reflexivity|right]. rewrite skipn_skipn. reflexivity.
Qed.

Lemma not_refused {A} (p q : prog (res A)) (ok : A -> Prop) s : agree p q -> wp q (fun r => match r with Ok a => ok a | Er e => e = E_MAE end) -> wf s ->
  (forall l', runA q (rest_bits s) <> Done (Er E_MAE, l')) ->
  match exec p s with Done (Ok a, s') => ok a /\ wf s' | Done (Er _, _) => False | Jmp _ => True | UB _ => False end.
Proof.
  intros H HW W N. destruct (guarded_of p q ok s H HW W) as [(s' & E)|(E & X)]; [|exact X]. exfalso. pose proof (exec_refines q s W) as X. pose proof (wp_runA _ _ HW (rest_bits s)) as Y. unfold agrees in X.
  destruct (runA q (rest_bits s)) as [[a l]|c|r] eqn:Q.
  - destruct X as (s1 & X & _ & R). rewrite E in X. injection X as <- <-. apply (N _ eq_refl).
  - rewrite E in X. discriminate X.
  - destruct Y.
Qed.

Definition never {A} (p : prog (res A)) : Prop := forall l l', runA p l <> Done (Er E_MAE, l').
Lemma never_bind {A B} (p : prog A) (k : A -> prog (res B)) : (forall a, never (k a)) -> never (bind p k).
Proof. intros H l l'. rewrite runA_bind. destruct (runA p l) as [[a l1]| |]; [apply H|discriminate|discriminate]. Qed.
Lemma never_ok {A} (a : A) : never (Ret (Ok a)).
Proof. intros l l'. cbn [runA]. discriminate. Qed.

Ltac at_ := match goal with |- runA (bind (rd ?n) ?k) (skipn ?m ?l) <> _ =>
  destruct (runA_rd_at n k l m ltac:(lia)) as [E|E]; rewrite E; clear E; [discriminate|]; cbv beta end.

Lemma groups_safe arr s : wf s -> groups_shape arr -> field_at (rest_bits s) 9 7 <= 16 ->
  match exec (maeg false arr) s with Done (Ok (_, _, a), s') => groups_shape a /\ wf s' | Done (Er _, _) => False | Jmp _ => True | UB _ => False end.
Proof.
  intros W S0 H. assert (HW : wp (maeg true arr) (fun r => match r with Ok a => groups_shape (snd a) | Er e => e = E_MAE end)) by (eapply wp_mono; [|apply (wp_maeg arr S0)]; intros [[[? ?] ?]|?]; cbn; tauto).
  pose proof (not_refused _ _ _ s (agree_maeg arr) HW W) as X.
  assert (N : forall l', runA (maeg true arr) (rest_bits s) <> Done (Er E_MAE, l')).
  { intros l'. unfold maeg. change (rest_bits s) with (skipn 0 (rest_bits s)). at_. at_. at_. change (0 + Z.to_nat 8 + Z.to_nat 1)%nat with 9%nat. change (Z.to_nat 7) with 7%nat.
    unfold guard. cbn [andb]. replace (16 <? field_at (rest_bits s) 9 7) with false by lia. apply never_bind; intro. apply never_bind; intro. apply never_bind; intro. apply never_ok. }
  specialize (X N). destruct (exec (maeg false arr) s) as [[[[[? ?] ?]|?] ?]| |]; exact X.
Qed.

Lemma switches_safe arr s : wf s -> switches_shape arr -> field_at (rest_bits s) 1 7 <= 8 ->
  match exec (maes false arr) s with Done (Ok (_, a), s') => switches_shape a /\ wf s' | Done (Er _, _) => False | Jmp _ => True | UB _ => False end.
Proof.
  intros W S0 H. assert (HW : wp (maes true arr) (fun r => match r with Ok a => switches_shape (snd a) | Er e => e = E_MAE end)) by (eapply wp_mono; [|apply (wp_maes arr S0)]; intros [[? ?]|?]; cbn; tauto).
  pose proof (not_refused _ _ _ s (agree_maes arr) HW W) as X.
  assert (N : forall l', runA (maes true arr) (rest_bits s) <> Done (Er E_MAE, l')).
  { intros l'. unfold maes. change (rest_bits s) with (skipn 0 (rest_bits s)). at_. at_. change (0 + Z.to_nat 1)%nat with 1%nat. change (Z.to_nat 7) with 7%nat.
    unfold guard. cbn [andb]. replace (8 <? field_at (rest_bits s) 1 7) with false by lia. apply never_bind; intro. apply never_ok. }
  specialize (X N). destruct (exec (maes false arr) s) as [[[[? ?]|?] ?]| |]; exact X.
Qed.

Lemma descriptions_safe g d p s : wf s -> desc_shape g -> desc_shape d -> desc_shape p -> field_at (rest_bits s) 33 7 < 127 ->
  match exec (mael false g d p) s with Done (Ok (g', d', p'), s') => desc_shape g' /\ desc_shape d' /\ desc_shape p' /\ wf s' | Done (Er _, _) => False | Jmp _ => True | UB _ => False end.
Proof.
  intros W Sg Sd Sp H. assert (HW : wp (mael true g d p) (fun r => match r with Ok a => desc_shape (fst (fst a)) /\ desc_shape (snd (fst a)) /\ desc_shape (snd a) | Er e => e = E_MAE end)) by (eapply wp_mono; [|apply (wp_mael g d p Sg Sd Sp)]; intros [[[? ?] ?]|?]; cbn; tauto).
  pose proof (not_refused _ _ _ s (agree_mael g d p) HW W) as X.
  assert (N : forall l', runA (mael true g d p) (rest_bits s) <> Done (Er E_MAE, l')).
  { intros l'. unfold mael. change (rest_bits s) with (skipn 0 (rest_bits s)). at_. at_. at_. at_. at_. change (0 + Z.to_nat 4 + Z.to_nat 4 + Z.to_nat 24 + Z.to_nat 1)%nat with 33%nat. change (Z.to_nat 7) with 7%nat.
    unfold guard. cbn [andb]. replace (128 <=? field_at (rest_bits s) 33 7 + 1) with false by lia.
    do 5 (apply never_bind; intro). apply never_bind; intro. apply never_bind; intro. repeat (apply never_bind; intro). apply never_ok. }
  specialize (X N). destruct (exec (mael false g d p) s) as [[[[[? ?] ?]|?] ?]| |]; cbn [fst snd] in X; try exact X. tauto.
Qed.

Lemma presets_safe arr s : wf s -> presets_shape arr ->
  (exists s', exec (maep true arr) s = Done (Er E_MAE, s')) \/
  (exec (maep true arr) s = exec (maep false arr) s /\
   match exec (maep false arr) s with Done (Ok (_, a), s') => presets_shape a /\ wf s' | Done (Er _, _) => False | Jmp _ => True | UB _ => False end).
Proof.
  intros W S0. assert (HW : wp (maep true arr) (fun r => match r with Ok a => presets_shape (snd a) | Er e => e = E_MAE end)) by (eapply wp_mono; [|apply (wp_maep arr S0)]; intros [[? ?]|?]; cbn; tauto).
  destruct (guarded_of _ _ _ s (agree_maep arr) HW W) as [E|(E & X)]; [left; exact E|right].
  split; [exact E|]. destruct (exec (maep false arr) s) as [[[[? ?]|?] ?]| |]; exact X.
Qed.
