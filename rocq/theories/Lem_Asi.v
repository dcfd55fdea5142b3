(** * Lem_Asi: invariants of the audio scene parser *)

From Coq Require Import ZArith List Lia Bool.
From Verif Require Import Bits BitBuf Prog Asi Wp Spec_Asi.
Import ListNotations.
Open Scope Z_scope.

Lemma s8_range v : -128 <= s8 v < 128.
Proof. unfold s8. assert (H := to_s_range 8 v ltac:(lia)). change (2 ^ (8 - 1)) with 128 in H. lia. Qed.

Lemma s8_small v : 0 <= v < 128 -> s8 v = v.
Proof. intros. unfold s8. apply to_s_id; cbn; lia. Qed.

(** ** No undefined behaviour and shape preservation *)

Lemma wp_read_members n mem (Q : list Z -> Prop) :
  n <= Z.of_nat (length mem) ->
  (forall m, length m = length mem -> Q m) -> wp (read_members n mem) Q.
Proof.
  intros Hn HQ. unfold read_members.
  apply (wp_for (fun _ m => length m = length mem)); auto.
  intros j t Hj Ht. wps. apply wp_aset; [lia|]. rewrite aset_length; lia.
Qed.

Definition ginv (i : nat) (arr : list gdef) : Prop :=
  length arr = 16%nat /\ Forall (fun g => length (g_mem g) = 128%nat) arr /\
  NoDup (map g_id (firstn i arr)) /\ Forall (fun g => g_num g <= 128) (firstn i arr).

Lemma wp_group_def_one i arr (E : Z -> Prop) :
  E E_GRP_ID -> (i < 16)%nat -> ginv i arr ->
  wp (group_def_one (Z.of_nat i) arr)
     (fun r => match r with Ok a => ginv (S i) a | Er c => E c end).
Proof.
  intros HE Hi (L & M & N & C). unfold group_def_one.
  apply wp_bindi, wp_aget; [lia|]. intros g0 Hg0. rewrite Nat2Z.id in *.
  assert (Lm : length (g_mem g0) = 128%nat).
  { apply nth_error_In in Hg0. rewrite Forall_forall in M. apply M, Hg0. }
  apply wp_bindi. wp1. destruct (existsb _ _) eqn:EX; [wps; exact HE|].
  apply existsb_false_notin in EX.
  assert (FIN : forall g1, g_id g1 = v -> length (g_mem g1) = 128%nat -> g_num g1 <= 128 ->
      ginv (S i) (firstn i arr ++ g1 :: skipn (S i) arr)).
  { intros g1 Hid Hm Hc. split; [|split; [|split]].
    - rewrite aset_len; lia.
    - apply Forall_aset; auto.
    - rewrite firstn_aset by lia. rewrite map_app. cbn [map]. rewrite Hid. apply NoDup_snoc; auto.
    - rewrite firstn_aset by lia. apply Forall_app. auto. }
  assert (SET : forall g1, g_id g1 = v -> length (g_mem g1) = 128%nat -> g_num g1 <= 128 ->
     wp (arr' <- aset arr (Z.of_nat i) g1;; Ret (Ok arr'))
        (fun r => match r with Ok a => ginv (S i) a | Er c => E c end)).
  { intros g1 H1 H2 H3. apply wp_bindi, wp_aset; [lia|]. rewrite Nat2Z.id. wps. auto. }
  clear FIN.
  repeat first [ apply SET; [reflexivity|auto|cbn [g_num]; match goal with |- s8 ?x <= _ => pose proof (s8_range x); lia end]
               | lazymatch goal with |- wp (read_members _ _) _ =>
                   apply wp_read_members; [pose proof (s8_range (s8 v3 + 1)); rewrite Lm;
                     match goal with |- s8 ?x <= _ => pose proof (s8_range x); lia end
                   | intros; cbv beta] end
               | wp1 | congruence ].
  all: cbn [g_mem]; try congruence.
Qed.

Lemma wp_group_defs n arr (Q : res (list gdef) -> Prop) :
  (n <= 16)%nat -> ginv 0 arr ->
  (forall a, ginv n a -> Q (Ok a)) -> (Q (Er E_GRP_ID)) ->
  wp (group_defs n arr) Q.
Proof.
  intros Hn HI HQ HE. unfold group_defs.
  apply (wp_forR ginv (fun c => Q (Er c))); auto.
  intros j t Hj Ht. apply wp_group_def_one; auto. lia.
Qed.

Definition sinv (i : nat) (arr : list sdef) : Prop :=
  length arr = 8%nat /\ Forall (fun g => length (s_mem g) = 32%nat) arr /\
  NoDup (map s_id (firstn i arr)) /\ Forall (fun g => 1 <= s_num g <= 32) (firstn i arr).

Lemma wp_switch_defs n arr (Q : res (list sdef) -> Prop) :
  (n <= 8)%nat -> sinv 0 arr ->
  (forall a, sinv n a -> Q (Ok a)) -> (Q (Er E_GRP_ID)) ->
  wp (switch_defs n arr) Q.
Proof.
  intros Hn HI HQ HE. unfold switch_defs.
  apply (wp_forR sinv (fun c => Q (Er c))); auto.
  intros i t Hi (L & M & N & C). unfold switch_def_one.
  apply wp_bindi, wp_aget; [lia|]. intros g0 Hg0. rewrite Nat2Z.id in *.
  assert (Lm : length (s_mem g0) = 32%nat).
  { apply nth_error_In in Hg0. rewrite Forall_forall in M. apply M, Hg0. }
  apply wp_bindi. wp1. destruct (existsb _ _) eqn:EX; [wps; exact HE|].
  apply existsb_false_notin in EX.
  assert (SET : forall g1, s_id g1 = v -> length (s_mem g1) = 32%nat -> 1 <= s_num g1 <= 32 ->
     wp (arr' <- aset t (Z.of_nat i) g1;; Ret (Ok arr'))
        (fun r => match r with Ok a => sinv (S i) a | Er c => Q (Er c) end)).
  { intros g1 Hid Hm Hc. apply wp_bindi, wp_aset; [lia|]. rewrite Nat2Z.id. wps. split; [|split; [|split]].
    - rewrite aset_len; lia.
    - apply Forall_aset; auto.
    - rewrite firstn_aset by lia. rewrite map_app. cbn [map]. rewrite Hid. apply NoDup_snoc; auto.
    - rewrite firstn_aset by lia. apply Forall_app. auto. }
  repeat first [ apply SET; [reflexivity|auto|cbn [s_num]; lia]
               | lazymatch goal with |- wp (read_members _ _) _ =>
                   apply wp_read_members; [lia|intros; cbv beta] end
               | wp1 | congruence ].
  all: cbn [s_mem]; try congruence.
Qed.

(** Presets: the check made against the group with the preset's own index. *)
Definition cond_ok (g : gdef) (c : pcond) : Prop :=
  z2b (c_on c) = true ->
  (z2b (c_gainflag c) = true -> z2b (g_gain g) = true) /\
  (z2b (c_posflag c) = true -> z2b (g_pos g) = true).

Definition pinv (gs : list gdef) (i : nat) (arr : list pdef) : Prop :=
  length arr = 8%nat /\ Forall (fun p => length (p_conds p) = 16%nat) arr /\
  NoDup (map p_id (firstn i arr)) /\
  (forall j p g, (j < i)%nat -> nth_error arr j = Some p -> nth_error gs j = Some g ->
     1 <= p_num p <= 16 /\ Forall (cond_ok g) (firstn (Z.to_nat (p_num p)) (p_conds p))).

Lemma wp_cond_one g i cs (E : Z -> Prop) :
  E E_PRESET_DEF -> (i < 16)%nat -> length cs = 16%nat -> Forall (cond_ok g) (firstn i cs) ->
  wp (cond_one (g_gain g) (g_pos g) (Z.of_nat i) cs)
     (fun r => match r with
               | Ok a => length a = 16%nat /\ Forall (cond_ok g) (firstn (S i) a)
               | Er c => E c end).
Proof.
  intros HE Hi L F. unfold cond_one.
  apply wp_bindi, wp_aget; [lia|]. intros c0 _.
  assert (SET : forall c1, cond_ok g c1 ->
     wp (arr' <- aset cs (Z.of_nat i) c1;; Ret (Ok arr'))
        (fun r => match r with
               | Ok a => length a = 16%nat /\ Forall (cond_ok g) (firstn (S i) a)
               | Er c => E c end)).
  { intros c1 Hc. apply wp_bindi, wp_aset; [lia|]. rewrite Nat2Z.id. wps. split.
    - rewrite aset_len; lia.
    - rewrite firstn_aset by lia. apply Forall_app. auto. }
  repeat first [ exact HE | apply SET | wp1 ].
  all: unfold cond_ok, z2b; cbn [c_on c_gainflag c_posflag].
  all: repeat match goal with H : _ = true |- _ => revert H | H : _ = false |- _ => revert H end.
  all: repeat match goal with |- context [?a =? 0] => destruct (a =? 0) end; cbn; intros; try discriminate; auto.
Qed.

Lemma wp_preset_defs gs n arr (Q : res (list pdef) -> Prop) :
  length gs = 16%nat -> (n <= 8)%nat -> pinv gs 0 arr ->
  (forall a, pinv gs n a -> Q (Ok a)) -> (forall e, e <> 0 -> Q (Er e)) ->
  wp (preset_defs gs n arr) Q.
Proof.
  intros LG Hn HI HQ HE. unfold preset_defs.
  apply (wp_forR (pinv gs) (fun c => Q (Er c))); auto.
  intros i t Hi (L & M & N & B). unfold preset_def_one.
  apply wp_bindi, wp_aget; [lia|]. intros p0 Hp0. rewrite Nat2Z.id in *.
  assert (Lm : length (p_conds p0) = 16%nat).
  { apply nth_error_In in Hp0. rewrite Forall_forall in M. apply M, Hp0. }
  apply wp_bindi. wp1. destruct (existsb _ _) eqn:EX; [wps; apply HE; discriminate|].
  apply existsb_false_notin in EX.
  apply wp_bindi. wp1. apply wp_bindi. wp1. cbv zeta.
  destruct (16 <? v1 + 1) eqn:E16; [apply Z.ltb_lt in E16; lia|].
  apply wp_bindi, wp_aget; [lia|]. intros g Hg. rewrite Nat2Z.id in Hg.
  apply wp_bindi.
  apply (wp_forR (fun j cs => length cs = 16%nat /\ Forall (cond_ok g) (firstn j cs)) (fun c => Q (Er c))).
  - split; [exact Lm|constructor].
  - intros j cs Hj (L1 & F1). apply wp_cond_one; auto; [apply HE; discriminate|lia].
  - intros cs (L1 & F1). cbn beta iota. apply wp_bindi, wp_aset; [lia|].
    rewrite Nat2Z.id. wps. rewrite Nat.add_0_l in F1. split; [|split; [|split]].
    + rewrite aset_len; lia.
    + apply Forall_aset; auto.
    + rewrite firstn_aset by lia. rewrite map_app. apply NoDup_snoc; auto.
    + intros j p g' Hj Hp Hg'.
      destruct (Nat.eq_dec j i) as [->|Hne].
      * rewrite nth_aset_eq in Hp by lia. inversion Hp; subst p. cbn [p_num p_conds].
        rewrite Hg in Hg'. inversion Hg'; subst g'. split; [lia|exact F1].
      * assert (Hp' : nth_error t j = Some p).
        { rewrite nth_error_app1 in Hp by (rewrite firstn_length; lia).
          rewrite <- (firstn_skipn i t). rewrite nth_error_app1 by (rewrite firstn_length; lia). exact Hp. }
        apply (B j p g'); auto. lia.
  - intros c Hc. exact Hc.
Qed.

(** Data blocks are memory safe. *)
Lemma wp_forP_app {A} (body : nat -> list A -> prog (list A)) (Q : list A -> Prop) n :
  (forall j t, (j < n)%nat -> wp (body j t) (fun _ => True)) -> (forall t, Q t) ->
  wp (forP n 0 body []) Q.
Proof.
  intros HB HQ. apply (wp_for (fun _ _ => True)); auto. intros j t Hj _. apply HB. lia.
Qed.

Lemma wp_descr_lang blk cnt (Q : Z * list Z -> Prop) :
  0 <= blk < 128 -> 0 <= cnt < 4 -> (forall r, Q r) -> wp (descr_lang blk cnt) Q.
Proof.
  intros H1 H2 HQ. unfold descr_lang. wps.
  pose proof (s8_range (s8 v0 + 1)).
  apply wp_forP_app; [|intros; wps; apply HQ].
  intros j t Hj. wps. exact I.
Qed.

Lemma wp_description_data idbits (Q : res (list (Z * list (Z * list Z))) -> Prop) :
  0 <= idbits <= 24 -> (forall r, Q r) -> wp (description_data idbits) Q.
Proof.
  intros Hb HQ. unfold description_data. wps; auto.
  apply Z.ltb_ge in E.
  apply (wp_forR (fun _ _ => True) (fun _ => True)); auto.
  intros j t Hj _. apply wp_bindi. unfold descr_blk. wps; auto.
  - apply Z.ltb_ge in E0. apply wp_forP_app.
    + intros k u Hk. wps. apply wp_descr_lang; [lia|lia|]. intros. wps. exact I.
    + intros. wps. exact I.
Qed.

Lemma wp_data_block gs ngrp npre nc0 seen ty len :
  length gs = 16%nat -> (ngrp <= 16)%nat -> (npre <= 8)%nat -> (npre <> 0%nat -> nc0 <= 16) ->
  wp (data_block gs ngrp npre nc0 seen ty len)
     (fun r => match r with
               | Ok _ => ty < 10 -> 0 <= ty -> ~ In ty seen
               | Er _ => True end).
Proof.
  intros LG H1 H2 H3. unfold data_block.
  assert (ONCE : forall p, wp p (fun _ => True) ->
    wp (if existsb (Z.eqb ty) seen then Ret (Er E_ASI_PARSE) else p)
     (fun r : res unit => match r with
               | Ok _ => ty < 10 -> 0 <= ty -> ~ In ty seen
               | Er _ => True end)).
  { intros p Hp. destruct (existsb (Z.eqb ty) seen) eqn:EX; [wps; exact I|].
    eapply wp_mono; [|exact Hp]. intros [u|e] _; auto. intros _ _ HIn.
    assert (X : existsb (Z.eqb ty) seen = true) by (apply existsb_exists; exists ty; split; auto; apply Z.eqb_refl).
    congruence. }
  destruct (Z.eqb_spec ty 9).
  { apply ONCE. unfold loudness_comp. wps; auto; try exact I.
    all: repeat first [apply wp_for_unit; [intros|] | wp1 | exact I | lia]. }
  destruct (Z.eqb_spec ty 8).
  { apply ONCE. unfold preset_ext. apply wp_forR_unit; auto. intros grp Hg. unfold preset_ext_one.
    wps; auto; try exact I.
    all: repeat first [ apply wp_for_unit; [intros|]
                      | apply wp_forR_unit; [intros|auto]
                      | apply wp_aget; [lia|intros]
                      | progress unfold ext_cond_one
                      | wp1 | exact I | lia
                      | match goal with H : (8 <? _) = false |- _ => apply Z.ltb_ge in H end ]. }
  destruct (Z.eqb_spec ty 7).
  { apply ONCE. unfold screen_sz_ext. wps; auto; try exact I.
    all: repeat first [apply wp_for_unit; [intros|] | wp1 | exact I | lia]. }
  destruct (Z.eqb_spec ty 6).
  { apply ONCE. unfold drc_ui. wps; auto; try exact I.
    apply wp_forP_app; [|intros; wps; exact I]. intros j t Hj. wps. exact I. }
  destruct (Z.eqb_spec ty 5).
  { apply ONCE. apply wp_bindi, wp_description_data; [lia|]. intros; wps; exact I. }
  destruct (Z.eqb_spec ty 4).
  { apply ONCE. unfold screen_sz. wps; exact I. }
  destruct (Z.eqb_spec ty 3).
  { apply ONCE. unfold composite_pair. wps.
    apply wp_forP_app; [|intros; wps; exact I]. intros j t Hj. wps. exact I. }
  destruct (Z.eqb_spec ty 2).
  { apply ONCE. unfold content_data. wps.
    apply wp_forP_app; [|intros; wps; exact I]. intros j t Hj. wps; exact I. }
  destruct (Z.eqb_spec ty 1).
  { apply ONCE. apply wp_bindi, wp_description_data; [lia|]. intros; wps; exact I. }
  destruct (Z.eqb_spec ty 0).
  { apply ONCE. apply wp_bindi, wp_description_data; [lia|]. intros; wps; exact I. }
  wps. apply wp_for_unit; [intros; wps; exact I|]. wps. lia.
Qed.

(** Types listed: every known type at most once. *)
Definition known (tys : list Z) : list Z := filter (fun t => t <? 10) tys.

Lemma wp_asi_data gs ngrp npre nc0 (Q : res (list Z) -> Prop) :
  length gs = 16%nat -> (ngrp <= 16)%nat -> (npre <= 8)%nat -> (npre <> 0%nat -> nc0 <= 16) ->
  (forall tys, NoDup (known tys) -> (length tys <= 15)%nat -> Q (Ok tys)) -> (forall e, Q (Er e)) ->
  wp (asi_data gs ngrp npre nc0) Q.
Proof.
  intros LG H1 H2 H3 HQ HE. unfold asi_data. apply wp_bindi. wp1.
  apply (wp_forR (fun i t => NoDup (known t) /\ length t = i) (fun _ => True)).
  - split; [constructor|reflexivity].
  - intros i t Hi (N & L). apply wp_bindi, wp_chk; [lia|]. apply wp_bindi. wp1. apply wp_bindi. wp1.
    apply wp_bindi. apply wp_framed. eapply wp_mono; [|apply wp_data_block; auto].
    intros [u|e] Hr; [|exact I]. wps. split.
    + unfold known. rewrite filter_app. cbn [filter].
      destruct (Z.ltb_spec v0 10); [|rewrite app_nil_r; exact N].
      apply NoDup_snoc; [exact N|]. intros HIn. apply filter_In in HIn as [HIn _].
      apply Hr; auto. lia.
    + rewrite app_length. cbn. lia.
  - intros t (N & L). apply HQ; [exact N|]. lia.
  - auto.
Qed.

(** ** The whole scene *)
Definition scene_inv (a : asi) : Prop :=
  shape a /\
  0 <= a_ng a <= 16 /\ 0 <= a_ns a <= 8 /\ 0 <= a_np a <= 8 /\
  NoDup (map g_id (active_groups a)) /\
  NoDup (map s_id (active_switch a)) /\
  NoDup (map p_id (active_presets a)) /\
  Forall (fun g => g_num g <= 128) (active_groups a) /\
  Forall (fun g => 1 <= s_num g <= 32) (active_switch a) /\
  NoDup (known (a_types a)) /\ (length (a_types a) <= 15)%nat /\
  (forall j p g, (j < Z.to_nat (a_np a))%nat -> nth_error (a_presets a) j = Some p ->
     nth_error (a_groups a) j = Some g ->
     1 <= p_num p <= 16 /\ Forall (cond_ok g) (firstn (Z.to_nat (p_num p)) (p_conds p))).

Lemma wp_asi_parse a :
  shape a ->
  wp (asi_parse a) (fun r => match r with
    | Er _ => True
    | Ok a' => (a_main a' = 1 /\ scene_inv a') \/
               (a_main a' = 0 /\ a_ng a' = a_ng a /\ a_groups a' = a_groups a /\
                a_ns a' = a_ns a /\ a_switch a' = a_switch a /\
                a_np a' = a_np a /\ a_presets a' = a_presets a /\ a_types a' = a_types a)
    end).
Proof.
  intros (G1 & G2 & S1 & S2 & P1 & P2). unfold asi_parse.
  apply wp_bindi. wp1. destruct (Z.eqb_spec v 0) as [->|Hm].
  { wps. right. cbn. repeat split; reflexivity. }
  assert (v = 1) as -> by lia. clear Hm.
  apply wp_bindi. wp1. apply wp_bindi.
  assert (K : forall id, wp
  (ng <- rd 7;;
   (if 16 <? ng then Ret (Er E_NUM_GROUP) else
    r1 <- group_defs (Z.to_nat ng) (a_groups a) ;;
    match r1 with
    | Er e => Ret (Er e)
    | Ok gs =>
      ns <- rd 5 ;;
      if 8 <? ns then Ret (Er E_NUM_SWITCH_GROUPS) else
      r2 <- switch_defs (Z.to_nat ns) (a_switch a) ;;
      match r2 with
      | Er e => Ret (Er e)
      | Ok ss =>
        np <- rd 5 ;;
        if 8 <? np then Ret (Er E_NUM_PRESETS) else
        r3 <- preset_defs gs (Z.to_nat np) (a_presets a) ;;
        match r3 with
        | Er e => Ret (Er e)
        | Ok ps =>
          p0 <- aget ps 0 ;;
          r4 <- asi_data gs (Z.to_nat ng) (Z.to_nat np) (p_num p0) ;;
          match r4 with
          | Er e => Ret (Er e)
          | Ok tys =>
            m <- rd 7 ;;
            Ret (Ok (mkA 1 v id ng gs ns ss np ps tys 0 m))
          end
        end
      end
    end)) (fun r => match r with
    | Er _ => True
    | Ok a' => (a_main a' = 1 /\ scene_inv a') \/
               (a_main a' = 0 /\ a_ng a' = a_ng a /\ a_groups a' = a_groups a /\
                a_ns a' = a_ns a /\ a_switch a' = a_switch a /\
                a_np a' = a_np a /\ a_presets a' = a_presets a /\ a_types a' = a_types a)
    end)).
  2:{ destruct (v =? 0); wp1; apply K. }
  intros id. apply wp_bindi. wp1. destruct (Z.ltb_spec 16 v0); [wps; exact I|].
  apply wp_bindi, wp_group_defs; [lia| |intros gs (GL & GM & GN & GC)|wps; exact I].
  { split; [|split; [|split]]; auto; constructor. }
  apply wp_bindi. wp1. destruct (Z.ltb_spec 8 v1); [wps; exact I|].
  apply wp_bindi, wp_switch_defs; [lia| |intros ss (SL & SM & SN & SC)|wps; exact I].
  { split; [|split; [|split]]; auto; constructor. }
  apply wp_bindi. wp1. destruct (Z.ltb_spec 8 v2); [wps; exact I|].
  apply wp_bindi, wp_preset_defs; [auto|lia| |intros ps (PL & PM & PN & PB)|intros; wps; exact I].
  { repeat split; auto; try constructor; intros; lia. }
  apply wp_bindi, wp_aget; [lia|]. intros p0 Hp0.
  apply wp_bindi, wp_asi_data; [auto|lia|lia| |intros tys TN TL|intros; wps; exact I].
  { intros Hnp. destruct (nth_error_Some_ex gs 0) as [g0 Hg0]; [lia|].
    destruct (PB 0%nat p0 g0); auto; lia. }
  wps. left. split; [reflexivity|]. unfold scene_inv, shape, active_groups, active_switch, active_presets.
  cbn [a_ng a_ns a_np a_groups a_switch a_presets a_types].
  repeat split; auto; try lia; apply (PB j p g); auto.
Qed.
