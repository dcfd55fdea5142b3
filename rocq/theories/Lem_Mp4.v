(** * Lem_Mp4: the scene boxes of an MP4 file *)
From Coq Require Import ZArith List Lia Bool ZifyBool.
From Verif Require Import Bits BitBuf Prog Asi Wp Frame Spec_Asi Lem_Asi Lem_AsiRT Mp4 Spec_Mp4 Lem_DrcGain Leaf.
Import ListNotations.
Open Scope Z_scope.

(** ** Tables *)
Lemma nth_error_ext {A} : forall (l m : list A), (forall k, nth_error l k = nth_error m k) -> l = m.
Proof.
  induction l as [|a l IH]; intros [|b m] H; [reflexivity|specialize (H 0%nat); discriminate|specialize (H 0%nat); discriminate|].
  f_equal; [specialize (H 0%nat); injection H; auto|]. apply IH. intros k. exact (H (S k)).
Qed.

Lemma upd_len {A} (l : list A) i a : (i < length l)%nat -> length (upd l i a) = length l.
Proof. apply upd_length. Qed.

Lemma tab_rt {C X} (bd : nat -> list C -> prog (list C)) (enc : X -> list bool) (R : C -> X -> C -> Prop) (ok : X -> Prop) (G : C -> Prop) :
  (forall i arr x rest old, ok x -> nth_error arr i = Some old -> G old ->
     exists c, R old x c /\ runA (bd i arr) (enc x ++ rest) = Done (upd arr i c, rest)) ->
  forall ms i arr rest, Forall ok ms -> Forall G arr -> (i + length ms <= length arr)%nat ->
  exists arr', runA (forP (length ms) i bd arr) (flat_map enc ms ++ rest) = Done (arr', rest) /\ length arr' = length arr /\
    (forall k x, nth_error ms k = Some x -> exists old c, nth_error arr (i + k) = Some old /\ nth_error arr' (i + k) = Some c /\ R old x c) /\
    (forall k, (k < i \/ i + length ms <= k)%nat -> nth_error arr' k = nth_error arr k).
Proof.
  intros HB ms. enough (H : forall i arr rest, Forall ok ms -> (forall k c, (i <= k)%nat -> nth_error arr k = Some c -> G c) -> (i + length ms <= length arr)%nat ->
  exists arr', runA (forP (length ms) i bd arr) (flat_map enc ms ++ rest) = Done (arr', rest) /\ length arr' = length arr /\
    (forall k x, nth_error ms k = Some x -> exists old c, nth_error arr (i + k) = Some old /\ nth_error arr' (i + k) = Some c /\ R old x c) /\
    (forall k, (k < i \/ i + length ms <= k)%nat -> nth_error arr' k = nth_error arr k)).
  { intros i arr rest H1 H2 H3. apply H; auto. intros k c _ E. rewrite Forall_forall in H2. apply H2. apply (nth_error_In _ _ E). }
  induction ms as [|x ms IH]; intros i arr rest HO HG HL.
  - exists arr. split; [reflexivity|]. split; [reflexivity|]. split; [intros [|k] x H; discriminate|reflexivity].
  - inversion HO as [|? ? Ox OM]; subst. cbn [length] in HL. destruct (nth_error arr i) as [old|] eqn:E; [|apply nth_error_None in E; lia].
    cbn [length flat_map forP]. rewrite <- app_assoc. destruct (HB i arr x (flat_map enc ms ++ rest) old Ox E (HG i old ltac:(lia) E)) as (c & Rc & RR).
    rewrite runA_bind, RR. assert (LU : length (upd arr i c) = length arr) by (apply upd_length; lia).
    destruct (IH (S i) (upd arr i c) rest OM) as (arr' & R' & L' & N' & K').
    { intros k d Hk Ek. rewrite upd_nth in Ek by lia. destruct (Nat.eqb_spec k i); [lia|]. apply (HG k d); [lia|exact Ek]. }
    { lia. }
    exists arr'. split; [exact R'|]. split; [lia|]. split.
    + intros [|k] y Ey.
      * injection Ey as <-. exists old, c. rewrite Nat.add_0_r. split; [exact E|]. split; [|exact Rc].
        rewrite K' by lia. rewrite upd_nth, Nat.eqb_refl by lia. reflexivity.
      * destruct (N' k y Ey) as (o & d & E1 & E2 & E3). exists o, d. replace (i + S k)%nat with (S i + k)%nat by lia.
        split; [|split; [exact E2|exact E3]]. rewrite <- E1. rewrite upd_nth by lia. destruct (Nat.eqb_spec (S i + k) i); [lia|reflexivity].
    + intros k Hk. rewrite K' by lia. rewrite upd_nth by lia. destruct (Nat.eqb_spec k i); [lia|reflexivity].
Qed.

Lemma tab_ub {C X} (bd : nat -> list C -> prog (list C)) (enc : X -> list bool) (ok : X -> Prop) (G : C -> Prop) :
  (forall i arr x rest old, ok x -> nth_error arr i = Some old -> G old ->
     exists c, G c /\ runA (bd i arr) (enc x ++ rest) = Done (upd arr i c, rest)) ->
  (forall i arr x rest, ok x -> (length arr <= i)%nat -> runA (bd i arr) (enc x ++ rest) = UB UOob) ->
  forall ms i arr rest, Forall ok ms -> Forall G arr -> (i <= length arr < i + length ms)%nat ->
  runA (forP (length ms) i bd arr) (flat_map enc ms ++ rest) = UB UOob.
Proof.
  intros HB HU. induction ms as [|x ms IH]; intros i arr rest HO HG HL; cbn [length] in HL; [lia|].
  inversion HO as [|? ? Ox OM]; subst. cbn [length flat_map forP]. rewrite <- app_assoc, runA_bind. destruct (Nat.eq_dec i (length arr)) as [->|].
  - rewrite HU by (auto; lia). reflexivity.
  - destruct (nth_error arr i) as [old|] eqn:E; [|apply nth_error_None in E; lia].
    assert (Go : G old) by (rewrite Forall_forall in HG; apply HG; apply (nth_error_In _ _ E)).
    destruct (HB i arr x (flat_map enc ms ++ rest) old Ox E Go) as (c & Gc & ->). apply IH; auto.
    + rewrite Forall_forall in *. intros y Hy. apply In_nth_error in Hy. destruct Hy as (k & Hk). rewrite upd_nth in Hk by lia.
      destruct (Nat.eqb k i); [injection Hk as <-; exact Gc|apply HG; apply (nth_error_In _ _ Hk)].
    + rewrite upd_length by lia. lia.
Qed.

(** ** Groups *)
Ltac rp := unfold pad; repeat (rdf).

Lemma aget_out {A} (l : list A) i : (length l <= i)%nat -> aget l (Z.of_nat i) = Undef UOob.
Proof. intros H. unfold aget. replace (0 <=? Z.of_nat i) with true by lia. rewrite Nat2Z.id. destruct (nth_error l i) eqn:E; [|reflexivity]. assert (i < length l)%nat by (apply nth_error_Some; congruence). lia. Qed.
Lemma aset_out {A} (l : list A) i v : (length l <= i)%nat -> aset l (Z.of_nat i) v = Undef UOob.
Proof. intros H. unfold aset. replace ((0 <=? Z.of_nat i) && (Z.of_nat i <? Z.of_nat (length l))) with false by lia. reflexivity. Qed.

Definition keeps (old : gdef) (b : bgroup) (c : gdef) : Prop :=
  same_group (view_group c) (bg_group b) /\ g_num c = 2 /\ g_conj c = 1 /\ g_start c = g_start old /\ g_mem c = g_mem old.

Lemma grp_one_rt i arr b rest old : valid_bgroup b -> nth_error arr i = Some old ->
  exists c, keeps old b c /\ runA (grp_one i arr) (box_group b ++ rest) = Done (upd arr i c, rest).
Proof.
  intros (V1 & V2 & V3 & V4 & V5) E. assert (Li : (i < length arr)%nat) by (apply nth_error_Some; congruence).
  unfold grp_one, box_group. destruct b as [g kind lang]. cbn [bg_group bg_kind bg_lang] in *. destruct g as [gid go gd gp gg gm].
  cbn [gr_id gr_onoff gr_default gr_pos gr_gain] in *. rp. rewrite (aget_ok _ _ _ E). cbn [bind]. rp.
  destruct gp as [[[[[[a1 a2] e1] e2] d1] d2]|]; cbn [present b2z body app]; [change (1 =? 0) with false|change (0 =? 0) with true]; cbn match;
  (destruct gg as [[m1 m2]|]; cbn [present b2z body app]; [change (1 =? 0) with false|change (0 =? 0) with true]; cbn match);
  (destruct lang as [l|]; cbn [present b2z body app]; [change (1 =? 0) with false|change (0 =? 0) with true]; cbn match);
  repeat match goal with H : _ /\ _ |- _ => destruct H end;

  repeat (first [rewrite bind_assoc | rdf | progress unfold pad | progress cbn [bind] ]); rewrite aset_ok by lia; eexists; (split; [|reflexivity]);
  unfold keeps, same_group, view_group; cbn [g_id g_onoff g_def g_pos g_minaz g_maxaz g_minel g_maxel g_mindist g_maxdist g_gain g_mingain g_maxgain g_num g_conj g_start g_mem gr_id gr_onoff gr_default gr_pos gr_gain bg_group];
  rewrite ?z2b_b2z; repeat split.
Qed.

Lemma grp_one_ub i arr b rest : valid_bgroup b -> (length arr <= i)%nat -> runA (grp_one i arr) (box_group b ++ rest) = UB UOob.
Proof.
  intros (V1 & _) H. unfold grp_one, box_group. rp. rewrite aget_out by exact H. reflexivity.
Qed.

Lemma put_start_rt arr i s g rest : nth_error arr i = Some g -> runA (put_start arr (Z.of_nat i) s) rest = Done (upd arr i (s_start g s), rest).
Proof.
  intros E. assert (i < length arr)%nat by (apply nth_error_Some; congruence). unfold put_start. rewrite (aget_ok _ _ _ E). cbn [bind].
  rewrite aset_ok by lia. reflexivity.
Qed.

Lemma view_start g s : same_group (view_group (s_start g s)) (view_group g).
Proof. unfold same_group, view_group, s_start. cbn. repeat split. Qed.

Lemma len_fits (n : nat) {A} (l : list A) k : (length l <= n)%nat -> Z.of_nat n < 2 ^ k -> fits k (Z.of_nat (length l)).
Proof. intros H1 H2. split; lia. Qed.

(** Where the members of the entries begin: 0 and 2 for the first two, as before for the others. *)

Lemma maeg_rt fx id l arr rest : fits 8 id -> (length l <= 16)%nat -> Forall valid_bgroup l -> groups_shape arr ->
  exists arr', runA (maeg fx arr) (box_groups id l ++ rest) = Done (Ok (id, Z.of_nat (length l), arr'), rest) /\ groups_shape arr' /\
    forall k b, nth_error l k = Some b -> exists old c, nth_error arr k = Some old /\ nth_error arr' k = Some c /\
      same_group (view_group c) (bg_group b) /\ gr_members (view_group c) = Range (start_of k (g_start old)) 2.
Proof.
  intros Hid HL V (S1 & S2). unfold maeg, box_groups. rp.
  unfold guard. replace (fx && (16 <? Z.of_nat (length l))) with false by (destruct fx; lia). rewrite Nat2Z.id.
  destruct (tab_rt grp_one box_group keeps valid_bgroup (fun _ => True)) with (ms := l) (i := 0%nat) (arr := arr) (rest := rest) as (a1 & R1 & L1 & N1 & K1).
  { intros i a x r old Ox Eo _. apply grp_one_rt; auto. }
  { exact V. } { apply Forall_forall; auto. } { lia. }
  rewrite runA_bind, R1. cbn [Nat.add] in N1.
  destruct (nth_error a1 0) as [g0|] eqn:E0; [|apply nth_error_None in E0; lia].
  rewrite runA_bind. change 0 with (Z.of_nat 0) at 1. rewrite (put_start_rt _ _ _ _ _ E0).
  set (a2 := upd a1 0 (s_start g0 (Z.of_nat 0))).
  assert (L2 : length a2 = length a1) by (apply upd_length; lia).
  destruct (nth_error a2 1) as [g1|] eqn:E1; [|apply nth_error_None in E1; lia].
  rewrite runA_bind. change 1 with (Z.of_nat 1) at 1. rewrite (put_start_rt _ _ _ _ _ E1). cbn [runA].
  assert (E1' : nth_error a1 1 = Some g1) by (unfold a2 in E1; rewrite upd_nth in E1 by lia; exact E1).
  set (a3 := upd a2 1 (s_start g1 2)). assert (L3 : length a3 = length a2) by (apply upd_length; lia).
  assert (N3 : forall k, nth_error a3 k = if Nat.eqb k 1 then Some (s_start g1 2) else if Nat.eqb k 0 then Some (s_start g0 0) else nth_error a1 k).
  { intros k. unfold a3. rewrite upd_nth by lia. destruct (Nat.eqb k 1); [reflexivity|]. unfold a2. rewrite upd_nth by lia. reflexivity. }
  assert (M1 : forall k c, nth_error a1 k = Some c -> length (g_mem c) = 128%nat).
  { intros k c Ec. rewrite Forall_forall in S2. destruct (nth_error l k) as [b|] eqn:Eb.
    - destruct (N1 k b Eb) as (old & c' & X1 & X2 & (_ & _ & _ & _ & X3)). rewrite Ec in X2. injection X2 as <-. rewrite X3. apply S2, (nth_error_In _ _ X1).
    - rewrite K1 in Ec by (apply nth_error_None in Eb; lia). apply S2, (nth_error_In _ _ Ec). }
  exists a3. split; [reflexivity|]. split.
  - split; [lia|]. apply Forall_forall. intros c Hc. apply In_nth_error in Hc. destruct Hc as (k & Hk). rewrite N3 in Hk.
    destruct (Nat.eqb k 1); [injection Hk as <-; exact (M1 _ _ E1')|]. destruct (Nat.eqb k 0); [injection Hk as <-; exact (M1 _ _ E0)|exact (M1 _ _ Hk)].
  - intros k b Eb. destruct (N1 k b Eb) as (old & c & X1 & X2 & (Y1 & Y2 & Y3 & Y4 & Y5)).
    assert (ZZ : forall s, same_group (view_group (s_start c s)) (bg_group b) /\ gr_members (view_group (s_start c s)) = Range s 2).
    { intros s. split.
      - pose proof (view_start c s) as (Q1 & Q2 & Q3 & Q4 & Q5). destruct Y1 as (P1 & P2 & P3 & P4 & P5). repeat split; congruence.
      - unfold view_group, s_start. cbn [gr_members g_conj g_start g_num]. rewrite Y3, Y2. reflexivity. }
    exists old. destruct k as [|[|k]].
    + exists (s_start g0 0). rewrite E0 in X2. injection X2 as <-. split; [exact X1|]. split; [rewrite N3; reflexivity|]. cbn [start_of]. apply ZZ.
    + exists (s_start g1 2). rewrite E1' in X2. injection X2 as <-. split; [exact X1|]. split; [rewrite N3; reflexivity|]. cbn [start_of]. apply ZZ.
    + exists c. split; [exact X1|]. split; [rewrite N3; exact X2|]. split; [exact Y1|]. unfold view_group. cbn [gr_members]. rewrite Y3, Y2, Y4. reflexivity.
Qed.

Lemma maeg_over id l arr rest : fits 8 id -> (16 < length l <= 127)%nat -> Forall valid_bgroup l -> groups_shape arr ->
  runA (maeg false arr) (box_groups id l ++ rest) = UB UOob.
Proof.
  intros Hid HL V (S1 & S2). unfold maeg, box_groups. rp.
  unfold guard. cbn [andb]. rewrite Nat2Z.id, runA_bind.
  rewrite (tab_ub grp_one box_group valid_bgroup (fun _ => True)); [reflexivity|..|exact V| |lia].
  - intros i a x r old Ox Eo _. destruct (grp_one_rt i a x r old Ox Eo) as (c & _ & R). exists c. auto.
  - apply grp_one_ub.
  - apply Forall_forall; auto.
Qed.

(** ** Switch groups *)
Lemma mem_rt : forall ids i (mem : list Z) rest,
  Forall (fits 7) ids -> (i + length ids <= length mem)%nat ->
  runA (forP (length ids) i (fun j m => rd 1 ;;; v <- rd 7 ;; aset m (Z.of_nat j) v) mem)
       (flat_map (fun m => pad 1 ++ bits_of 7 m) ids ++ rest)
  = Done (firstn i mem ++ ids ++ skipn (i + length ids) mem, rest).
Proof.
  induction ids as [|x ids IH]; intros i mem rest HF HL; cbn [length forP flat_map].
  - cbn [runA app]. rewrite Nat.add_0_r, firstn_skipn. reflexivity.
  - inversion HF as [|? ? Hx HF']; subst. cbn [length] in HL. rewrite bind_assoc. unfold pad. rdf. rewrite bind_assoc. rdf.
    rewrite runA_aset by lia. rewrite Nat2Z.id. fold (pad 1). rewrite IH; [|exact HF'|rewrite aset_len; lia].
    rewrite firstn_aset by lia. rewrite <- app_assoc. cbn [app].
    do 5 f_equal.
    rewrite skipn_app, firstn_length, Nat.min_l by lia.
    rewrite skipn_all2 by (rewrite firstn_length; lia). cbn [app].
    replace (S i + length ids - i)%nat with (S (length ids)) by lia. rewrite skipn_cons.
    rewrite skipn_skipn_add. f_equal. lia.
Qed.

Definition swi_ok (old : sdef) (x : switchgroup) (c : sdef) : Prop := view_switch c = x /\ length (s_mem c) = 32%nat.

Lemma swi_one_rt i arr x rest old : valid_bswitch x -> nth_error arr i = Some old -> length (s_mem old) = 32%nat ->
  exists c, swi_ok old x c /\ runA (swi_one i arr) (box_switch x ++ rest) = Done (upd arr i c, rest).
Proof.
  intros (V1 & V2 & V3 & V4 & V5) E L. assert (Li : (i < length arr)%nat) by (apply nth_error_Some; congruence).
  unfold swi_one, box_switch. rewrite (aget_ok _ _ _ E). cbn [bind]. destruct x as [id oo mem dg]. cbn [sg_id sg_onoff sg_members sg_default] in *.
  rp. rewrite <- ?app_assoc. rewrite Nat2Z.id.
  change (bits_of 1 0) with (pad 1).
  rewrite runA_bind, mem_rt by (auto; lia). cbn [firstn app Nat.add]. rp. rewrite aset_ok by lia. eexists. split; [|reflexivity].
  split.
  - unfold view_switch. cbn [s_id s_onoff s_def s_num s_mem s_dgrp]. change (z2b 0) with false. cbv iota. rewrite V2. f_equal.
    rewrite Nat2Z.id. rewrite firstn_app, Nat.sub_diag, firstn_all. cbn [firstn]. apply app_nil_r.
  - cbn [s_mem]. rewrite app_length, skipn_length. lia.
Qed.

Lemma swi_one_ub i arr x rest : valid_bswitch x -> (length arr <= i)%nat -> runA (swi_one i arr) (box_switch x ++ rest) = UB UOob.
Proof. intros _ H. unfold swi_one. rewrite aget_out by exact H. reflexivity. Qed.

Lemma maes_rt fx l arr rest : (length l <= 8)%nat -> Forall valid_bswitch l -> switches_shape arr ->
  exists arr', runA (maes fx arr) (box_switches l ++ rest) = Done (Ok (Z.of_nat (length l), arr'), rest) /\ switches_shape arr' /\
    map view_switch (firstn (length l) arr') = l.
Proof.
  intros HL V (S1 & S2). unfold maes, box_switches. rp.
  unfold guard. replace (fx && (8 <? Z.of_nat (length l))) with false by (destruct fx; lia). rewrite Nat2Z.id.
  destruct (tab_rt swi_one box_switch swi_ok valid_bswitch (fun c => length (s_mem c) = 32%nat)) with (ms := l) (i := 0%nat) (arr := arr) (rest := rest) as (a1 & R1 & L1 & N1 & K1).
  { intros i a x r old Ox Eo Go. apply swi_one_rt; auto. }
  { exact V. } { exact S2. } { lia. }
  rewrite runA_bind, R1. cbn [runA]. exists a1. split; [reflexivity|]. cbn [Nat.add] in N1. split.
  - split; [lia|]. apply Forall_forall. intros c Hc. apply In_nth_error in Hc. destruct Hc as (k & Hk). destruct (nth_error l k) as [b|] eqn:Eb.
    + destruct (N1 k b Eb) as (old & c' & X1 & X2 & (_ & X3)). rewrite Hk in X2. injection X2 as <-. exact X3.
    + rewrite K1 in Hk by (apply nth_error_None in Eb; lia). rewrite Forall_forall in S2. apply S2, (nth_error_In _ _ Hk).
  - apply nth_error_ext. intros k. rewrite nth_error_map. destruct (nth_error l k) as [x|] eqn:Ex.
    + destruct (N1 k x Ex) as (old & c & X1 & X2 & (X3 & _)). assert (k < length l)%nat by (apply nth_error_Some; congruence).
      rewrite nth_firstn_lt by lia. rewrite X2. cbn. rewrite X3. reflexivity.
    + apply nth_error_None in Ex. replace (nth_error (firstn (length l) a1) k) with (@None sdef); [reflexivity|]. symmetry. apply nth_error_None. rewrite firstn_length. lia.
Qed.

Lemma maes_over l arr rest : (8 < length l <= 127)%nat -> Forall valid_bswitch l -> switches_shape arr ->
  runA (maes false arr) (box_switches l ++ rest) = UB UOob.
Proof.
  intros HL V (S1 & S2). unfold maes, box_switches. rp. unfold guard. cbn [andb]. rewrite Nat2Z.id, runA_bind.
  rewrite (tab_ub swi_one box_switch valid_bswitch (fun c => length (s_mem c) = 32%nat)); [reflexivity|..|exact V|exact S2|lia].
  - intros i a x r old Ox Eo Go. destruct (swi_one_rt i a x r old Ox Eo Go) as (c & (_ & X) & R). exists c. auto.
  - apply swi_one_ub.
Qed.

(** ** Presets *)
Lemma con_one_rt i arr x rest old : valid_cond x -> nth_error arr i = Some old ->
  exists c, view_cond c = x /\ runA (con_one i arr) (box_cond x ++ rest) = Done (upd arr i c, rest).
Proof.
  intros (V1 & V2) E. assert (Li : (i < length arr)%nat) by (apply nth_error_Some; congruence).
  unfold con_one, box_cond. destruct x as [ref on]. cbn [co_ref co_on] in *. rp. rewrite (aget_ok _ _ _ E). cbn [bind]. rp.
  destruct on as [[lg g lp p]|]; cbn [present b2z body app]; [change (1 =? 0) with false|change (0 =? 0) with true]; cbn match.
  - cbn [ac_gain ac_pos] in V2. unfold box_action. cbn [ac_lock_gain ac_gain ac_lock_pos ac_pos].
    destruct g as [g|]; destruct p as [[[az el] d]|]; cbn [present b2z body app];
    destruct V2 as (V2 & V3); unfold fits in V2, V3; change (2 ^ 8) with 256 in *; change (2 ^ 6) with 64 in *; change (2 ^ 4) with 16 in *; rp; cbn [b2z]; change (1 =? 0) with false; change (0 =? 0) with true; cbn match;
    repeat (first [rewrite bind_assoc | rdf | progress cbn [bind] ]); rewrite aset_ok by lia; eexists; (split; [|reflexivity]);
    unfold view_cond; cbn [c_ref c_on c_disgain c_gainflag c_gain c_dispos c_posflag c_az c_el c_dist]; change (z2b 1) with true; change (z2b 0) with false; cbv iota;
    rewrite ?z2b_b2z; try reflexivity.
    + rewrite s8_mod, !s8_small by lia. reflexivity.
    + rewrite s8_mod, !s8_small by lia. reflexivity.
  - rewrite aset_ok by lia. eexists. split; [|reflexivity]. reflexivity.
Qed.

Lemma con_one_ub i arr x rest : valid_cond x -> (length arr <= i)%nat -> runA (con_one i arr) (box_cond x ++ rest) = UB UOob.
Proof. intros (V1 & _) H. unfold con_one, box_cond. rp. rewrite aget_out by exact H. reflexivity. Qed.

Definition short (p : preset) : Prop := valid_bpreset p /\ (length (pr_conds p) <= 16)%nat.
Definition pre_ok (x : preset) (c : pdef) : Prop := view_preset c = x /\ length (p_conds c) = 16%nat.

Lemma pre_one_rt fx i arr x rest old : short x -> nth_error arr i = Some old -> length (p_conds old) = 16%nat ->
  exists c, pre_ok x c /\ runA (pre_one fx i arr) (box_preset x ++ rest) = Done (Ok (upd arr i c), rest).
Proof.
  intros ((V1 & V2 & V3 & V4) & V5) E L. assert (Li : (i < length arr)%nat) by (apply nth_error_Some; congruence).
  unfold pre_one, box_preset. destruct x as [id kind cs]. cbn [pr_id pr_kind pr_conds] in *. rp. rewrite (aget_ok _ _ _ E). cbn [bind]. rp.
  unfold guard. replace (fx && (16 <? Z.of_nat (length cs))) with false by (destruct fx; lia).
  rewrite s8_small by lia. rewrite Nat2Z.id. cbv zeta.
  destruct (tab_rt con_one box_cond (fun _ x c => view_cond c = x) valid_cond (fun _ => True)) with (ms := cs) (i := 0%nat) (arr := p_conds old) (rest := rest) as (a1 & R1 & L1 & N1 & K1).
  { intros k a y r o Oy Eo _. apply (con_one_rt k a y r o); auto. } { exact V4. } { apply Forall_forall; auto. } { lia. }
  rewrite runA_bind, R1, aset_ok by lia. cbn [bind runA]. eexists. split; [|reflexivity]. split; [|cbn [p_conds]; lia].
  unfold view_preset. cbn [p_id p_kind p_num p_conds]. f_equal. rewrite Nat2Z.id.
  apply nth_error_ext. intros k. rewrite nth_error_map. destruct (nth_error cs k) as [x|] eqn:Ex.
  - destruct (N1 k x Ex) as (o & c & X1 & X2 & X3). assert (k < length cs)%nat by (apply nth_error_Some; congruence).
    rewrite nth_firstn_lt by lia. cbn [Nat.add] in X2. rewrite X2. cbn. rewrite X3. reflexivity.
  - apply nth_error_None in Ex. replace (nth_error (firstn (length cs) a1) k) with (@None pcond); [reflexivity|]. symmetry. apply nth_error_None. rewrite firstn_length. lia.
Qed.

Lemma pre_loop_rt fx : forall ms i arr rest, Forall short ms -> Forall (fun p => length (p_conds p) = 16%nat) arr -> (i + length ms <= length arr)%nat ->
  exists arr', runA (forR (length ms) i (pre_one fx) arr) (flat_map box_preset ms ++ rest) = Done (Ok arr', rest) /\ length arr' = length arr /\
    Forall (fun p => length (p_conds p) = 16%nat) arr' /\ firstn i arr' = firstn i arr /\ map view_preset (firstn (length ms) (skipn i arr')) = ms.
Proof.
  induction ms as [|x ms IH]; intros i arr rest HO HG HL.
  - exists arr. split; [reflexivity|]. split; [reflexivity|]. split; [exact HG|]. split; reflexivity.
  - inversion HO as [|? ? Ox OM]; subst. cbn [length] in HL. destruct (nth_error arr i) as [old|] eqn:E; [|apply nth_error_None in E; lia].
    assert (Go : length (p_conds old) = 16%nat) by (rewrite Forall_forall in HG; apply HG; apply (nth_error_In _ _ E)).
    cbn [length flat_map forR]. rewrite <- app_assoc.
    destruct (pre_one_rt fx i arr x (flat_map box_preset ms ++ rest) old Ox E Go) as (c & (P1 & P2) & RR).
    rewrite runA_bind, RR. assert (LU : length (upd arr i c) = length arr) by (apply upd_length; lia).
    destruct (IH (S i) (upd arr i c) rest OM) as (arr' & R' & L' & G' & F' & M').
    { rewrite Forall_forall in *. intros y Hy. apply In_nth_error in Hy. destruct Hy as (k & Hk). rewrite upd_nth in Hk by lia.
      destruct (Nat.eqb k i); [injection Hk as <-; exact P2|apply HG; apply (nth_error_In _ _ Hk)]. }
    { lia. }
    exists arr'. split; [exact R'|]. split; [lia|]. split; [exact G'|].
    assert (Ei : nth_error arr' i = Some c).
    { rewrite <- (nth_firstn_lt arr' i (S i)) by lia. rewrite F'. rewrite nth_firstn_lt by lia. rewrite upd_nth, Nat.eqb_refl by lia. reflexivity. }
    split.
    + apply nth_error_ext. intros k. destruct (Nat.lt_ge_cases k i).
      * rewrite !nth_firstn_lt by lia. rewrite <- (nth_firstn_lt arr' k (S i)) by lia. rewrite F'. rewrite nth_firstn_lt by lia. rewrite upd_nth by lia.
        destruct (Nat.eqb_spec k i); [lia|reflexivity].
      * rewrite !(proj2 (nth_error_None _ _)); [reflexivity|rewrite firstn_length; lia|rewrite firstn_length; lia].
    + assert (SK : skipn i arr' = c :: skipn (S i) arr').
      { clear - Ei. revert i Ei. induction arr' as [|y l IHl]; intros [|i] Ei; try discriminate; [injection Ei as ->; reflexivity|]. cbn [skipn]. apply IHl. exact Ei. }
      rewrite SK. cbn [firstn map]. rewrite P1, M'. reflexivity.
Qed.

Lemma maep_rt fx l arr rest : (length l <= 8)%nat -> Forall short l -> presets_shape arr ->
  exists arr', runA (maep fx arr) (box_presets l ++ rest) = Done (Ok (Z.of_nat (length l), arr'), rest) /\ presets_shape arr' /\
    map view_preset (firstn (length l) arr') = l.
Proof.
  intros HL V (S1 & S2). unfold maep, box_presets. rp. unfold guard. replace (fx && (8 <? Z.of_nat (length l))) with false by (destruct fx; lia). rewrite Nat2Z.id.
  destruct (pre_loop_rt fx l 0 arr rest V S2) as (a & R & L & G & _ & M); [lia|]. rewrite runA_bind, R. cbn [runA]. exists a.
  split; [reflexivity|]. split; [split; [lia|exact G]|exact M].
Qed.

(** A preset with 17 to 127 conditions, or a ninth preset. *)
Lemma pre_one_ub i arr x rest : valid_bpreset x -> (16 < length (pr_conds x) <= 127)%nat -> Forall (fun p => length (p_conds p) = 16%nat) arr ->
  runA (pre_one false i arr) (box_preset x ++ rest) = UB UOob.
Proof.
  intros (V1 & V2 & V3 & V4) H G. unfold pre_one, box_preset. destruct x as [id kind cs]. cbn [pr_id pr_kind pr_conds] in *. rp.
  destruct (nth_error arr i) as [old|] eqn:E; [|rewrite aget_out by (apply nth_error_None; exact E); reflexivity].
  assert (Go : length (p_conds old) = 16%nat) by (rewrite Forall_forall in G; apply G; apply (nth_error_In _ _ E)).
  rewrite (aget_ok _ _ _ E). cbn [bind]. rp. unfold guard. cbn [andb]. cbv zeta. rewrite s8_small by lia. rewrite Nat2Z.id, runA_bind.
  rewrite (tab_ub con_one box_cond valid_cond (fun _ => True)); [reflexivity|..|exact V4|apply Forall_forall; auto|lia].
  - intros k a y r o Oy Eo _. destruct (con_one_rt k a y r o Oy Eo) as (c & _ & R). exists c. auto.
  - apply con_one_ub.
Qed.

Lemma pre_one_ninth i arr x rest : valid_bpreset x -> (length arr <= i)%nat -> runA (pre_one false i arr) (box_preset x ++ rest) = UB UOob.
Proof. intros (V1 & _) H. unfold pre_one, box_preset. rp. rewrite aget_out by exact H. reflexivity. Qed.

(** What makes a list of presets too large: a bad one within the first nine, or more than eight. *)
Lemma pre_loop_ub : forall ms i arr rest, Forall (fun x => valid_bpreset x /\ (length (pr_conds x) <= 127)%nat) ms ->
  Forall (fun p => length (p_conds p) = 16%nat) arr -> (i <= length arr)%nat ->
  ((length arr < i + length ms)%nat \/ Exists (fun x => (16 < length (pr_conds x))%nat) ms) ->
  runA (forR (length ms) i (pre_one false) arr) (flat_map box_preset ms ++ rest) = UB UOob.
Proof.
  induction ms as [|x ms IH]; intros i arr rest HO HG HL HX; cbn [length] in HX.
  - destruct HX as [HX|HX]; [lia|inversion HX].
  - inversion HO as [|? ? (Ox & Cx) OM]; subst. cbn [length flat_map forR]. rewrite <- app_assoc, runA_bind.
    destruct (Nat.lt_ge_cases 16 (length (pr_conds x))) as [B|B]; [rewrite pre_one_ub by (auto; lia); reflexivity|].
    destruct (Nat.eq_dec i (length arr)) as [->|]; [rewrite pre_one_ninth by (auto; lia); reflexivity|].
    destruct (nth_error arr i) as [old|] eqn:E; [|apply nth_error_None in E; lia].
    assert (Go : length (p_conds old) = 16%nat) by (rewrite Forall_forall in HG; apply HG; apply (nth_error_In _ _ E)).
    destruct (pre_one_rt false i arr x (flat_map box_preset ms ++ rest) old (conj Ox B) E Go) as (c & (P1 & P2) & ->).
    apply IH; auto.
    + rewrite Forall_forall in *. intros y Hy. apply In_nth_error in Hy. destruct Hy as (k & Hk). rewrite upd_nth in Hk by lia.
      destruct (Nat.eqb k i); [injection Hk as <-; exact P2|apply HG; apply (nth_error_In _ _ Hk)].
    + rewrite upd_length by lia. lia.
    + rewrite upd_length by lia. destruct HX as [HX|HX]; [left; lia|right]. inversion HX; subst; [lia|assumption].
Qed.

Lemma maep_over l arr rest : (length l <= 127)%nat -> Forall (fun x => valid_bpreset x /\ (length (pr_conds x) <= 127)%nat) l ->
  ((8 < length l)%nat \/ Exists (fun x => (16 < length (pr_conds x))%nat) l) -> presets_shape arr ->
  runA (maep false arr) (box_presets l ++ rest) = UB UOob.
Proof.
  intros HL V HX (S1 & S2). unfold maep, box_presets. rp. unfold guard. cbn [andb]. rewrite Nat2Z.id, runA_bind.
  rewrite pre_loop_ub; [reflexivity|exact V|exact S2|lia|]. rewrite S1. destruct HX; auto.
Qed.
