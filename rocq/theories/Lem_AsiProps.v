(** * Lem_AsiProps: the scene properties on the concrete reader, and counterexamples *)

From Coq Require Import ZArith List Lia Bool.
From Verif Require Import Bits BitBuf Prog Asi Wp Frame Spec_Asi Lem_Asi Lem_AsiRT Lem_AsiData.
Import ListNotations.
Open Scope Z_scope.

Lemma asi_no_ub a s r : shape a -> wf s -> exec (asi_parse a) s <> UB r.
Proof.
  intros Sh W E. assert (H := wp_exec _ _ s (wp_asi_parse a Sh) W). rewrite E in H. exact H.
Qed.

Lemma asi_accept a s a' s' : shape a -> wf s ->
  exec (asi_parse a) s = Done (Ok a', s') -> a_main a' = 1 -> scene_inv a'.
Proof.
  intros Sh W E M. assert (H := wp_exec _ _ s (wp_asi_parse a Sh) W). rewrite E in H.
  destruct H as [[[_ H]|[H _]] _]; [exact H|congruence].
Qed.

Lemma asi_offset_only a s a' s' : shape a -> wf s ->
  exec (asi_parse a) s = Done (Ok a', s') -> a_main a' <> 1 ->
  a_groups a' = a_groups a /\ a_switch a' = a_switch a /\ a_presets a' = a_presets a /\
  a_ng a' = a_ng a /\ a_ns a' = a_ns a /\ a_np a' = a_np a /\ a_types a' = a_types a.
Proof.
  intros Sh W E M. assert (H := wp_exec _ _ s (wp_asi_parse a Sh) W). rewrite E in H.
  destruct H as [[[H _]|(_ & H)] _]; [congruence|tauto].
Qed.

Lemma asi_ids_unique a s a' s' : shape a -> wf s ->
  exec (asi_parse a) s = Done (Ok a', s') -> a_main a' = 1 ->
  NoDup (map g_id (active_groups a')) /\ NoDup (map s_id (active_switch a')) /\
  NoDup (map p_id (active_presets a')).
Proof.
  intros Sh W E M. destruct (asi_accept a s a' s' Sh W E M) as (_ & _ & _ & _ & H1 & H2 & H3 & _). auto.
Qed.

Lemma asi_counts a s a' s' : shape a -> wf s ->
  exec (asi_parse a) s = Done (Ok a', s') -> a_main a' = 1 ->
  0 <= a_ng a' <= 16 /\ 0 <= a_ns a' <= 8 /\ 0 <= a_np a' <= 8 /\
  Forall (fun g => g_num g <= 128) (active_groups a') /\
  Forall (fun g => 1 <= s_num g <= 32) (active_switch a') /\
  Forall (fun p => 1 <= p_num p <= 16) (active_presets a') /\
  (length (a_types a') <= 15)%nat /\ shape a'.
Proof.
  intros Sh W E M.
  destruct (asi_accept a s a' s' Sh W E M) as (S1 & A & B & C & _ & _ & _ & G & S2 & _ & T & P).
  repeat (split; [assumption|]). split; [|split; assumption].
  apply Forall_forall. intros p Hp. apply In_nth_error in Hp as [j Hj].
  unfold active_presets in Hj. destruct S1 as (L1 & _ & _ & _ & L2 & _).
  assert (Hlt : (j < length (firstn (Z.to_nat (a_np a')) (a_presets a')))%nat) by (apply nth_error_Some; congruence).
  rewrite firstn_length in Hlt.
  rewrite nth_firstn_lt in Hj by lia.
  destruct (nth_error_Some_ex (a_groups a') j) as [g Hg]; [lia|].
  destruct (P j p g); auto. lia.
Qed.

Lemma asi_blocks_once a s a' s' : shape a -> wf s ->
  exec (asi_parse a) s = Done (Ok a', s') -> a_main a' = 1 ->
  forall i j t, nth_error (a_types a') i = Some t -> nth_error (a_types a') j = Some t ->
    t < 10 -> i = j.
Proof.
  intros Sh W E M.
  destruct (asi_accept a s a' s' Sh W E M) as (_ & _ & _ & _ & _ & _ & _ & _ & _ & N & _).
  unfold known in N.
  revert N. induction (a_types a') as [|x l IH]; intros N i j t Hi Hj Ht; [destruct i; discriminate|].
  cbn [filter] in N.
  destruct i, j; cbn [nth_error] in *; auto.
  - inversion Hi; subst x. apply Z.ltb_lt in Ht. rewrite Ht in N. inversion N; subst.
    exfalso. apply nth_error_In in Hj. apply H1. apply filter_In. auto.
  - inversion Hj; subst x. apply Z.ltb_lt in Ht. rewrite Ht in N. inversion N; subst.
    exfalso. apply nth_error_In in Hi. apply H1. apply filter_In. auto.
  - f_equal. eapply IH; eauto. destruct (x <? 10); [inversion N|]; auto.
Qed.

(** A repeated block of a known kind is refused on the spot. *)
Lemma block_twice_rejected gs ngrp npre nc0 seen ty len s :
  0 <= ty < 10 -> In ty seen ->
  exec (data_block gs ngrp npre nc0 seen ty len) s = Done (Er E_ASI_PARSE, s).
Proof.
  intros Ht HIn.
  assert (X : existsb (Z.eqb ty) seen = true) by (apply existsb_exists; exists ty; split; auto; apply Z.eqb_refl).
  assert (C : ty = 0 \/ ty = 1 \/ ty = 2 \/ ty = 3 \/ ty = 4 \/ ty = 5 \/ ty = 6 \/ ty = 7 \/ ty = 8 \/ ty = 9) by lia.
  unfold data_block. cbv zeta. rewrite X.
  repeat (destruct C as [->|C]; [reflexivity|]). subst. reflexivity.
Qed.

(** Preset conditions. *)
Definition presets_respect_groups (gs : list group) (ps : list preset) : Prop :=
  forall p c a g, In p ps -> In c (pr_conds p) -> co_on c = Some a -> In g gs -> gr_id g = co_ref c ->
    (ac_gain a <> None -> gr_gain g <> None) /\ (ac_pos a <> None -> gr_pos g <> None).

Lemma asi_presets_own_index a s a' s' : shape a -> wf s ->
  exec (asi_parse a) s = Done (Ok a', s') -> a_main a' = 1 ->
  forall j p g c act, nth_error (map view_preset (active_presets a')) j = Some p ->
    nth_error (map view_group (active_groups a')) j = Some g ->
    In c (pr_conds p) -> co_on c = Some act ->
    (ac_gain act <> None -> gr_gain g <> None) /\ (ac_pos act <> None -> gr_pos g <> None).
Proof.
  intros Sh W E M j p g c act Hp Hg Hc Ha.
  destruct (asi_accept a s a' s' Sh W E M) as (S1 & A & B & C & _ & _ & _ & G & S2 & _ & T & P).
  rewrite nth_error_map in Hp, Hg.
  destruct (nth_error (active_presets a') j) as [p0|] eqn:Ep; [|discriminate].
  destruct (nth_error (active_groups a') j) as [g0|] eqn:Eg; [|discriminate].
  cbn in Hp, Hg. inversion Hp; inversion Hg; subst p g.
  assert (Lp : (j < length (active_presets a'))%nat) by (apply nth_error_Some; congruence).
  assert (Lg : (j < length (active_groups a'))%nat) by (apply nth_error_Some; congruence).
  unfold active_presets, active_groups in *. rewrite firstn_length in Lp, Lg.
  rewrite nth_firstn_lt in Ep by lia. rewrite nth_firstn_lt in Eg by lia.
  destruct (P j p0 g0) as [_ F]; auto; [lia|].
  unfold view_preset in Hc. cbn [pr_conds] in Hc. apply in_map_iff in Hc as (c0 & <- & Hin).
  rewrite Forall_forall in F. specialize (F c0 Hin). unfold cond_ok in F.
  unfold view_cond in Ha. cbn [co_on] in Ha.
  destruct (z2b (c_on c0)); [|discriminate]. inversion Ha; subst act. cbn [ac_gain ac_pos].
  destruct (F eq_refl) as [F1 F2]. unfold view_group. cbn [gr_gain gr_pos].
  destruct (z2b (c_gainflag c0)), (z2b (c_posflag c0)); cbn [ac_gain ac_pos] in *;
    rewrite ?F1, ?F2 by reflexivity; split; intros; congruence.
Qed.

(** ** Concrete scenes *)
Definition grp (id : Z) (gain : option (Z * Z)) (m : members) : group :=
  {| gr_id := id; gr_onoff := true; gr_default := true; gr_pos := Some (10, 20, 3, 4, 5, 6);
     gr_gain := gain; gr_members := m |}.
Definition cnd (ref : Z) (gain : option Z) : condition :=
  {| co_ref := ref; co_on := Some {| ac_lock_gain := false; ac_gain := gain; ac_lock_pos := true;
                                     ac_pos := Some (200, 33, 7) |} |}.

(** Group 5 allows gain changes, group 6 does not. *)
Definition scene_with (cs0 cs1 : list condition) : scene :=
  {| sc_id := Some 9;
     sc_groups := [grp 5 (Some (1, 2)) (Range 0 3); grp 6 None (Listed [3; 4; 9])];
     sc_switch := [{| sg_id := 3; sg_onoff := Some true; sg_members := [5; 6]; sg_default := 5 |}];
     sc_presets := [{| pr_id := 1; pr_kind := 0; pr_conds := cs0 |}; {| pr_id := 2; pr_kind := 1; pr_conds := cs1 |}];
     sc_blocks := [(12, [1; 2; 3])]; sc_max := 7 |}.
Definition good_scene := scene_with [cnd 5 (Some 100)] [cnd 6 None].
(** Preset 0 changes the gain of group 6. *)
Definition bad_scene := scene_with [cnd 6 (Some 100)] [cnd 6 None].
(** Preset 1 changes the gain of group 5. *)
Definition refused_scene := scene_with [cnd 5 (Some 100)] [cnd 5 (Some 100)].

Ltac fitsplit := repeat match goal with
  | |- _ /\ _ => split
  | |- Forall _ _ => constructor
  | |- fits _ _ => unfold fits; cbn; lia
  | |- NoDup _ => constructor
  | |- ~ In _ _ => cbn; intuition (try congruence; try lia)
  | |- True => exact I
  end.

Lemma scene_with_valid cs0 cs1 :
  1 <= Z.of_nat (length cs0) <= 16 -> 1 <= Z.of_nat (length cs1) <= 16 ->
  Forall valid_cond cs0 -> Forall valid_cond cs1 -> valid_scene (scene_with cs0 cs1).
Proof.
  intros. unfold valid_scene, scene_with. cbn [sc_id sc_groups sc_switch sc_presets sc_blocks sc_max].
  unfold valid_group, valid_switch, valid_preset, valid_block.
  cbn [grp gr_id gr_onoff gr_default gr_pos gr_gain gr_members member_count sg_id sg_onoff sg_members sg_default
       pr_id pr_kind pr_conds fst snd map].
  repeat match goal with
  | |- _ /\ _ => split
  | |- Forall valid_cond _ => assumption
  | |- Forall _ _ => constructor
  | |- fits _ _ => unfold fits; cbn; lia
  | |- NoDup _ => constructor
  | |- ~ In _ _ => cbn; intuition (try congruence; try lia)
  | |- True => exact I
  | |- _ <= Z.of_nat (length cs0) => tauto
  | |- _ <= Z.of_nat (length cs1) => tauto
  | |- Z.of_nat (length cs0) <= _ => tauto
  | |- Z.of_nat (length cs1) <= _ => tauto
  | |- _ => cbn; lia
  end.
  all: cbn [grp gr_pos gr_gain gr_members]; fitsplit.
Qed.

Lemma cnd_valid r g : fits 7 r -> match g with None => True | Some v => fits 8 v end -> valid_cond (cnd r g).
Proof.
  intros H1 H2. unfold valid_cond, cnd. cbn [co_ref co_on ac_gain ac_pos].
  split; [exact H1|]. split; [exact H2|]. unfold fits. lia.
Qed.

Lemma good_valid : valid_scene good_scene.
Proof. apply scene_with_valid; try (cbn; lia); (constructor; [|constructor]); apply cnd_valid; unfold fits; auto; lia. Qed.
Lemma bad_valid : valid_scene bad_scene.
Proof. apply scene_with_valid; try (cbn; lia); (constructor; [|constructor]); apply cnd_valid; unfold fits; auto; lia. Qed.
Lemma refused_valid : valid_scene refused_scene.
Proof. apply scene_with_valid; try (cbn; lia); (constructor; [|constructor]); apply cnd_valid; unfold fits; auto; lia. Qed.

Lemma asi_zero_shape : shape asi_zero.
Proof.
  unfold shape, asi_zero. cbn [a_groups a_switch a_presets].
  repeat split; try reflexivity; apply Forall_forall; intros x Hx; apply repeat_spec in Hx; subst; reflexivity.
Qed.

Lemma bad_not_respecting : ~ presets_respect_groups (sc_groups bad_scene) (sc_presets bad_scene).
Proof.
  intros H.
  destruct (H {| pr_id := 1; pr_kind := 0; pr_conds := [cnd 6 (Some 100)] |} (cnd 6 (Some 100))
    {| ac_lock_gain := false; ac_gain := Some 100; ac_lock_pos := true; ac_pos := Some (200, 33, 7) |}
    (grp 6 None (Listed [3; 4; 9]))) as [X _]; cbn; auto.
  apply X; [discriminate|reflexivity].
Qed.

Lemma preset_conditions_refuted :
  exists d a' s', are_bytes d /\ exec (asi_parse asi_zero) (fresh d) = Done (Ok a', s') /\ a_main a' = 1 /\
    ~ presets_respect_groups (map view_group (active_groups a')) (map view_preset (active_presets a')).
Proof.
  set (d := pack (enc_scene bad_scene)).
  destruct (exec (asi_parse asi_zero) (fresh d)) as [[[a'|e] s']| |] eqn:E; try (vm_compute in E; discriminate).
  exists d, a', s'. split; [subst d; vm_compute; repeat constructor; discriminate|].
  split; [exact E|].
  assert (X : a_main a' = 1 /\ map view_group (active_groups a') = sc_groups bad_scene /\
    map view_preset (active_presets a') = sc_presets bad_scene).
  { vm_compute in E. inversion E; subst. vm_compute. auto. }
  destruct X as (X1 & X2 & X3). split; [exact X1|]. rewrite X2, X3. exact bad_not_respecting.
Qed.

Lemma refused_respecting : presets_respect_groups (sc_groups refused_scene) (sc_presets refused_scene).
Proof.
  intros p c a g Hp Hc Ha Hg Hid. cbn in Hp, Hg.
  destruct Hp as [<-|[<-|[]]]; destruct Hc as [<-|[]]; inversion Ha; subst a;
  destruct Hg as [<-|[<-|[]]]; cbn in Hid; try discriminate; cbn; split; intros; discriminate.
Qed.

Lemma preset_legal_refused :
  exists s d, valid_scene s /\ presets_respect_groups (sc_groups s) (sc_presets s) /\ are_bytes d /\
    firstn (length (enc_scene s)) (bytes_bits d) = enc_scene s /\
    exists s', exec (asi_parse asi_zero) (fresh d) = Done (Er E_PRESET_DEF, s').
Proof.
  exists refused_scene, (pack (enc_scene refused_scene)).
  split; [exact refused_valid|]. split; [exact refused_respecting|].
  split; [vm_compute; repeat constructor; discriminate|].
  split; [vm_compute; reflexivity|].
  eexists. vm_compute. reflexivity.
Qed.

(** 128 listed members. *)
Definition big_group : group := grp 5 None (Listed (repeat 77 128)).
Lemma big_group_valid : valid_group big_group.
Proof.
  unfold valid_group, big_group, grp. cbn [gr_id gr_pos gr_gain gr_members member_count].
  rewrite repeat_length. unfold fits. repeat split; try lia.
  apply Forall_forall. intros x Hx. apply repeat_spec in Hx. lia.
Qed.

Lemma members_refuted :
  exists d g, are_bytes d /\ valid_group g /\ member_count (gr_members g) = 128 /\
    firstn (length (enc_group g)) (bytes_bits d) = enc_group g /\
    exists arr s' g1, exec (group_defs 1 (a_groups asi_zero)) (fresh d) = Done (Ok arr, s') /\
      nth_error arr 0 = Some g1 /\ g_num g1 = -128 /\ g_mem g1 = repeat 0 128 /\
      bitpos s' = Z.of_nat (length (enc_group g)) - 128 * 7.
Proof.
  exists (pack (enc_group big_group)), big_group.
  split; [vm_compute; repeat constructor; discriminate|]. split; [exact big_group_valid|].
  split; [reflexivity|]. split; [vm_compute; reflexivity|].
  do 3 eexists. split; [vm_compute; reflexivity|]. repeat split; vm_compute; reflexivity.
Qed.

Lemma members_exact gs d rest : are_bytes d -> bytes_bits d = concat (map enc_group gs) ++ rest ->
  (length gs <= 16)%nat -> Forall valid_group gs ->
  Forall (fun g => member_count (gr_members g) <= 127) gs -> NoDup (map gr_id gs) ->
  exists arr s', exec (group_defs (length gs) (a_groups asi_zero)) (fresh d) = Done (Ok arr, s') /\
    map (fun g => gr_members (view_group g)) (firstn (length gs) arr) = map gr_members gs /\
    bitpos s' = Z.of_nat (length (concat (map enc_group gs))).
Proof.
  intros Hd HB H1 H2 H3 H4.
  destruct asi_zero_shape as (L1 & L2 & _).
  destruct (group_defs_rt gs (a_groups asi_zero) rest) as (arr & E & _ & _ & V & _); auto.
  destruct (exec_of_runA (group_defs (length gs) (a_groups asi_zero)) d (Ok arr) (concat (map enc_group gs)) rest (fun _ => True) Hd) with (2 := HB) (3 := E)
    as (s' & E' & _ & B & _); auto.
  { apply wp_group_defs; auto. split; [|split; [|split]]; auto; constructor. }
  exists arr, s'. split; [exact E'|]. split; [|exact B].
  rewrite <- (map_map view_group gr_members), V. reflexivity.
Qed.

(** Texts of 128 bytes. *)
Definition long_text : list descr := [(3, [(0x656e67, repeat 65 128)])].
Lemma text_refuted :
  exists d, are_bytes d /\ Forall (valid_descr 7) long_text /\
    firstn (length (enc_descrs 7 long_text)) (bytes_bits d) = enc_descrs 7 long_text /\
    exists s', exec (description_data 7) (fresh d) = Done (Ok [(3, [(0x656e67, [])])], s') /\
      bitpos s' = Z.of_nat (length (enc_descrs 7 long_text)) - 128 * 8.
Proof.
  exists (pack (enc_descrs 7 long_text)).
  split; [vm_compute; repeat constructor; discriminate|].
  split.
  { constructor; [|constructor]. unfold valid_descr, valid_text, fits. cbn [fst snd length].
    repeat split; try lia. constructor; [|constructor]. cbn [fst snd]. rewrite repeat_length.
    repeat split; try lia. apply Forall_forall. intros x Hx. apply repeat_spec in Hx. subst. lia. }
  split; [vm_compute; reflexivity|].
  eexists. split; vm_compute; reflexivity.
Qed.

Lemma drc_ui_refuted :
  exists d l s', are_bytes d /\ Forall (fun x => fits 6 (fst x) /\ fits 16 (snd x)) l /\
    firstn (length (enc_drc_ui l)) (bytes_bits d) = enc_drc_ui l /\
    l = [(1, 0x0100)] /\ exec drc_ui (fresh d) = Done ([(1, 0)], s').
Proof.
  exists (pack (enc_drc_ui [(1, 0x0100)])), [(1, 0x0100)]. eexists.
  split; [vm_compute; repeat constructor; discriminate|].
  split; [repeat constructor; cbn; lia|]. split; [vm_compute; reflexivity|]. split; [reflexivity|].
  vm_compute. reflexivity.
Qed.

Lemma drc_ui_exact l d rest : are_bytes d -> bytes_bits d = enc_drc_ui l ++ rest ->
  (length l <= 7)%nat -> Forall (fun x => fits 6 (fst x) /\ fits 7 (snd x)) l ->
  exists s', exec drc_ui (fresh d) = Done (l, s') /\ bitpos s' = Z.of_nat (length (enc_drc_ui l)).
Proof.
  intros Hd HB HL HF.
  assert (HF2 : Forall (fun x => fits 6 (fst x) /\ fits 16 (snd x)) l).
  { eapply Forall_impl; [|exact HF]. unfold fits. cbn. intros; lia. }
  assert (R := drc_ui_rt l rest HL HF2).
  replace (map (fun x => (fst x, s8 (snd x))) l) with l in R.
  - destruct (exec_of_runA drc_ui d l (enc_drc_ui l) rest (fun _ => True) Hd) with (2 := HB) (3 := R) as (s' & E & _ & B & _); auto.
    { unfold drc_ui. wps; auto. apply wp_forP_app; auto. intros j t Hj. wps. exact I. }
    eauto.
  - clear - HF. induction HF as [|[a b] l [H1 H2] HF IH]; [reflexivity|]. cbn [map fst snd] in *.
    rewrite <- IH. rewrite s8_small by (unfold fits in *; lia). reflexivity.
Qed.

Lemma preset_ext_exact gs nc0 exts d rest : are_bytes d -> bytes_bits d = concat (map enc_ext exts) ++ rest ->
  length gs = 16%nat -> (length exts <= 8)%nat -> 0 <= nc0 <= 16 ->
  Forall (fun e => match e with None => True | Some fs => Z.of_nat (length fs) = nc0 end) exts ->
  exists s', exec (preset_ext gs (length exts) nc0) (fresh d) = Done (Ok tt, s') /\
    bitpos s' = Z.of_nat (length (concat (map enc_ext exts))).
Proof.
  intros Hd HB LG HL Hn HF. assert (R := preset_ext_rt gs nc0 exts rest HL Hn HF).
  destruct (exec_of_runA (preset_ext gs (length exts) nc0) d (Ok tt) (concat (map enc_ext exts)) rest (fun _ => True) Hd) with (2 := HB) (3 := R)
    as (s' & E & _ & B & _); eauto.
  assert (W := wp_data_block gs 0 (length exts) nc0 [] 8 0 LG ltac:(lia) HL ltac:(lia)).
  eapply wp_mono; [|exact W]. auto.
Qed.

(** Preset 0 has one condition, preset 1 has two: the second preset's second flag is not
    read. *)
Definition ext_1_2 : list (option (list bool)) := [Some [true]; Some [true; true]].
Lemma preset_ext_refuted :
  exists d s', are_bytes d /\
    firstn (length (concat (map enc_ext ext_1_2))) (bytes_bits d) = concat (map enc_ext ext_1_2) /\
    exec (preset_ext (a_groups asi_zero) 2 1) (fresh d) = Done (Ok tt, s') /\
    bitpos s' <> Z.of_nat (length (concat (map enc_ext ext_1_2))).
Proof.
  exists (pack (concat (map enc_ext ext_1_2)) ++ [0; 0; 0; 0]). eexists.
  split; [vm_compute; repeat constructor; discriminate|]. split; [vm_compute; reflexivity|].
  split; [vm_compute; reflexivity|]. vm_compute. discriminate.
Qed.

Lemma skipn_skipn_add {A} (n m : nat) (l : list A) : skipn n (skipn m l) = skipn (m + n) l.
Proof.
  revert l; induction m as [|m IH]; intros l; [reflexivity|].
  destruct l; [destruct n; reflexivity|]. cbn [skipn Nat.add]. apply IH.
Qed.

(** Blocks of a type this decoder does not know: read to their end whatever the length. *)
Lemma read_n_bytes : forall n i l, (8 * n <= length l)%nat ->
  runA (forP n i (fun _ _ => rd 8 ;;; Ret tt) tt) l = Done (tt, skipn (8 * n) l).
Proof.
  induction n as [|n IH]; intros i l HL; [reflexivity|]. cbn [forP]. unfold rd. cbn [bind runA].
  change ((8 <? 0) || (24 <? 8)) with false. cbv iota.
  destruct (Z.ltb_spec (Z.of_nat (length l)) 8); [lia|].
  rewrite IH by (rewrite skipn_length; lia). rewrite skipn_skipn_add.
  f_equal. f_equal. f_equal. lia.
Qed.

Lemma s16_cases len : 0 <= len < 65536 -> s16 len = (if len <? 32768 then len else len - 65536).
Proof.
  intros H. unfold s16, to_s. change (2 ^ 16) with 65536. change (2 ^ (16 - 1)) with 32768.
  rewrite Z.mod_small by lia. reflexivity.
Qed.

Lemma unknown_block_skipped gs ngrp npre nc0 seen ty len s :
  wf s -> 10 <= ty -> 0 <= len < 65536 -> 8 * len <= r_cnt s ->
  exists s', exec (framed (s16 len) (data_block gs ngrp npre nc0 seen ty len)) s = Done (Ok tt, s') /\
    bitpos s' = bitpos s + 8 * len.
Proof.
  intros W Ht Hl Hc.
  assert (EQ : data_block gs ngrp npre nc0 seen ty len =
    (forP (Z.to_nat len) 0 (fun _ _ => rd 8 ;;; Ret tt) tt ;;; Ret (Ok tt))).
  { unfold data_block. cbv zeta.
    repeat match goal with |- context [ty =? ?k] => replace (ty =? k) with false by (symmetry; apply Z.eqb_neq; lia) end.
    reflexivity. }
  rewrite EQ. clear EQ.
  set (p := forP (Z.to_nat len) 0 (fun _ _ => rd 8 ;;; Ret tt) tt ;;; Ret (@Ok unit tt)).
  assert (WP : wp p (fun _ => True)).
  { subst p. apply wp_bindi. apply wp_for_unit; [intros; wps; exact I|exact I]. }
  assert (L := wf_len s W).
  assert (R : runA p (rest_bits s) = Done (Ok tt, skipn (8 * Z.to_nat len) (rest_bits s))).
  { subst p. rewrite runA_bind, read_n_bytes by lia. reflexivity. }
  assert (RR : exists l', runA (framed (s16 len) p) (rest_bits s) = Done (Ok tt, l') /\
     Z.of_nat (length (rest_bits s)) - Z.of_nat (length l') = 8 * len).
  { destruct (runA (framed (s16 len) p) (rest_bits s)) as [[[u|e] l']|c|r] eqn:F.
    - exists l'. destruct u. split; [reflexivity|]. apply framed_consumes in F as (lp & F1 & F2).
      rewrite R in F1. inversion F1; subst lp. rewrite skipn_length in F2.
      rewrite s16_cases in F2 by lia. destruct (Z.ltb_spec len 32768); lia.
    - exfalso. revert F. unfold framed, avail. cbn [bind runA]. rewrite runA_bind, R. cbn [bind runA].
      rewrite runA_bind. destruct (_ <? _); unfold skip; cbn [runA bind]; [|discriminate].
      destruct (_ <? 0); [discriminate|]. destruct (_ <? _); discriminate.
    - exfalso. revert F. unfold framed, avail. cbn [bind runA]. rewrite runA_bind, R. cbn [bind runA].
      rewrite runA_bind, skipn_length.
      destruct (Z.ltb_spec (Z.of_nat (length (rest_bits s)) - Z.of_nat (length (rest_bits s) - 8 * Z.to_nat len)) (s16 len * 8)) as [C|C];
        unfold skip; cbn [runA bind]; [|discriminate].
      rewrite s16_cases in C by lia. destruct (len <? 32768); lia.
    - exfalso. assert (X := wp_runA _ _ (wp_framed (s16 len) p _ WP) (rest_bits s)). rewrite F in X. exact X. }
  destruct RR as (l' & RR & LL).
  assert (X := exec_refines (framed (s16 len) p) s W). rewrite RR in X. destruct X as (s' & E & W' & R').
  exists s'. split; [exact E|].
  destruct (exec_done_runA _ s _ s' _ (wp_framed (s16 len) p _ WP) W E) as (_ & _ & _ & B).
  rewrite R' in B. lia.
Qed.

(** A block of a known type whose content does not exceed its announced length, shorter
    than 32768 bytes. *)
Lemma known_block_skipped gs ngrp npre nc0 seen ty len s s' :
  length gs = 16%nat -> (ngrp <= 16)%nat -> (npre <= 8)%nat -> 0 <= nc0 <= 16 ->
  wf s -> 0 <= len < 32768 ->
  exec (framed (s16 len) (data_block gs ngrp npre nc0 seen ty len)) s = Done (Ok tt, s') ->
  exists sp, exec (data_block gs ngrp npre nc0 seen ty len) s = Done (Ok tt, sp) /\
    (bitpos sp <= bitpos s + 8 * len -> bitpos s' = bitpos s + 8 * len).
Proof.
  intros LG H1 H2 H3 W Hl E.
  destruct (exec_framed _ _ s tt s' _ (wp_data_block gs ngrp npre nc0 seen ty len LG H1 H2 ltac:(lia)) W E) as (sp & E1 & B).
  exists sp. split; [exact E1|]. rewrite s16_small in B by lia. lia.
Qed.

(** A composite-object-pair block (type 3) announcing 32768 bytes: only its own 7 bits are
    consumed. *)
Definition zeros_32k : list Z := repeat 0 (Z.to_nat 32768).
Lemma long_block_check :
  match exec (framed (s16 32768) (data_block (a_groups asi_zero) 0 0 0 [] 3 32768)) (fresh zeros_32k) with
    | Done (Ok tt, s') => bitpos s' =? 7 | _ => false end = true.
Proof. vm_compute. reflexivity. Qed.

Lemma long_block_refuted :
  exists d s', are_bytes d /\ 8 * 32768 <= r_cnt (fresh d) /\
   exec (framed (s16 32768) (data_block (a_groups asi_zero) 0 0 0 [] 3 32768)) (fresh d) = Done (Ok tt, s') /\
   bitpos s' = 7.
Proof.
  assert (X := long_block_check).
  assert (L : r_cnt (fresh zeros_32k) = 8 * 32768).
  { unfold fresh, zeros_32k. cbn [r_cnt]. rewrite repeat_length, Z2Nat.id by discriminate. reflexivity. }
  assert (B : are_bytes zeros_32k).
  { apply Forall_forall. intros x Hx. apply repeat_spec in Hx. subst. unfold is_byte. lia. }
  revert X L B. generalize zeros_32k as d. intros d X L B.
  destruct (exec _ (fresh d)) as [[[[]|] s']| |] eqn:E; try discriminate.
  exists d, s'. split; [exact B|]. split; [rewrite L; lia|].
  split; [exact E|]. apply Z.eqb_eq, X.
Qed.
