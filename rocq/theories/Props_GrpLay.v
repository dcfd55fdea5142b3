(** * Props_GrpLay: signal groups that bring their own loudspeaker layout *)

From Coq Require Import ZArith List Lia.
From Verif Require Import Bits BitBuf BitWrite Prog Cicp Config Spec_Config Spec_Flex Spec_ConfigFull Lem_ConfigSafe
  GrpLay Spec_GrpLay Lem_GrpLay.
Import ListNotations.
Open Scope Z_scope.

(** A decoder that has read a named reference layout and nothing else. *)
Definition after_reference (ref rdc : Z) : ucfg :=
  s_u_rdc (s_u_ref config_zero (s_l_idx lay_zero ref)) rdc.

(** C119: the groups, with the layouts they bring, are stored as they were sent: the type and
    the number of signals by group, the own layouts by channel group. *)
Theorem C119_own_layouts : forall user u gs s rest,
  sig_ok (u_sig u) -> lay_ok (u_ref u) -> l_type (u_ref u) <> 3 -> fresh_layouts (u_sig u) ->
  valid_sgroups (u_rdc u) (l_idx (u_ref u)) gs -> wf s -> rest_bits s = enc_sgroups gs ++ rest ->
  exists u' s', exec (signals u user) s = Done ((0, u'), s') /\ rest_bits s' = rest /\
    holds_sgroups gs (u_sig u') /\ u_ref u' = u_ref u.
Proof.
  intros user u gs s rest S L T F V W E.
  destruct (sgroups_exec u user gs s rest V L S F T W E) as (u' & s' & H1 & H2 & H3 & H4 & _). eauto 10.
Qed.
Print Assumptions C119_own_layouts.

(** Channels, objects, channels by numbers, channels of the reference layout, channels with
    directions. *)
Definition mixed : list sgroup :=
  [mkSG 0 2 (Some (RNamed 2)); mkSG 1 3 None; mkSG 0 1 (Some (RListed [2])); mkSG 0 6 None;
   mkSG 0 2 (Some (RFlex true [(ByAngles 3 (-20) 35 false, true)]))].
Lemma mixed_valid : valid_sgroups 1 6 mixed.
Proof.
  unfold valid_sgroups. split; [cbn; lia|]. split; [repeat constructor; cbn; auto; lia|].
  split; [vm_compute; congruence|]. split; [vm_compute; congruence|]. split; [vm_compute; congruence|]. split; [auto|].
  intros i g r Hi T O. destruct i as [|[|[|[|[|[|i]]]]]]; cbn in Hi; try discriminate; inversion Hi; subst g; cbn in T, O; try discriminate;
    inversion O; subst r; cbn [own_ok].
  - split; [lia|]. left. reflexivity.
  - split; [cbn; lia|]. repeat constructor; lia.
  - split; [cbn; lia|]. split; repeat constructor; cbn; try lia; try discriminate; auto.
Qed.
Lemma after_reference_ok ref rdc : 0 <= ref <= 20 ->
  sig_ok (u_sig (after_reference ref rdc)) /\ lay_ok (u_ref (after_reference ref rdc)) /\
  l_type (u_ref (after_reference ref rdc)) <> 3 /\ fresh_layouts (u_sig (after_reference ref rdc)).
Proof.
  intros H. split; [constructor; try reflexivity|split; [constructor; cbn; try reflexivity; lia|split; [discriminate|]]].
  - apply Forall_forall. intros l Hl. cbn -[repeat] in Hl. apply repeat_spec in Hl. subst l. constructor; cbn; try reflexivity; lia.
  - apply Forall_forall. intros l Hl. cbn -[repeat] in Hl. apply repeat_spec in Hl. subst l. split; [reflexivity|].
    unfold unused. cbn -[repeat]. apply Forall_forall. intros f Hf. apply repeat_spec in Hf. subst f. discriminate.
Qed.
Example C119_own_case : valid_sgroups (u_rdc (after_reference 6 1)) (l_idx (u_ref (after_reference 6 1))) mixed /\
  sig_ok (u_sig (after_reference 6 1)) /\ lay_ok (u_ref (after_reference 6 1)) /\ fresh_layouts (u_sig (after_reference 6 1)).
Proof. split; [exact mixed_valid|]. destruct (after_reference_ok 6 1 ltac:(lia)) as (A & B & _ & D). auto. Qed.

(** C119: building the list of the input loudspeakers of the format converter reads and writes
    inside its tables, whatever was stored. *)
Theorem C119_safe : forall u, sig_ok (u_sig u) -> lay_ok (u_ref u) -> 0 <= q_num (u_sig u) <= 16 ->
  exists e l, converter_inputs u = Done (e, l) /\ (e = 0 \/ e = E_CICP_SPKR).
Proof. exact converter_safe. Qed.
Print Assumptions C119_safe.

(** C119: the channel groups being sent before all others and with named layouts only, the
    input of the format converter begins with their loudspeakers, in order.  (In part: not so
    when a group of another type comes before, see below; layouts that are not named are taken
    for what their entry named before.) *)
Theorem C119_inputs_partial : forall user u cs os s rest,
  sig_ok (u_sig u) -> lay_ok (u_ref u) -> l_type (u_ref u) <> 3 -> fresh_layouts (u_sig u) -> q_info (u_sig u) <> 1 ->
  l_idx (u_ref u) <> 0 -> l_idx (u_ref u) <> 8 ->
  valid_sgroups (u_rdc u) (l_idx (u_ref u)) (cs ++ os) ->
  Forall (fun g => sg_type g = 0) cs -> Forall (fun g => sg_type g <> 0) os -> Forall named cs ->
  wf s -> rest_bits s = enc_sgroups (cs ++ os) ++ rest ->
  exists u' s' more, exec (signals u user) s = Done ((0, u'), s') /\
    converter_inputs u' = Done (0, loudspeakers (l_idx (u_ref u)) (cs ++ os) ++ more) /\ (os = [] -> more = []).
Proof.
  intros user u cs os s rest S L T F Q R0 R8 V FC FO FN W E.
  destruct (sgroups_exec u user (cs ++ os) s rest V L S F T W E) as (u' & s' & H1 & H2 & H3 & H4 & H5 & H6).
  destruct V as (V & _). rewrite <- H4 in *.
  destruct (inputs_ok u' cs os H6 ltac:(congruence) L R0 R8 H3 (proj2 V) FC FO FN) as (more & M1 & M2). eauto 10.
Qed.
Print Assumptions C119_inputs_partial.
Example C119_inputs_case : let cs := [mkSG 0 2 (Some (RNamed 2)); mkSG 0 6 None] in let os := [mkSG 1 3 None] in
  valid_sgroups 1 6 (cs ++ os) /\ Forall named cs /\ loudspeakers 6 (cs ++ os) = [0; 1] ++ [0; 1; 2; 3; 4; 5].
Proof.
  cbv zeta. split; [|split; [repeat constructor|reflexivity]].
  unfold valid_sgroups. split; [cbn; lia|]. split; [repeat constructor; cbn; auto; lia|].
  split; [vm_compute; congruence|]. split; [vm_compute; congruence|]. split; [vm_compute; congruence|]. split; [auto|].
  intros i g r Hi T O. destruct i as [|[|[|[|i]]]]; cbn in Hi; try discriminate; inversion Hi; subst g; cbn in T, O; try discriminate;
    inversion O; subst r. cbn. split; [lia|]. left. reflexivity.
Qed.

(** An object, then the centre channel. *)
Definition object_first : list sgroup := [mkSG 1 1 None; mkSG 0 1 (Some (RNamed 1))].
(** C119: with a group of objects before the channels, the layout stored for the first channel
    group is looked for at the place of the second group: an accepted stream whose only channel
    is the centre gets the left loudspeaker of the reference layout for it.  (The two bits fill
    the last byte.) *)
Theorem C119_order_refuted : exists u gs, valid_sgroups (u_rdc u) (l_idx (u_ref u)) gs /\
  sig_ok (u_sig u) /\ lay_ok (u_ref u) /\ fresh_layouts (u_sig u) /\ loudspeakers (l_idx (u_ref u)) gs = [2] /\
  forall s, wf s -> rest_bits s = enc_sgroups gs ++ [false; false] ->
    exists u' s', exec (signals u 0) s = Done ((0, u'), s') /\ holds_sgroups gs (u_sig u') /\
      exists more, converter_inputs u' = Done (0, 0 :: more).
Proof.
  exists (after_reference 6 1), object_first.
  assert (V : valid_sgroups 1 6 object_first).
  { unfold valid_sgroups. split; [cbn; lia|]. split; [repeat constructor; cbn; auto; lia|].
    split; [vm_compute; congruence|]. split; [vm_compute; congruence|]. split; [vm_compute; congruence|]. split; [auto|].
    intros i g r Hi T O. destruct i as [|[|[|i]]]; cbn in Hi; try discriminate; inversion Hi; subst g; cbn in T, O; try discriminate;
      inversion O; subst r. cbn. split; [lia|]. left. reflexivity. }
  destruct (after_reference_ok 6 1 ltac:(lia)) as (A & B & C & D).
  split; [exact V|]. split; [exact A|]. split; [exact B|]. split; [exact D|]. split; [reflexivity|].
  intros s W E.
  destruct (sgroups_exec (after_reference 6 1) 0 object_first s _ V B A D C W E) as (u' & s' & H1 & H2 & H3 & _).
  exists u', s'. split; [exact H1|]. split; [exact H3|].
  assert (X : exists v, runA (signals (after_reference 6 1) 0) (enc_sgroups object_first ++ [false; false]) = Done ((0, v), [false; false]) /\
     converter_inputs v = Done (0, [0; 1; 2; 3; 4; 5])).
  { eexists. split; vm_compute; reflexivity. }
  destruct X as (v & X1 & X2). rewrite <- E in X1.
  destruct (Lem_MhasProps.exec_of_run _ _ _ _ W X1) as (s'' & Y & _). rewrite H1 in Y. injection Y as -> _. exists [1; 2; 3; 4; 5]. exact X2.
Qed.
Print Assumptions C119_order_refuted.

(** C119: a group may name a layout that does not have as many loudspeakers as the group has
    signals; the loudspeakers of all later groups are then those of other channels: here the
    second group, the two channels of a stereo layout, is given to the right and the centre. *)
Theorem C119_count_refuted : exists u gs, valid_sgroups (u_rdc u) (l_idx (u_ref u)) gs /\
  sig_ok (u_sig u) /\ lay_ok (u_ref u) /\ fresh_layouts (u_sig u) /\
  map sg_n gs = [1; 2] /\ map (own_name 6) gs = [6; 2] /\ ls_set 2 = [0; 1] /\
  forall s rest, wf s -> rest_bits s = enc_sgroups gs ++ rest ->
    exists u' s' more, exec (signals u 0) s = Done ((0, u'), s') /\
      converter_inputs u' = Done (0, [0] ++ [1; 2] ++ more).
Proof.
  exists (after_reference 6 1), [mkSG 0 1 (Some (RNamed 6)); mkSG 0 2 (Some (RNamed 2))].
  assert (V : valid_sgroups 1 6 [mkSG 0 1 (Some (RNamed 6)); mkSG 0 2 (Some (RNamed 2))]).
  { unfold valid_sgroups. split; [cbn; lia|]. split; [repeat constructor; cbn; auto; lia|].
    split; [vm_compute; congruence|]. split; [vm_compute; congruence|]. split; [vm_compute; congruence|]. split; [auto|].
    intros i g r Hi T O. destruct i as [|[|[|i]]]; cbn in Hi; try discriminate; inversion Hi; subst g; cbn in T, O; try discriminate;
      inversion O; subst r; cbn; (split; [lia|]); right; vm_compute; congruence. }
  destruct (after_reference_ok 6 1 ltac:(lia)) as (A & B & C & D).
  split; [exact V|]. split; [exact A|]. split; [exact B|]. split; [exact D|]. split; [reflexivity|]. split; [reflexivity|]. split; [reflexivity|].
  intros s rest W E.
  destruct (C119_inputs_partial 0 (after_reference 6 1) [mkSG 0 1 (Some (RNamed 6)); mkSG 0 2 (Some (RNamed 2))] [] s rest A B C D
    ltac:(discriminate) ltac:(discriminate) ltac:(discriminate) V ltac:(repeat constructor) ltac:(constructor)
    ltac:(repeat constructor) W E) as (u' & s' & more & H1 & H2 & _).
  exists u', s', ([3; 4; 5; 0; 1] ++ more). split; [exact H1|exact H2].
Qed.
Print Assumptions C119_count_refuted.
