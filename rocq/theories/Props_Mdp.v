(** * Props_Mdp: presets, switch groups and interaction (C43, C89-C92) *)
From Coq Require Import ZArith List Lia Bool.
From Verif Require Import Prog Asi Ei Mdp Spec_Mdp Lem_Mdp Lem_MdpOn Lem_MdpMore.
Import ListNotations.
Open Scope Z_scope.

(** ** C89: at most one member of a switch group is on *)

(** Whatever preset, packet and earlier statuses: after a frame that is processed, at most one
    member of each switch group is on, and one is when the group cannot be off. *)
Theorem C89_one_member_on : forall a x e old_type dmx sel st st' sel',
  scene_ok a -> switch_ok a -> presets_ok a -> (length (groups a) <= length st)%nat ->
  ei_process a x e old_type dmx sel st = Some (Ok (st', sel')) ->
  0 < a_np a -> exclusive a st'.
Proof.
  intros a x e ty dmx sel st st' sel' SO SW PO L E N. unfold ei_process in E.
  rewrite (proj2 (Z.ltb_lt 0 (a_np a)) N) in E. exact (proj1 (frame_exclusive a x e ty dmx sel st st' sel' SO SW PO L E)).
Qed.
Print Assumptions C89_one_member_on.

(** Which member: the one asked for if there is exactly one, otherwise the default one -
    or none, if none was asked for and the group may be off.  Other groups keep theirs. *)
Theorem C89_decision : forall a st, scene_ok a -> switch_ok a -> (length (groups a) <= length st)%nat ->
  exists st', sg_logic a (switches a) st = Some st' /\
    (forall s m, In s (switches a) -> In m (members s) ->
       (onb a st' m = true <-> In m (decided s (filter (onb a st) (members s))))) /\
    (forall id, In id (map g_id (groups a)) -> free a id -> onb a st' id = onb a st id).
Proof.
  intros a st SO SW L. destruct (logic_spec a SO st SW L) as (st' & E & T & D). exists st'. split; [exact E|]. split; [exact D|].
  intros id H F. eapply touches_onb; [exact SO|exact T|exact H|exact F].
Qed.
Print Assumptions C89_decision.

Definition c89_scene := scene [grp 5 1 1 [0]; grp 9 1 1 [1]; grp 7 1 0 [2]] [sw 0 0 9 [5; 9]] [pre 3 [cnd 7 1]; pre 2 [cnd 7 0]].
(** Both members are on by default: the default member stays. *)
Example C89_case : scene_ok c89_scene /\ switch_ok c89_scene /\ presets_ok c89_scene /\
  ei_process c89_scene xplain nopacket 0 (-1) (-1) (repeat 0 16) = Some (Ok ([0; 1; 0] ++ repeat 0 13, 2)).
Proof.
  split; [split; [cbn; lia|]; split; [reflexivity|]; split; [repeat constructor; cbn; intuition discriminate|]; split; [reflexivity|cbn; lia]|].
  split; [split; [repeat constructor; cbn; intuition discriminate|]; split; [repeat constructor; cbn; intuition discriminate|]|].
  - constructor; [split; [vm_compute; tauto|intros m Hm; vm_compute in Hm; vm_compute; tauto]|constructor].
  - split; [|vm_compute; reflexivity]. split; [cbn; lia|]. split; [reflexivity|]. cbn.
    repeat (constructor; [cbn; split; [lia|]; split; [lia|]; split; [reflexivity|]; repeat (constructor; [cbn; lia|]); constructor|]). constructor.
Qed.

(** A switch group that names a group the scene does not have makes every frame fail ... *)
Theorem C89_unknown_member_refuted : forall a x e old_type dmx sel st r, presets_ok a -> 0 < a_np a ->
  (exists s m, In s (switches a) /\ In m (members s) /\ ~ In m (map g_id (groups a))) ->
  ei_process a x e old_type dmx sel st <> Some (Ok r).
Proof.
  intros a x e ty dmx sel st r PO N U. unfold ei_process. rewrite (proj2 (Z.ltb_lt 0 (a_np a)) N). apply frame_unknown; assumption.
Qed.
Print Assumptions C89_unknown_member_refuted.
(** ... and the failure is a write or read at index -1 of the statuses. *)
Theorem C89_unknown_member_ub_refuted : exists a x e, presets_ok a /\ scene_ok a /\
  ei_process a x e 0 (-1) (-1) (repeat 0 16) = None.
Proof.
  exists (scene [grp 5 1 1 [0]] [sw 0 0 5 [5; 6]] [pre 2 [cnd 5 1]]), xplain, nopacket. split; [|split; [|vm_compute; reflexivity]].
  - split; [cbn; lia|]. split; [reflexivity|]. cbn. repeat (constructor; [cbn; split; [lia|]; split; [lia|]; split; [reflexivity|]; repeat (constructor; [cbn; lia|]); constructor|]). constructor.
  - split; [cbn; lia|]. split; [reflexivity|]. split; [repeat constructor; intros []|]. split; [reflexivity|cbn; lia].
Qed.
Print Assumptions C89_unknown_member_ub_refuted.

(** A preset condition for a switch group other than the first condition reads the members of
    a switch group with the number of the condition, and writes outside the statuses. *)
Theorem C89_switch_condition_refuted : exists a x, scene_ok a /\ switch_ok a /\ a_ns a = 1 /\
  xe_sgc x = ([0; 1] ++ repeat 0 14) :: repeat (repeat 0 16) 7 /\
  ei_process a x nopacket 0 (-1) (-1) (repeat 0 16) = None.
Proof.
  exists (scene [grp 5 1 1 [0]; grp 9 1 1 [1]; grp 7 1 0 [2]] [sw 0 1 9 [5; 9]] [pre 2 [cnd 7 0; cnd 0 0]]),
    (mkXe (repeat 0 8) [] [] [] (([0; 1] ++ repeat 0 14) :: repeat (repeat 0 16) 7)).
  split; [split; [cbn; lia|]; split; [reflexivity|]; split; [|split; [reflexivity|cbn; lia]]; repeat constructor; cbn; intuition discriminate|].
  split; [|split; [reflexivity|split; [reflexivity|vm_compute; reflexivity]]].
  split; [repeat constructor; cbn; intuition discriminate|]. split; [repeat constructor; cbn; intuition discriminate|].
  constructor; [split; [vm_compute; tauto|intros m Hm; vm_compute in Hm; vm_compute; tauto]|constructor].
Qed.
Print Assumptions C89_switch_condition_refuted.

(** ** C90: the status of every other group *)

(** The condition of the preset in force decides; without one the user does where the scene
    allows it, and otherwise the default. *)
Theorem C90_statuses_partial : forall a x e old_type dmx sel st p,
  scene_ok a -> switch_ok a -> presets_ok a -> plain_ext x -> 0 < a_np a ->
  length (ei_groups e) = 128%nat -> (chooses e = true -> ei_num e = a_ng a) -> (length (groups a) <= length st)%nat ->
  is_preset a p -> in_force a e sel (p_id p) ->
  (exists st', ei_process a x e old_type dmx sel st = Some (Ok (st', p_id p)) /\ exclusive a st' /\
     forall j g, nth_error (groups a) j = Some g -> free a (g_id g) ->
       nth_error st' j = Some (status p (if chooses e then option_map eg_on (nth_error (ei_groups e) j) else None) g)) \/
  ei_process a x e old_type dmx sel st = Some (Er E_SG_OFF).
Proof.
  intros a x e ty dmx sel st p SO SW PO PX N EL NE L IP IF. unfold ei_process. rewrite (proj2 (Z.ltb_lt 0 (a_np a)) N).
  exact (frame_status a x e ty dmx sel st p SO SW PO PX N EL NE L IP IF).
Qed.
Print Assumptions C90_statuses_partial.
(** Preset 3 says nothing about group 7, so the user's wish counts; group 8 cannot be switched. *)
Definition c90_scene := scene [grp 5 1 1 [0]; grp 7 1 0 [1]; grp 8 0 1 [2]] [] [pre 3 [cnd 5 0]].
Example C90_case : is_preset c90_scene (pre 3 [cnd 5 0]) /\ in_force c90_scene (packet 1 3 [(5, 1); (7, 1); (8, 0)]) (-1) 3 /\
  ei_process c90_scene xplain (packet 1 3 [(5, 1); (7, 1); (8, 0)]) 0 (-1) (-1) (repeat 0 16) = Some (Ok ([0; 1; 1] ++ repeat 0 13, 3)).
Proof. split; [reflexivity|]. split; [reflexivity|vm_compute; reflexivity]. Qed.

(** The packet names the group of each wish, but the wish is given to the group with the same
    position in the scene. *)
Theorem C90_wish_by_position_refuted : exists a x e st' i j,
  nth_error (map g_id (groups a)) i = Some (eg_id (nth j (ei_groups e) (mkEg 0 0 0 0 0 0 0 0 0 0))) /\
  eg_on (nth j (ei_groups e) (mkEg 0 0 0 0 0 0 0 0 0 0)) = 0 /\ (j < Z.to_nat (ei_num e))%nat /\ chooses e = true /\
  ei_process a x e 0 (-1) (-1) (repeat 0 16) = Some (Ok (st', ei_preset e)) /\ nth_error st' i = Some 1.
Proof.
  exists (scene [grp 5 1 0 [0]; grp 9 1 0 [1]; grp 7 0 1 [2]] [] [pre 3 [cnd 7 1]]), xplain, (packet 1 3 [(9, 1); (5, 0); (7, 1)]), ([1; 0; 1] ++ repeat 0 13), 0%nat, 1%nat.
  split; [reflexivity|]. split; [reflexivity|]. split; [cbn; lia|]. split; [reflexivity|]. split; [vm_compute; reflexivity|reflexivity].
Qed.
Print Assumptions C90_wish_by_position_refuted.

(** A preset that turns a member of a switch group on and then another one fails. *)
Theorem C90_switch_conflict_refuted : exists a x, scene_ok a /\ switch_ok a /\ presets_ok a /\
  ei_process a x nopacket 0 (-1) (-1) (repeat 0 16) = Some (Er E_SG_OFF).
Proof.
  exists (scene [grp 5 1 1 [0]; grp 9 1 1 [1]] [sw 0 0 9 [5; 9]] [pre 2 [cnd 9 1]]), xplain.
  split; [split; [cbn; lia|]; split; [reflexivity|]; split; [|split; [reflexivity|cbn; lia]]; repeat constructor; cbn; intuition discriminate|].
  split; [split; [repeat constructor; cbn; intuition discriminate|]; split; [repeat constructor; cbn; intuition discriminate|]; constructor; [split; [vm_compute; tauto|intros m Hm; vm_compute in Hm; vm_compute; tauto]|constructor]|].
  split; [|vm_compute; reflexivity]. split; [cbn; lia|]. split; [reflexivity|]. cbn.
  repeat (constructor; [cbn; split; [lia|]; split; [lia|]; split; [reflexivity|]; repeat (constructor; [cbn; lia|]); constructor|]). constructor.
Qed.
Print Assumptions C90_switch_conflict_refuted.

(** ** C91: the preset in force *)

(** After a frame that is processed the preset in force is the user's choice; without one it is
    the preset in force before, and otherwise the one with the least id. *)
Theorem C91_preset_in_force : forall a x e old_type dmx sel st st' sel', presets_ok a -> 0 < a_np a ->
  ei_process a x e old_type dmx sel st = Some (Ok (st', sel')) -> in_force a e sel sel'.
Proof.
  intros a x e ty dmx sel st st' sel' PO N E. unfold ei_process in E. rewrite (proj2 (Z.ltb_lt 0 (a_np a)) N) in E.
  exact (frame_sel a x e ty dmx sel st st' sel' PO N E).
Qed.
Print Assumptions C91_preset_in_force.
Example C91_case : in_force c89_scene nopacket (-1) 2 /\
  ei_process c89_scene xplain (packet 1 3 [(5, 1); (9, 0); (7, 1)]) 0 (-1) 2 (repeat 0 16) = Some (Ok ([1; 0; 1] ++ repeat 0 13, 3)).
Proof. split; [|vm_compute; reflexivity]. cbn. split; [right; left; reflexivity|]. intros p [<-|[<-|[]]]; cbn; lia. Qed.

(** A choice the scene does not have, or wishes for another number of groups, is refused. *)
Theorem C91_unknown_preset : forall a x e old_type dmx sel st, presets_ok a -> 0 < a_np a -> chooses e = true ->
  ~ In (ei_preset e) (map p_id (presets a)) \/ ei_num e <> a_ng a ->
  exists c, ei_process a x e old_type dmx sel st = Some (Er c).
Proof.
  intros a x e ty dmx sel st PO N C H. unfold ei_process. rewrite (proj2 (Z.ltb_lt 0 (a_np a)) N). exact (frame_reject a x e ty dmx sel st PO N C H).
Qed.
Print Assumptions C91_unknown_preset.

(** In a scene without presets the packet is accepted but has no effect: a group the user
    switched off is still heard. *)
Theorem C91_no_presets_refuted :
  (forall a x e old_type dmx sel st, a_np a = 0 -> ei_process a x e old_type dmx sel st = Some (Ok (st, sel))) /\
  exists a e, a_np a = 0 /\ map g_onoff (groups a) = [1] /\ ei_present e = 1 /\ ei_num e = a_ng a /\
    map eg_on (firstn 1 (ei_groups e)) = [0] /\
    ei_process a xplain e 0 (-1) (-1) (repeat 0 16) = Some (Ok (repeat 0 16, -1)) /\
    heard 0 [77] a (-1) = Some (Ok [77]).
Proof.
  split; [intros a x e ty dmx sel st H; unfold ei_process; rewrite H; reflexivity|].
  exists (scene [grp 5 1 1 [0]] [] []), (packet 0 0 [(5, 0)]). repeat (split; [reflexivity|]). vm_compute. reflexivity.
Qed.
Print Assumptions C91_no_presets_refuted.

(** ** C92: which channels are heard *)

(** Without a preset: exactly the channels of the groups that are on by default; the others
    are silent. *)
Theorem C92_default : forall (A : Type) (z : A) ins a,
  (forall g, In g (groups a) -> g_def g <> 0 -> in_range ins g) ->
  heard z ins a (-1) = Some (Ok (mix z ins (audible (groups a) (fun g => negb (g_def g =? 0))))).
Proof. exact @heard_default. Qed.
Print Assumptions C92_default.
Theorem C92_default_bad_channel : forall (A : Type) (z : A) ins a g, In g (groups a) -> g_def g <> 0 -> ~ in_range ins g ->
  heard z ins a (-1) = Some (Er E_UNSUPP_CH).
Proof. exact @heard_default_bad. Qed.
Print Assumptions C92_default_bad_channel.
(** With a preset: exactly the channels of the groups it turns on - when it has a condition for
    every group, the group with the number of the condition numbers its channels in the same
    way, and no channel is in two groups. *)
Theorem C92_preset_partial : forall (A : Type) (z : A) ins a k p,
  nth_error (a_presets a) k = Some p -> (forall m q, (m < k)%nat -> nth_error (a_presets a) m = Some q -> p_id q <> p_id p) ->
  p_id p <> -1 -> (k < Z.to_nat (a_ng a))%nat ->
  (forall g, In g (groups a) -> covered a p g /\ in_range ins g) -> NoDup (concat (map g_members (groups a))) ->
  heard z ins a (p_id p) = Some (Ok (mix z ins (audible (groups a) (p_on p)))).
Proof. exact @heard_preset. Qed.
Print Assumptions C92_preset_partial.
Definition c92_scene := scene [grp 5 1 1 [0; 2]; grp 9 1 0 [1]] [] [pre 3 [cnd 9 1; cnd 5 0]].
Example C92_case :
  heard 0 [11; 22; 33] c92_scene (-1) = Some (Ok [11; 0; 33]) /\ heard 0 [11; 22; 33] c92_scene 3 = Some (Ok [0; 22; 0]) /\
  forall g, In g (groups c92_scene) -> covered c92_scene (pre 3 [cnd 9 1; cnd 5 0]) g /\ in_range [11; 22; 33] g.
Proof.
  split; [vm_compute; reflexivity|]. split; [vm_compute; reflexivity|]. intros g [<-|[<-|[]]]; (split; [|unfold in_range; intros m Hm; vm_compute in Hm; cbn [length]; lia]).
  - exists 1, (cnd 5 0). split; [reflexivity|]. split; [lia|]. split; [reflexivity|]. split; [reflexivity|]. intros H. cbn in H. lia.
  - exists 0, (cnd 9 1). split; [reflexivity|]. split; [lia|]. split; [reflexivity|]. split; [reflexivity|]. intros _. eexists. split; reflexivity.
Qed.

(** A preset that says nothing about the first group is refused ... *)
Theorem C92_first_group_refuted : forall (A : Type) (z : A) ins a k p g r,
  nth_error (a_presets a) k = Some p -> (forall m q, (m < k)%nat -> nth_error (a_presets a) m = Some q -> p_id q <> p_id p) ->
  p_id p <> -1 -> (k < Z.to_nat (a_ng a))%nat -> groups a = g :: r -> cond_of p (g_id g) = None ->
  heard z ins a (p_id p) = Some (Er E_INV_GRP).
Proof. exact @heard_first. Qed.
Print Assumptions C92_first_group_refuted.
(** ... and a later group it says nothing about gets the condition of the group before it:
    here group 9 is on by default, and silent because group 5 is off. *)
Theorem C92_stale_condition_refuted : exists a p, cond_of p 9 = None /\ In 9 (map g_id (groups a)) /\
  map g_def (groups a) = [1; 1] /\ nth_error (a_presets a) 0 = Some p /\ heard 0 [11; 22] a (p_id p) = Some (Ok [0; 0]).
Proof.
  exists (scene [grp 5 1 1 [0]; grp 9 1 1 [1]] [] [pre 3 [cnd 5 0]]), (pre 3 [cnd 5 0]).
  split; [reflexivity|]. split; [vm_compute; tauto|]. split; [reflexivity|]. split; [reflexivity|vm_compute; reflexivity].
Qed.
Print Assumptions C92_stale_condition_refuted.
(** The channels of a group that is on are numbered the way another group does it: here group 5
    has channel 2 and channel 0 is heard instead. *)
Theorem C92_wrong_channels_refuted : exists a p, nth_error (a_presets a) 0 = Some p /\ cond_of p 5 = Some 1 /\ cond_of p 9 = Some 0 /\
  map g_members (groups a) = [[2]; [1]] /\ heard 0 [11; 22; 33] a (p_id p) = Some (Ok [11; 0; 0]).
Proof.
  exists (scene [grp 5 1 1 [2]; mkG 9 1 1 1 0 10 0 10 0 10 1 4 10 1 1 1 (repeat 0 128)] [] [pre 3 [cnd 9 0; cnd 5 1]]), (pre 3 [cnd 9 0; cnd 5 1]).
  split; [reflexivity|]. split; [reflexivity|]. split; [reflexivity|]. split; [reflexivity|vm_compute; reflexivity].
Qed.
Print Assumptions C92_wrong_channels_refuted.
(** A preset with a number not below the number of groups is not found ... *)
Theorem C92_late_preset_refuted : forall (A : Type) (z : A) ins a pid, pid <> -1 -> (Z.to_nat (a_ng a) <= length (a_presets a))%nat ->
  (forall m q, (m < Z.to_nat (a_ng a))%nat -> nth_error (a_presets a) m = Some q -> p_id q <> pid) ->
  heard z ins a pid = Some (Er E_INV_PRESET).
Proof. exact @heard_late. Qed.
Print Assumptions C92_late_preset_refuted.
(** ... and with more groups than there is room for presets the search leaves the array. *)
Theorem C92_search_refuted : forall (A : Type) (z : A) ins a pid, pid <> -1 ->
  (length (a_presets a) < Z.to_nat (a_ng a))%nat -> (forall q, In q (a_presets a) -> p_id q <> pid) -> heard z ins a pid = None.
Proof. exact @heard_over. Qed.
Print Assumptions C92_search_refuted.
Example C92_late_case :
  heard 0 [11] (scene [grp 5 1 1 [0]] [] [pre 3 [cnd 5 1]; pre 4 [cnd 5 1]]) 4 = Some (Er E_INV_PRESET) /\
  heard 0 [11] (scene (map (fun i => grp i 1 1 [0]) [1; 2; 3; 4; 5; 6; 7; 8; 9]) [] [pre 3 [cnd 5 1]]) 4 = None.
Proof. split; vm_compute; reflexivity. Qed.

(** ** C43: gains and positions stay within the limits of the scene *)

(** The gain of a group whose gain the scene allows to change: within its limits, the one
    asked for whenever that is within them, and flagged exactly when it is not. *)
Theorem C43_gain_within_limits : forall off dis user g, gain_fields g -> g_gain g <> 0 ->
  let '(v, e) := channel_gain off dis user g in
  2 * min_gain g <= v <= 2 * max_gain g /\
  (e = false <-> 2 * min_gain g <= asked_gain off dis user <= 2 * max_gain g) /\
  (e = false -> v = asked_gain off dis user).
Proof. exact gain_limits. Qed.
Print Assumptions C43_gain_within_limits.
Example C43_case : gain_fields (grp 5 1 1 [0]) /\ channel_gain 3 false 66 (grp 5 1 1 [0]) = (7, false) /\
  channel_gain 0 false 127 (grp 5 1 1 [0]) = (20, true) /\ channel_gain 0 false 0 (grp 5 1 1 [0]) = (-120, true).
Proof. repeat split; cbn; lia. Qed.

(** A group whose gain the scene does not allow to change gets 1 dB. *)
Theorem C43_gain_not_allowed_refuted : forall off dis user g, g_gain g = 0 -> channel_gain off dis user g = (2, false).
Proof. intros off dis user g H. unfold channel_gain. rewrite H. reflexivity. Qed.
Print Assumptions C43_gain_not_allowed_refuted.

(** A switch group condition that disables the user's gain is not obeyed unless it disables
    the user's position too. *)
Theorem C43_disabled_gain_refuted : exists a x p c, In c (conds p) /\ c_ref c = 0 /\ c_disgain c = 1 /\ cond_of p 5 = None /\
  switch_of a 5 = Some 0 /\ preset_gain a x 0 p 5 = Some (0, false).
Proof.
  exists (scene [grp 5 1 1 [0]; grp 9 1 1 [1]] [sw 0 1 9 [5; 9]] [pre 2 [mkC 0 1 1 0 0 0 0 0 0 0]]),
    (mkXe (repeat 0 8) [] [] [] ((1 :: repeat 0 15) :: repeat (repeat 0 16) 7)), (pre 2 [mkC 0 1 1 0 0 0 0 0 0 0]), (mkC 0 1 1 0 0 0 0 0 0 0).
  split; [left; reflexivity|]. repeat (split; [reflexivity|]). reflexivity.
Qed.
Print Assumptions C43_disabled_gain_refuted.

(** The offsets applied to the objects of a group are within the limits of the scene, and the
    ones asked for whenever those are; the flag is set exactly when they are not. *)
Theorem C43_position_within_limits : forall a x k p dmx g user az el di err, pos_fields g ->
  group_pos a x k p dmx g user = Some (Some ((az, el, di), err)) ->
  within g az el di /\
  exists e az0 el0 di0, ext_of x k dmx = Some e /\ -1 < e /\ pos_ext a x k e (g_id g) user = Some (Some (az0, el0, di0)) /\
    (err = false <-> within g az0 el0 di0) /\ (err = false -> (az, el, di) = (az0, el0, di0)).
Proof.
  intros a x k p dmx g user az el di err PF. unfold group_pos. destruct (ext_of x k dmx) as [e|]; [|discriminate].
  destruct (Z.leb_spec e (-1)) as [E|E].
  - unfold pos_offsets. destruct (find _ (conds p)); [discriminate|]. destruct (switch_of a (g_id g)); [|discriminate]. destruct (find_sgc x k z (conds p) 0) as [[?|]|]; discriminate.
  - destruct (pos_ext a x k e (g_id g) user) as [[[[az0 el0] di0]|]|] eqn:P; [|discriminate..]. pose proof (limit_pos_spec g az0 el0 di0 PF) as L.
    destruct (limit_pos g az0 el0 di0) as [[[a1 e1] d1] f]. intros [= -> -> -> ->]. destruct L as (L1 & L2 & L3 & _). split; [exact L1|].
    exists e, az0, el0, di0. split; [reflexivity|]. split; [lia|]. split; [exact P|]. split; [exact L2|exact L3].
Qed.
Print Assumptions C43_position_within_limits.

(** An azimuth above the greatest one allowed becomes the LEAST one. *)
Theorem C43_azimuth_refuted : forall a x k p dmx g user e az el di, pos_fields g -> ext_of x k dmx = Some e -> -1 < e ->
  pos_ext a x k e (g_id g) user = Some (Some (az, el, di)) -> g_maxaz g < az ->
  exists el' di' err, group_pos a x k p dmx g user = Some (Some ((g_minaz g, el', di'), err)).
Proof.
  intros a x k p dmx g user e az el di PF E E1 P A. unfold group_pos. rewrite E. destruct (Z.leb_spec e (-1)); [lia|]. rewrite P.
  pose proof (limit_pos_spec g az el di PF) as L. destruct (limit_pos g az el di) as [[[a1 e1] d1] f]. destruct L as (_ & _ & _ & L). rewrite (L A). eexists _, _, _. reflexivity.
Qed.
Print Assumptions C43_azimuth_refuted.
(** One preset with one extension for downmix 2, with a condition for group 5. *)
Definition c43_ext : xext := mkXe (1 :: repeat 0 7) [[2]] [[1]] [[[mkX 0 5 1 0 0 0 1]]] (repeat (repeat 0 16) 8).
Definition c43_scene := scene [grp 5 1 1 [0]] [] [pre 2 [cnd 5 1]].
Example C43_position_case : pos_fields (grp 5 1 1 [0]) /\
  group_pos c43_scene c43_ext 0 (pre 2 [cnd 5 1]) 2 (grp 5 1 1 [0]) (7, 4, 2) = Some (Some ((7, 4, 2), false)) /\
  group_pos c43_scene c43_ext 0 (pre 2 [cnd 5 1]) 2 (grp 5 1 1 [0]) (12, 4, 2) = Some (Some ((0, 4, 2), true)).
Proof. split; [unfold pos_fields; cbn; lia|]. split; vm_compute; reflexivity. Qed.

(** Without an extension for the downmix, a preset with a condition for the group makes the
    decoder read entry -1 of the extensions, and otherwise the user's position is dropped. *)
Theorem C43_no_extension_refuted : forall a x k p dmx g user, ext_of x k dmx = Some (-1) ->
  (cond_of p (g_id g) <> None -> group_pos a x k p dmx g user = None) /\
  (cond_of p (g_id g) = None -> switch_of a (g_id g) = None -> group_pos a x k p dmx g user = Some None).
Proof.
  intros a x k p dmx g user E. unfold group_pos. rewrite E. change (-1 <=? -1) with true. cbv iota. unfold pos_offsets, cond_of.
  destruct (find _ (conds p)); cbn [option_map]; split; intros H.
  - reflexivity.
  - discriminate.
  - congruence.
  - intros S. rewrite S. reflexivity.
Qed.
Print Assumptions C43_no_extension_refuted.
Example C43_no_extension_case : ext_of xplain 0 2 = Some (-1) /\ group_pos c43_scene xplain 0 (pre 2 [cnd 5 1]) 2 (grp 5 1 1 [0]) (7, 4, 2) = None.
Proof. split; vm_compute; reflexivity. Qed.

(** The gain of a group that a preset has a condition for: what the preset and the user ask
    for together, the user left out when the preset disables that, as long as it is within
    the limits. *)
Theorem C43_preset_gain : forall a x k p g c user, gain_fields g -> g_gain g <> 0 ->
  find (fun c => c_ref c =? g_id g) (conds p) = Some c ->
  let want := preset_halves c + (if c_disgain c =? 1 then 0 else user_halves user) in
  exists off dis v e, preset_gain a x k p (g_id g) = Some (off, dis) /\ channel_gain off dis user g = (v, e) /\
    2 * min_gain g <= v <= 2 * max_gain g /\ (e = false <-> 2 * min_gain g <= want <= 2 * max_gain g) /\ (e = false -> v = want).
Proof.
  intros a x k p g c user GF GG F want. unfold preset_gain. rewrite F.
  set (off := if c_gainflag c =? 1 then half_gain (c_gain c) else 0). set (dis := c_disgain c =? 1).
  pose proof (gain_limits off dis user g GF GG) as L. destruct (channel_gain off dis user g) as [v e] eqn:E.
  assert (EQ : asked_gain off dis user = want).
  { unfold asked_gain, want, off, dis, preset_halves, user_halves, half_gain. destruct (c_gainflag c =? 1), (c_disgain c =? 1); lia. }
  rewrite EQ in L. exists off, dis, v, e. split; [reflexivity|]. split; [exact E|exact L].
Qed.
Print Assumptions C43_preset_gain.
Example C43_preset_gain_case :
  let g := grp 5 1 1 [0] in let c := mkC 5 1 0 1 200 0 0 0 0 0 in
  gain_fields g /\ g_gain g <> 0 /\ find (fun c => c_ref c =? g_id g) (conds (pre 2 [c])) = Some c /\ preset_halves c = 9 /\
  preset_gain c43_scene xplain 0 (pre 2 [c]) 5 = Some (9, false) /\ channel_gain 9 false 66 g = (13, false).
Proof. cbv zeta. split; [unfold gain_fields; cbn; lia|]. split; [discriminate|]. repeat (split; [reflexivity|]). reflexivity. Qed.

(** The position of the group with id 1, when the extension for the downmix has a condition
    for it: the user's, unless disabled, shifted by the offsets of the preset, as long as
    this is within the limits.  Proved for the first extension with one condition; for other
    ids it is false. *)
Lemma pos_one a x k p dmx g c user : pos_fields g -> only_cond x k dmx c -> x_gid c = g_id g -> x_sg c = 0 ->
  let want := if g_id g =? 1 then shifted (user_pos c user) c else user_pos c user in
  exists r e, group_pos a x k p dmx g user = Some (Some (r, e)) /\ within3 g r /\ (e = false <-> within3 g want) /\ (e = false -> r = want).
Proof.
  intros PF (E1 & E2 & E3) EG ES want. unfold group_pos. rewrite E1. change (0 <=? -1) with false. cbv iota. unfold pos_ext. rewrite E2.
  change (Z.to_nat 1) with 1%nat. cbn [last_xcond]. rewrite E3, EG, ES, Z.eqb_refl. change (0 =? 0) with true. cbn [andb]. rewrite E3, EG.
  cbn [snd orb].
  assert (EQ : (if g_id g =? 1 then (let '(az, el, di) := if negb (x_dispos c =? 0) then (0, 0, 1) else user in (az + x_az c, el + x_el c, di * x_dist c))
      else if negb (x_dispos c =? 0) then (0, 0, 1) else user) = want).
  { unfold want, shifted, user_pos. destruct (x_dispos c =? 0), (g_id g =? 1); reflexivity. }
  rewrite EQ. destruct want as [[az el] di]. pose proof (limit_pos_spec g az el di PF) as L.
  destruct (limit_pos g az el di) as [[[a1 e1] d1] f]. destruct L as (L1 & L2 & L3 & _). exists (a1, e1, d1), f. split; [reflexivity|]. split; [exact L1|]. split; [exact L2|exact L3].
Qed.
Theorem C43_preset_position_partial : forall a x k p dmx g c user, pos_fields g -> only_cond x k dmx c -> x_gid c = g_id g -> x_sg c = 0 -> g_id g = 1 ->
  let want := shifted (user_pos c user) c in
  exists r e, group_pos a x k p dmx g user = Some (Some (r, e)) /\ within3 g r /\ (e = false <-> within3 g want) /\ (e = false -> r = want).
Proof. intros a x k p dmx g c user PF O EG ES ID. pose proof (pos_one a x k p dmx g c user PF O EG ES) as H. rewrite ID in H. exact H. Qed.
Print Assumptions C43_preset_position_partial.

(** For every other group the offsets of the preset have no effect: the position is that of
    the user, or none when the preset disables it. *)
Theorem C43_preset_position_refuted : forall a x k p dmx g c user, pos_fields g -> only_cond x k dmx c -> x_gid c = g_id g -> x_sg c = 0 -> g_id g <> 1 ->
  let want := user_pos c user in
  exists r e, group_pos a x k p dmx g user = Some (Some (r, e)) /\ within3 g r /\ (e = false <-> within3 g want) /\ (e = false -> r = want).
Proof.
  intros a x k p dmx g c user PF O EG ES ID. pose proof (pos_one a x k p dmx g c user PF O EG ES) as H. destruct (Z.eqb_spec (g_id g) 1); [contradiction|exact H].
Qed.
Print Assumptions C43_preset_position_refuted.

(** The same condition, an azimuth of 3 more and twice the distance, for group 1 and for
    group 5: the first is moved, the second is not. *)
Definition c43_at (id dis : Z) : xext := mkXe (1 :: repeat 0 7) [[2]] [[1]] [[[mkX 0 id 1 dis 3 0 2]]] (repeat (repeat 0 16) 8).
Example C43_preset_position_case :
  only_cond (c43_at 1 0) 0 2 (mkX 0 1 1 0 3 0 2) /\
  group_pos c43_scene (c43_at 1 0) 0 (pre 2 [cnd 1 1]) 2 (grp 1 1 1 [0]) (5, 4, 2) = Some (Some ((8, 4, 4), false)) /\
  group_pos c43_scene (c43_at 1 1) 0 (pre 2 [cnd 1 1]) 2 (grp 1 1 1 [0]) (5, 4, 2) = Some (Some ((3, 0, 2), false)) /\
  group_pos c43_scene (c43_at 5 0) 0 (pre 2 [cnd 5 1]) 2 (grp 5 1 1 [0]) (5, 4, 2) = Some (Some ((5, 4, 2), false)).
Proof. repeat split; vm_compute; reflexivity. Qed.

(** With two extensions the flag that disables the user is taken from the wrong one: here
    the second extension, for downmix 3, disables the user's position and the user's
    position is used. *)
Theorem C43_disabled_position_refuted : exists a x p g c r, ext_of x 0 3 = Some 1 /\ ix2 (xe_ncond x) 0 1 = Some 1 /\ ix3 (xe_cond x) 0 1 0 = Some c /\
  x_gid c = g_id g /\ x_sg c = 0 /\ x_dispos c = 1 /\ pos_fields g /\
  group_pos a x 0 p 3 g (5, 4, 2) = Some (Some (r, false)) /\ r = (5, 4, 2).
Proof.
  exists c43_scene, (mkXe (2 :: repeat 0 7) [[2; 3]] [[1; 1]] [[[mkX 0 5 1 0 0 0 1]; [mkX 0 5 1 1 0 0 1]]] (repeat (repeat 0 16) 8)),
    (pre 2 [cnd 5 1]), (grp 5 1 1 [0]), (mkX 0 5 1 1 0 0 1), (5, 4, 2).
  repeat (split; [reflexivity|]). split; [unfold pos_fields; cbn; lia|]. split; [vm_compute; reflexivity|reflexivity].
Qed.
Print Assumptions C43_disabled_position_refuted.
