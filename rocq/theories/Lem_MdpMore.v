(** * Lem_MdpMore: the preset in force, the channels heard, the limits of gains and positions *)
From Coq Require Import ZArith List Lia Bool.
From Verif Require Import Prog Asi Ei Mdp Spec_Mdp Lem_Mdp Lem_MdpOn.
Import ListNotations.
Open Scope Z_scope.

(** ** The preset in force *)
Lemma min_fold : forall (l : list pdef) m, fold_left (fun m p => Z.min m (p_id p)) l m <= m /\
  (forall p, In p l -> fold_left (fun m p => Z.min m (p_id p)) l m <= p_id p) /\
  (fold_left (fun m p => Z.min m (p_id p)) l m = m \/ In (fold_left (fun m p => Z.min m (p_id p)) l m) (map p_id l)).
Proof.
  induction l as [|p l IH]; intros m; cbn [fold_left map]; [split; [lia|]; split; [intros p []|left; reflexivity]|].
  destruct (IH (Z.min m (p_id p))) as (H1 & H2 & H3). split; [lia|]. split.
  - intros q [<-|Hq]; [lia|apply H2, Hq].
  - destruct H3 as [H3|H3]; [|right; right; exact H3]. destruct (Z.min_spec m (p_id p)) as [[_ E]|[_ E]]; rewrite E in *; [left; exact H3|right; left; symmetry; exact H3].
Qed.
Lemma presets_len a : presets_ok a -> length (presets a) = Z.to_nat (a_np a).
Proof. intros (H1 & H2 & _). unfold presets. apply firstn_length_le. lia. Qed.
Lemma presets_in a p : In p (presets a) -> In p (a_presets a).
Proof. unfold presets. intros H. rewrite <- (firstn_skipn (Z.to_nat (a_np a)) (a_presets a)). apply in_app_iff. left. exact H. Qed.
Lemma presets_id a p : presets_ok a -> In p (presets a) -> 0 <= p_id p < 32.
Proof. intros (_ & _ & F) H. rewrite Forall_forall in F. apply (F p (presets_in a p H)). Qed.
Lemma min_least a : presets_ok a -> 0 < a_np a -> least a (min_preset a).
Proof.
  intros PO N. unfold least, min_preset. destruct (min_fold (presets a) 32) as (H1 & H2 & H3). split; [|exact H2].
  destruct H3 as [H3|H3]; [|exact H3]. destruct (presets a) as [|p l] eqn:E.
  - pose proof (presets_len a PO) as L. rewrite E in L. cbn in L. lia.
  - specialize (H2 p (or_introl eq_refl)). rewrite <- E in *. assert (0 <= p_id p < 32) by (apply (presets_id a p PO); rewrite E; left; reflexivity). lia.
Qed.
Lemma least_uniq a i j : least a i -> least a j -> i = j.
Proof.
  intros [H1 H2] [H3 H4]. apply in_map_iff in H1. apply in_map_iff in H3. destruct H1 as (p & <- & Hp). destruct H3 as (q & <- & Hq).
  specialize (H2 q Hq). specialize (H4 p Hp). lia.
Qed.

Lemma pos_of_absent {A} (f : A -> bool) l : pos_of f l 0 = -1 -> forall y, In y l -> f y = false.
Proof.
  intros E. destruct (pos_of_spec f l 0) as [[_ F]|(n & y & K & _)]; [lia| |lia]. rewrite Forall_forall in F. exact F.
Qed.
Lemma pos_of_found {A} (f : A -> bool) l y : find f l = Some y -> exists k, pos_of f l 0 = k /\ 0 <= k /\ nth_error l (Z.to_nat k) = Some y.
Proof.
  intros F. destruct (pos_of_spec f l 0) as [[E G]|(n & w & K & N & _ & F' & _)]; [lia| |].
  - rewrite Forall_forall in G. apply find_some in F. destruct F as [F1 F2]. rewrite (G y F1) in F2. discriminate.
  - exists (Z.of_nat n). rewrite K. split; [lia|]. split; [lia|]. rewrite Nat2Z.id. congruence.
Qed.

(** What [on_off] leaves as the selected preset. *)
Lemma on_off_sel a x c dmx sel st st' sel' : on_off a x c dmx sel st = Some (Ok (st', sel')) ->
  let ch := if i_dflt c then min_preset a else if i_apply c then ei_preset (i_ei c) else sel in
  (sel' = ch /\ In ch (map p_id (presets a))) \/ (sel' = sel /\ -1 < sel /\ ~ In ch (map p_id (presets a))).
Proof.
  unfold on_off. set (ch := if i_dflt c then _ else _). set (k := pos_of _ (presets a) 0). cbv zeta.
  destruct (Z.eqb_spec k (-1)) as [K|K]; cbn [andb].
  - assert (NI : ~ In ch (map p_id (presets a))).
    { intros C. apply in_map_iff in C. destruct C as (p & C1 & C2). pose proof (pos_of_absent _ _ K p C2) as X. cbv beta in X. lia. }
    destruct (Z.leb_spec sel (-1)); [discriminate|]. destruct (onoff_groups a x c sel dmx 0 (groups a) _) as [[s|]|]; [|discriminate..].
    destruct (sg_logic a (switches a) s); [|discriminate]. intros [= _ <-]. right. split; [reflexivity|]. split; [lia|exact NI].
  - assert (IN : In ch (map p_id (presets a))).
    { destruct (pos_of_in _ _ k eq_refl K) as (p & K1 & K2 & _). apply in_map_iff. exists p. split; [lia|eapply nth_error_In, K1]. }
    intros E. left. split; [|exact IN]. destruct (ch <=? -1).
    + destruct (i_type c =? 0); [|congruence]. destruct (advanced a c 0 (groups a) _) as [[s|]|]; [|discriminate..].
      destruct (sg_logic a (switches a) s); [|discriminate]. congruence.
    + destruct (onoff_groups a x c ch dmx 0 (groups a) _) as [[s|]|]; [|discriminate..].
      destruct (if -1 <? dmx then _ else _) as [e|]; [|discriminate]. destruct (ix (a_presets a) k) as [p|]; [|discriminate].
      destruct (if e <=? -1 then _ else _) as [n|]; [|discriminate]. destruct (sgc_all a x k e (Z.to_nat n) 0 s) as [s2|]; [|discriminate].
      destruct (sg_logic a (switches a) s2); [|discriminate]. congruence.
Qed.

Lemma frame_sel a x e ty dmx sel st st' sel' : presets_ok a -> 0 < a_np a ->
  frame_onoff a x e ty dmx sel st = Some (Ok (st', sel')) -> in_force a e sel sel'.
Proof.
  intros PO N. unfold frame_onoff, modes, in_force, chooses. pose proof (min_least a PO N) as ML.
  assert (NT : (0 <? a_np a) = true) by (apply Z.ltb_lt; exact N). rewrite NT. destruct (ei_present e =? 0); cbn [negb andb].
  - rewrite andb_true_r. cbn [i_apply i_dflt]. destruct (Z.ltb_spec sel 0) as [S|S].
    + destruct (Z.leb_spec 0 sel); [lia|]. intros E. apply on_off_sel in E. cbn [i_dflt] in E. destruct E as [[-> _]|(_ & C & _)]; [exact ML|lia].
    + destruct (Z.leb_spec 0 sel); [|lia]. intros E. apply on_off_sel in E. cbn [i_dflt i_apply] in E. destruct E as [[-> _]|(-> & _)]; reflexivity.
  - destruct (ei_mode e =? 0); cbn [negb].
    + cbn [i_apply i_dflt andb]. intros E. apply on_off_sel in E. cbn [i_dflt] in E. destruct E as [[-> _]|(_ & C & _)]; [exact ML|lia].
    + cbn [i_apply andb]. destruct (negb (ei_num e =? a_ng a)); [discriminate|]. cbn [i_apply]. intros E. apply on_off_sel in E. cbn [i_dflt i_apply i_ei] in E.
      destruct E as [[-> _]|(_ & C & _)]; [reflexivity|lia].
Qed.

Lemma frame_reject a x e ty dmx sel st : presets_ok a -> 0 < a_np a -> chooses e = true ->
  ~ In (ei_preset e) (map p_id (presets a)) \/ ei_num e <> a_ng a -> exists c, frame_onoff a x e ty dmx sel st = Some (Er c).
Proof.
  intros PO N C H. unfold frame_onoff, modes. unfold chooses in C. apply andb_true_iff in C. destruct C as [C1 C2].
  destruct (ei_present e =? 0); [discriminate|]. rewrite C2. assert (NT : (0 <? a_np a) = true) by (apply Z.ltb_lt; exact N). rewrite NT. cbn [i_apply andb].
  destruct (Z.eqb_spec (ei_num e) (a_ng a)) as [E|E]; cbn [negb]; [|eexists; reflexivity]. cbn [i_apply]. destruct H as [H|H]; [|contradiction].
  unfold on_off. cbn [i_dflt i_apply i_ei]. destruct (Z.eqb_spec (pos_of (fun p => p_id p =? ei_preset e) (presets a) 0) (-1)) as [K|K].
  - cbn [andb]. change (-1 <=? -1) with true. cbv iota. eexists. reflexivity.
  - exfalso. apply H. destruct (pos_of_in _ _ _ eq_refl K) as (p & K1 & K2 & _). apply in_map_iff. exists p. split; [lia|eapply nth_error_In, K1].
Qed.

(** ** The statuses of a frame *)
Definition wishes (e : ei) (j : nat) : option Z :=
  if chooses e then option_map eg_on (nth_error (ei_groups e) j) else None.

Lemma frame_status a x e ty dmx sel st p : scene_ok a -> switch_ok a -> presets_ok a -> plain_ext x -> 0 < a_np a ->
  length (ei_groups e) = 128%nat -> (chooses e = true -> ei_num e = a_ng a) -> (length (groups a) <= length st)%nat ->
  is_preset a p -> in_force a e sel (p_id p) ->
  (exists st', frame_onoff a x e ty dmx sel st = Some (Ok (st', p_id p)) /\ exclusive a st' /\
     forall j g, nth_error (groups a) j = Some g -> free a (g_id g) -> nth_error st' j = Some (status p (wishes e j) g)) \/
  frame_onoff a x e ty dmx sel st = Some (Er E_SG_OFF).
Proof.
  intros SO SW PO PX N EL NE L IP IF. destruct (pos_of_found _ _ _ IP) as (k & KP & K0 & PK).
  pose proof (min_least a PO N) as ML. assert (NT : (0 <? a_np a) = true) by (apply Z.ltb_lt; exact N).
  unfold frame_onoff, modes. rewrite NT. set (s0 := repeat 0 _ ++ _). pose proof (ng_len a SO) as NL.
  assert (L0 : (length (groups a) <= length s0)%nat) by (unfold s0; rewrite app_length, repeat_length, skipn_length; lia).
  unfold in_force, wishes in *. unfold chooses in *. destruct (ei_present e =? 0); cbn [negb andb] in *.
  - rewrite andb_true_r. cbn [i_apply i_dflt]. destruct (Z.ltb_spec sel 0) as [S|S].
    + destruct (Z.leb_spec 0 sel); [lia|]. apply (onoff_spec a x (mkI true false ty e) dmx SO SW PO PX EL k p PK KP K0); [|exact L0]. cbn [i_dflt]. eapply least_uniq; eassumption.
    + destruct (Z.leb_spec 0 sel); [|lia]. apply (onoff_spec a x (mkI false false ty e) dmx SO SW PO PX EL k p PK KP K0); [|exact L0]. cbn. symmetry. exact IF.
  - destruct (ei_mode e =? 0); cbn [negb] in *.
    + cbn [i_apply i_dflt andb]. apply (onoff_spec a x (mkI true false 1 e) dmx SO SW PO PX EL k p PK KP K0); [|exact L0]. cbn [i_dflt]. eapply least_uniq; eassumption.
    + cbn [i_apply andb]. rewrite (NE eq_refl), Z.eqb_refl. cbn [negb i_apply].
      apply (onoff_spec a x (mkI false true (ei_mode e) e) dmx SO SW PO PX EL k p PK KP K0); [|exact L0]. cbn. symmetry. exact IF.
Qed.

(** ** Channels *)
Definition has (c : nat) (ms : list Z) : bool := existsb (Z.eqb (Z.of_nat c)) ms.

Section Chan.
Context {A : Type} (z : A) (ins : list A).

Lemma copy_spec (on : bool) : forall ms out, (forall m, In m ms -> 0 <= m < Z.of_nat (length ins)) -> length out = length ins ->
  exists out', copy_cond z ins on ms out = Some (Ok out') /\ length out' = length ins /\
    forall c, (c < length ins)%nat -> nth_error out' c = if has c ms then (if on then nth_error ins c else Some z) else nth_error out c.
Proof.
  induction ms as [|m ms IH]; intros out H L; cbn [copy_cond]; [exists out; split; [reflexivity|]; split; [exact L|intros c _; reflexivity]|].
  assert (Hm : 0 <= m < Z.of_nat (length ins)) by (apply H; left; reflexivity).
  destruct (Z.ltb_spec m 0); [lia|]. destruct (Z.leb_spec (Z.of_nat (length ins)) m); [lia|]. cbn [orb].
  assert (V : exists v, (if on then ix ins m else Some z) = Some v /\ (if on then nth_error ins (Z.to_nat m) else Some z) = Some v).
  { destruct on; [|exists z; split; reflexivity]. destruct (ix_some ins m) as [v E]; [lia|]. exists v. split; [exact E|].
    unfold ix in E. destruct (m <? 0); [discriminate|exact E]. }
  destruct V as (v & V1 & V2). rewrite V1. destruct (sx_some out m v) as [o1 E1]; [lia|]. rewrite E1.
  destruct (IH o1) as (o2 & E2 & L2 & V); [intros; apply H; right; assumption|rewrite (sx_len _ _ _ _ E1); exact L|]. exists o2.
  split; [exact E2|]. split; [exact L2|]. intros c Hc. rewrite (V c Hc). unfold has. cbn [existsb]. rewrite (sx_nth _ _ _ _ E1 c).
  destruct (existsb (Z.eqb (Z.of_nat c)) ms); [rewrite orb_true_r; reflexivity|]. rewrite orb_false_r.
  destruct (Z.eqb_spec (Z.of_nat c) m) as [<-|]; [|reflexivity]. rewrite Nat2Z.id in V2. symmetry. exact V2.
Qed.
Lemma copy_on_cond : forall ms out, copy_on ins ms out = copy_cond z ins true ms out.
Proof.
  induction ms as [|m ms IH]; intros out; cbn [copy_on copy_cond]; [reflexivity|].
  destruct ((m <? 0) || _); [reflexivity|]. destruct (ix ins m) as [v|]; [|reflexivity]. destruct (sx out m v); [apply IH|reflexivity].
Qed.
Lemma copy_bad (on : bool) : forall ms out, length out = length ins -> (exists m, In m ms /\ ~ 0 <= m < Z.of_nat (length ins)) ->
  copy_cond z ins on ms out = Some (Er E_UNSUPP_CH).
Proof.
  induction ms as [|m ms IH]; intros out L (b & Hb & B); [destruct Hb|]. cbn [copy_cond].
  destruct (Z.ltb_spec m 0); [reflexivity|]. destruct (Z.leb_spec (Z.of_nat (length ins)) m); [reflexivity|]. cbn [orb].
  assert (V : exists v, (if on then ix ins m else Some z) = Some v) by (destruct on; [apply ix_some; lia|eexists; reflexivity]).
  destruct V as (v & ->). destruct (sx_some out m v) as [o1 E1]; [lia|]. rewrite E1. apply IH; [rewrite (sx_len _ _ _ _ E1); exact L|].
  exists b. split; [|exact B]. destruct Hb as [<-|Hb]; [lia|exact Hb].
Qed.

Lemma mix_nth aud c : nth_error (mix z ins aud) c = option_map (fun v => if aud c then v else z) (nth_error ins c).
Proof.
  unfold mix. rewrite nth_error_map.
  assert (G : forall (l : list A) i n, nth_error (combine (seq i (length l)) l) n = option_map (fun v => ((i + n)%nat, v)) (nth_error l n)).
  { induction l as [|y l IH]; intros i [|n]; cbn; try reflexivity; [rewrite Nat.add_0_r; reflexivity|]. rewrite (IH (S i) n). replace (S i + n)%nat with (i + S n)%nat by lia. reflexivity. }
  rewrite (G ins 0%nat c). destruct (nth_error ins c); reflexivity.
Qed.
Lemma mix_len aud : length (mix z ins aud) = length ins.
Proof. unfold mix. rewrite map_length, combine_length, seq_length. lia. Qed.

Lemma list_ext (l m : list A) : length l = length m -> (forall c, (c < length l)%nat -> nth_error l c = nth_error m c) -> l = m.
Proof.
  revert m. induction l as [|y l IH]; intros [|w m] L H; cbn in L; try lia; [reflexivity|].
  f_equal; [specialize (H O ltac:(cbn; lia)); cbn in H; congruence|]. apply IH; [lia|]. intros c Hc. apply (H (S c)). cbn. lia.
Qed.
Lemma mix_of (aud : nat -> bool) out : length out = length ins ->
  (forall c, (c < length ins)%nat -> nth_error out c = if aud c then nth_error ins c else Some z) -> out = mix z ins aud.
Proof.
  intros L H. apply list_ext; [rewrite mix_len; exact L|]. intros c Hc. rewrite L in Hc. rewrite (H c Hc), mix_nth.
  destruct (nth_error ins c) eqn:E; [destruct (aud c); reflexivity|]. apply nth_error_None in E. lia.
Qed.

Lemma default_spec : forall gs out, (forall g, In g gs -> g_def g <> 0 -> in_range ins g) -> length out = length ins ->
  exists out', copy_default ins gs out = Some (Ok out') /\ length out' = length ins /\
    forall c, (c < length ins)%nat -> nth_error out' c = if audible gs (fun g => negb (g_def g =? 0)) c then nth_error ins c else nth_error out c.
Proof.
  induction gs as [|g gs IH]; intros out H L; cbn [copy_default]; [exists out; split; [reflexivity|]; split; [exact L|intros c _; reflexivity]|].
  destruct (Z.eqb_spec (g_def g) 0) as [D|D]; cbn [negb].
  - destruct (IH out) as (o2 & E2 & L2 & V); [intros; apply H; [right|]; assumption|exact L|]. exists o2. split; [exact E2|]. split; [exact L2|].
    intros c Hc. rewrite (V c Hc). unfold audible. cbn [existsb]. rewrite D. reflexivity.
  - rewrite copy_on_cond. destruct (copy_spec true (g_members g) out) as (o1 & E1 & L1 & V1); [apply H; [left; reflexivity|exact D]|exact L|]. rewrite E1.
    destruct (IH o1) as (o2 & E2 & L2 & V); [intros; apply H; [right|]; assumption|exact L1|]. exists o2. split; [exact E2|]. split; [exact L2|].
    intros c Hc. rewrite (V c Hc), (V1 c Hc). unfold audible. cbn [existsb]. destruct (Z.eqb_spec (g_def g) 0); [contradiction|]. cbn [negb andb]. unfold has.
    destruct (existsb (Z.eqb (Z.of_nat c)) (g_members g)); cbn [orb]; [destruct (existsb _ gs); reflexivity|reflexivity].
Qed.
Lemma nth_silence c : (c < length ins)%nat -> nth_error (repeat z (length ins)) c = Some z.
Proof. intros H. rewrite (nth_error_nth' _ z) by (rewrite repeat_length; exact H). rewrite nth_repeat. reflexivity. Qed.

Lemma heard_default a : (forall g, In g (groups a) -> g_def g <> 0 -> in_range ins g) ->
  heard z ins a (-1) = Some (Ok (mix z ins (audible (groups a) (fun g => negb (g_def g =? 0))))).
Proof.
  intros H. unfold heard. change (-1 =? -1) with true. cbn [negb]. destruct (default_spec (groups a) (repeat z (length ins)) H) as (o & E & L & V); [apply repeat_length|].
  rewrite E. f_equal. f_equal. apply mix_of; [exact L|]. intros c Hc. rewrite (V c Hc), nth_silence by exact Hc. reflexivity.
Qed.
Lemma heard_default_bad a g : In g (groups a) -> g_def g <> 0 -> ~ in_range ins g -> heard z ins a (-1) = Some (Er E_UNSUPP_CH).
Proof.
  intros IN D R. unfold heard. change (-1 =? -1) with true. cbn [negb].
  assert (G : forall gs out, length out = length ins -> In g gs -> copy_default ins gs out = Some (Er E_UNSUPP_CH)).
  { induction gs as [|h gs IH]; intros out L Hg; [destruct Hg|]. cbn [copy_default].
    destruct (Z.eqb_spec (g_def h) 0) as [D'|D']; cbn [negb]; [apply IH; [exact L|]; destruct Hg as [->|Hg]; [contradiction|exact Hg]|].
    rewrite copy_on_cond.
    assert (DEC : (forall m, In m (g_members h) -> 0 <= m < Z.of_nat (length ins)) \/ exists m, In m (g_members h) /\ ~ 0 <= m < Z.of_nat (length ins)).
    { induction (g_members h) as [|m l IHl]; [left; intros m []|]. destruct IHl as [F|(b & B1 & B2)]; [|right; exists b; split; [right; exact B1|exact B2]].
      destruct (Z_le_dec 0 m); [destruct (Z_lt_dec m (Z.of_nat (length ins)))|]; [left; intros y [<-|Hy]; [lia|apply F, Hy]|right; exists m; split; [left; reflexivity|lia]..]. }
    destruct DEC as [F|B]; [|rewrite (copy_bad true _ _ L B); reflexivity].
    destruct (copy_spec true (g_members h) out F L) as (o1 & E1 & L1 & _). rewrite E1. apply IH; [exact L1|]. destruct Hg as [->|Hg]; [exfalso; apply R; exact F|exact Hg]. }
  apply G; [apply repeat_length|exact IN].
Qed.

(** With a preset that has a condition for every group. *)
Definition covered (a : asi) (p : pdef) (g : gdef) : Prop :=
  exists j c, pos_of (fun c => c_ref c =? g_id g) (conds p) 0 = j /\ 0 <= j /\ nth_error (conds p) (Z.to_nat j) = Some c /\
    cond_of p (g_id g) = Some (c_on c) /\
    (c_on c <> 0 -> exists h, nth_error (a_groups a) (Z.to_nat j) = Some h /\ (g_conj h =? 0) = (g_conj g =? 0)).
Definition p_on (p : pdef) (g : gdef) : bool := match cond_of p (g_id g) with Some v => negb (v =? 0) | None => false end.

Lemma conds_nth p n c : nth_error (conds p) n = Some c -> nth_error (p_conds p) n = Some c.
Proof.
  unfold conds. intros H. rewrite <- (firstn_skipn (Z.to_nat (p_num p)) (p_conds p)). rewrite nth_error_app1; [exact H|]. apply nth_error_Some. congruence.
Qed.
Lemma group_covered a p g last out : covered a p g -> in_range ins g -> length out = length ins ->
  exists l' out', preset_group z ins a p g (last, out) = Some (Ok (l', out')) /\ length out' = length ins /\
    forall c, (c < length ins)%nat -> nth_error out' c = if has c (g_members g) then (if p_on p g then nth_error ins c else Some z) else nth_error out c.
Proof.
  intros (j & c & E & J & N & CO & CJ) R L. unfold preset_group. rewrite E. destruct (Z.eqb_spec j (-1)); [lia|].
  assert (IXJ : ix (p_conds p) j = Some c) by (unfold ix; destruct (Z.ltb_spec j 0); [lia|]; apply conds_nth, N). destruct (Z.eqb_spec j (-1)); [lia|]. rewrite IXJ.
  assert (CJ' : exists cj, (if c_on c =? 0 then Some (g_conj g) else let! h := ix (a_groups a) j in Some (g_conj h)) = Some cj /\ (cj =? 0) = (g_conj g =? 0)).
  { destruct (Z.eqb_spec (c_on c) 0) as [O|O]; [exists (g_conj g); split; reflexivity|]. destruct (CJ O) as (h & Hh & HC).
    assert (IXH : ix (a_groups a) j = Some h) by (unfold ix; destruct (Z.ltb_spec j 0); [lia|]; exact Hh). rewrite IXH. exists (g_conj h). split; [reflexivity|exact HC]. }
  destruct CJ' as (cj & -> & CJ2). rewrite CJ2. fold (g_members g).
  destruct (copy_spec (negb (c_on c =? 0)) (g_members g) out R L) as (o1 & E1 & L1 & V1). rewrite E1. exists j, o1. split; [reflexivity|]. split; [exact L1|].
  intros k Hk. rewrite (V1 k Hk). unfold p_on. rewrite CO. reflexivity.
Qed.
Lemma groups_covered a p : forall gs last out, (forall g, In g gs -> covered a p g /\ in_range ins g) -> NoDup (concat (map g_members gs)) -> length out = length ins ->
  exists l' out', preset_groups z ins a p gs (last, out) = Some (Ok (l', out')) /\ length out' = length ins /\
    forall c, (c < length ins)%nat -> nth_error out' c =
      if existsb (fun g => has c (g_members g)) gs then (if audible gs (p_on p) c then nth_error ins c else Some z) else nth_error out c.
Proof.
  induction gs as [|g gs IH]; intros last out H ND L; cbn [preset_groups]; [exists last, out; split; [reflexivity|]; split; [exact L|intros c _; reflexivity]|].
  destruct (H g (or_introl eq_refl)) as [C R]. destruct (group_covered a p g last out C R L) as (l1 & o1 & E1 & L1 & V1). rewrite E1.
  cbn [map concat] in ND. apply nodup_app in ND. destruct ND as (_ & ND & DJ).
  destruct (IH l1 o1) as (l2 & o2 & E2 & L2 & V2); [intros; apply H; right; assumption|exact ND|exact L1|]. exists l2, o2. split; [exact E2|]. split; [exact L2|].
  intros c Hc. rewrite (V2 c Hc), (V1 c Hc). unfold audible. cbn [existsb]. fold (has c (g_members g)). fold (audible gs (p_on p) c).
  destruct (existsb (fun g0 => has c (g_members g0)) gs) eqn:X.
  - assert (NG : has c (g_members g) = false).
    { destruct (has c (g_members g)) eqn:Y; [|reflexivity]. exfalso. apply existsb_exists in X. destruct X as (h & Hh & X). unfold has in X, Y.
      apply existsb_exists in X. apply existsb_exists in Y. destruct X as (m & Hm & X). destruct Y as (m' & Hm' & Y). assert (m = m') by lia. subst m'.
      apply (DJ m Hm'). apply in_concat. exists (g_members h). split; [apply in_map, Hh|exact Hm]. }
    rewrite NG. rewrite andb_false_r. reflexivity.
  - assert (NA : audible gs (p_on p) c = false).
    { destruct (audible gs (p_on p) c) eqn:Y; [|reflexivity]. unfold audible in Y. apply existsb_exists in Y. destruct Y as (h & Hh & Y).
      assert (existsb (fun g0 => has c (g_members g0)) gs = true); [|congruence]. apply existsb_exists. exists h. split; [exact Hh|]. apply andb_true_iff in Y. apply Y. }
    rewrite NA, !orb_false_r. destruct (has c (g_members g)); [rewrite andb_true_r|]; reflexivity.
Qed.

Lemma find_preset_spec ps pid : forall n i, 0 <= i -> find_preset ps pid n i = Some (-1) \/ find_preset ps pid n i = None \/
  exists j, find_preset ps pid n i = Some j /\ i <= j.
Proof.
  induction n as [|n IH]; intros i H; cbn [find_preset]; [left; reflexivity|]. destruct (ix ps i) as [q|]; [|right; left; reflexivity].
  destruct (p_id q =? pid); [right; right; exists i; split; [reflexivity|lia]|]. destruct (IH (i + 1)) as [E|[E|(j & E & J)]]; [lia|left; exact E|right; left; exact E|].
  right. right. exists j. split; [exact E|lia].
Qed.
Lemma find_preset_found ps pid p : forall n i k, 0 <= i -> nth_error ps (Z.to_nat i + k) = Some p -> p_id p = pid -> (k < n)%nat ->
  (forall m q, (m < k)%nat -> nth_error ps (Z.to_nat i + m) = Some q -> p_id q <> pid) -> find_preset ps pid n i = Some (i + Z.of_nat k).
Proof.
  induction n as [|n IH]; intros i k Hi N P K F; [lia|]. cbn [find_preset]. unfold ix at 1. destruct (Z.ltb_spec i 0); [lia|].
  destruct k as [|k].
  - rewrite Nat.add_0_r in N. rewrite N. destruct (Z.eqb_spec (p_id p) pid); [f_equal; lia|contradiction].
  - destruct (nth_error ps (Z.to_nat i)) as [q|] eqn:Q; [|apply nth_error_None in Q; assert (Z.to_nat i + S k < length ps)%nat by (apply nth_error_Some; congruence); lia].
    assert (NQ : p_id q <> pid) by (apply (F O q); [lia|rewrite Nat.add_0_r; exact Q]). destruct (Z.eqb_spec (p_id q) pid); [contradiction|].
    replace (i + Z.of_nat (S k)) with (i + 1 + Z.of_nat k) by lia. apply IH; [lia| |exact P|lia|].
    + replace (Z.to_nat (i + 1) + k)%nat with (Z.to_nat i + S k)%nat by lia. exact N.
    + intros m r Hm Hr. apply (F (S m) r); [lia|]. replace (Z.to_nat i + S m)%nat with (Z.to_nat (i + 1) + m)%nat by lia. exact Hr.
Qed.
Lemma find_preset_none ps pid : forall n i, 0 <= i -> (Z.to_nat i + n <= length ps)%nat ->
  (forall m q, (m < n)%nat -> nth_error ps (Z.to_nat i + m) = Some q -> p_id q <> pid) -> find_preset ps pid n i = Some (-1).
Proof.
  induction n as [|n IH]; intros i Hi L F; [reflexivity|]. cbn [find_preset]. destruct (ix_some ps i) as [q Q]; [lia|]. rewrite Q.
  unfold ix in Q. destruct (i <? 0); [discriminate|]. assert (NQ : p_id q <> pid) by (apply (F O q); [lia|rewrite Nat.add_0_r; exact Q]).
  destruct (Z.eqb_spec (p_id q) pid); [contradiction|]. apply IH; [lia|lia|]. intros m r Hm Hr. apply (F (S m) r); [lia|].
  replace (Z.to_nat i + S m)%nat with (Z.to_nat (i + 1) + m)%nat by lia. exact Hr.
Qed.
Lemma find_preset_over ps pid : forall n i, 0 <= i -> (Z.to_nat i <= length ps < Z.to_nat i + n)%nat -> (forall q, In q ps -> p_id q <> pid) -> find_preset ps pid n i = None.
Proof.
  induction n as [|n IH]; intros i Hi L F; cbn [find_preset]; [lia|].
  destruct (ix ps i) as [q|] eqn:Q; [|reflexivity]. unfold ix in Q. destruct (i <? 0); [discriminate|].
  assert (NQ : p_id q <> pid) by (apply F; eapply nth_error_In, Q). destruct (Z.eqb_spec (p_id q) pid); [contradiction|].
  apply IH; [lia| |exact F]. assert (Z.to_nat i < length ps)%nat by (apply nth_error_Some; congruence). lia.
Qed.

Lemma heard_preset a k p : nth_error (a_presets a) k = Some p -> (forall m q, (m < k)%nat -> nth_error (a_presets a) m = Some q -> p_id q <> p_id p) ->
  p_id p <> -1 -> (k < Z.to_nat (a_ng a))%nat -> (forall g, In g (groups a) -> covered a p g /\ in_range ins g) -> NoDup (concat (map g_members (groups a))) ->
  heard z ins a (p_id p) = Some (Ok (mix z ins (audible (groups a) (p_on p)))).
Proof.
  intros K F ID N C ND. unfold heard. destruct (Z.eqb_spec (p_id p) (-1)); [contradiction|]. cbn [negb].
  rewrite (find_preset_found (a_presets a) (p_id p) p _ 0 k) by (try lia; try exact K; try reflexivity; exact F).
  destruct (Z.eqb_spec (0 + Z.of_nat k) (-1)); [lia|]. unfold ix at 1. destruct (Z.ltb_spec (0 + Z.of_nat k) 0); [lia|].
  replace (Z.to_nat (0 + Z.of_nat k)) with k by lia. rewrite K.
  destruct (groups_covered a p (groups a) (-1) (repeat z (length ins)) C ND (repeat_length _ _)) as (l' & o & E & L & V). rewrite E. cbn [snd]. f_equal. f_equal.
  apply mix_of; [exact L|]. intros c Hc. rewrite (V c Hc), nth_silence by exact Hc.
  destruct (existsb (fun g => has c (g_members g)) (groups a)) eqn:X; [reflexivity|].
  destruct (audible (groups a) (p_on p) c) eqn:Y; [|reflexivity]. exfalso. unfold audible in Y. apply existsb_exists in Y. destruct Y as (h & Hh & Y).
  assert (existsb (fun g0 => has c (g_members g0)) (groups a) = true); [|congruence]. apply existsb_exists. exists h. split; [exact Hh|]. apply andb_true_iff in Y. apply Y.
Qed.
Lemma heard_first a k p g r : nth_error (a_presets a) k = Some p -> (forall m q, (m < k)%nat -> nth_error (a_presets a) m = Some q -> p_id q <> p_id p) ->
  p_id p <> -1 -> (k < Z.to_nat (a_ng a))%nat -> groups a = g :: r -> cond_of p (g_id g) = None -> heard z ins a (p_id p) = Some (Er E_INV_GRP).
Proof.
  intros K F ID N G C. unfold heard. destruct (Z.eqb_spec (p_id p) (-1)); [contradiction|]. cbn [negb].
  rewrite (find_preset_found (a_presets a) (p_id p) p _ 0 k) by (try lia; try exact K; try reflexivity; exact F).
  destruct (Z.eqb_spec (0 + Z.of_nat k) (-1)); [lia|]. unfold ix at 1. destruct (Z.ltb_spec (0 + Z.of_nat k) 0); [lia|].
  replace (Z.to_nat (0 + Z.of_nat k)) with k by lia. rewrite K, G. cbn [preset_groups preset_group].
  assert (P : pos_of (fun c => c_ref c =? g_id g) (conds p) 0 = -1).
  { unfold cond_of in C. destruct (pos_of_spec (fun c => c_ref c =? g_id g) (conds p) 0) as [[E _]|(n' & w & _ & _ & _ & E & _)]; [lia|exact E|rewrite E in C; discriminate]. }
  rewrite P. change (-1 =? -1) with true. cbv iota. reflexivity.
Qed.
Lemma heard_late a pid : pid <> -1 -> (Z.to_nat (a_ng a) <= length (a_presets a))%nat ->
  (forall m q, (m < Z.to_nat (a_ng a))%nat -> nth_error (a_presets a) m = Some q -> p_id q <> pid) -> heard z ins a pid = Some (Er E_INV_PRESET).
Proof.
  intros P L F. unfold heard. destruct (Z.eqb_spec pid (-1)); [contradiction|]. cbn [negb]. rewrite find_preset_none; [reflexivity|lia|exact L|exact F].
Qed.
Lemma heard_over a pid : pid <> -1 -> (length (a_presets a) < Z.to_nat (a_ng a))%nat -> (forall q, In q (a_presets a) -> p_id q <> pid) -> heard z ins a pid = None.
Proof.
  intros P L F. unfold heard. destruct (Z.eqb_spec pid (-1)); [contradiction|]. cbn [negb]. rewrite find_preset_over; [reflexivity|lia|change (Z.to_nat 0) with O; lia|exact F].
Qed.
End Chan.

(** ** Limits *)
Lemma gain_limits off dis user g : gain_fields g -> g_gain g <> 0 ->
  let '(v, e) := channel_gain off dis user g in
  2 * min_gain g <= v <= 2 * max_gain g /\
  (e = false <-> 2 * min_gain g <= asked_gain off dis user <= 2 * max_gain g) /\
  (e = false -> v = asked_gain off dis user).
Proof.
  intros (H1 & H2) G. unfold channel_gain. destruct (Z.eqb_spec (g_gain g) 0); [contradiction|]. cbn [negb]. unfold group_gain.
  assert (LO : 2 * Z.min (Z.max (g_mingain g - 64) (-63)) 31 = 2 * min_gain g) by (unfold min_gain; lia). rewrite LO.
  fold (asked_gain off dis user). set (v := asked_gain off dis user). assert (B : min_gain g <= max_gain g) by (unfold min_gain, max_gain; lia). fold (max_gain g).
  destruct (Z.ltb_spec v (2 * min_gain g)); [destruct (Z.ltb_spec (2 * max_gain g) (2 * min_gain g)); [lia|]|destruct (Z.ltb_spec (2 * max_gain g) v)];
    (split; [lia|]; split; [split; [intros; try discriminate; lia|intros; try reflexivity; lia]|intros; try discriminate; reflexivity]).
Qed.

Lemma limit_in lo hi v : lo <= hi -> let '(w, e) := limit lo hi hi v in lo <= w <= hi /\ (e = false <-> lo <= v <= hi) /\ (e = false -> w = v).
Proof.
  intros H. unfold limit. destruct (Z.ltb_spec v lo); [destruct (Z.ltb_spec hi lo); [lia|]|destruct (Z.ltb_spec hi v)];
    (split; [lia|]; split; [split; [intros; try discriminate; lia|intros; try reflexivity; lia]|intros; try discriminate; reflexivity]).
Qed.
Lemma limit_az lo hi v : lo <= hi -> let '(w, e) := limit lo hi lo v in lo <= w <= hi /\ (e = false <-> lo <= v <= hi) /\ (e = false -> w = v) /\ (hi < v -> w = lo).
Proof.
  intros H. unfold limit. destruct (Z.ltb_spec v lo); [destruct (Z.ltb_spec hi lo); [lia|]|destruct (Z.ltb_spec hi v)];
    (split; [lia|]; split; [split; [intros; try discriminate; lia|intros; try reflexivity; lia]|split; [intros; try discriminate; reflexivity|intros; try reflexivity; lia]]).
Qed.
Lemma limit_pos_spec g az el di : pos_fields g -> let '((az', el', di'), e) := limit_pos g az el di in
  within g az' el' di' /\ (e = false <-> within g az el di) /\ (e = false -> (az', el', di') = (az, el, di)) /\ (g_maxaz g < az -> az' = g_minaz g).
Proof.
  intros (H1 & H2 & H3). unfold limit_pos, within. pose proof (limit_in _ _ di H3) as D. pose proof (limit_in _ _ el H2) as E. pose proof (limit_az _ _ az H1) as A.
  destruct (limit (g_mindist g) _ _ di) as [di' e1]. destruct (limit (g_minel g) _ _ el) as [el' e2]. destruct (limit (g_minaz g) _ _ az) as [az' e3].
  destruct D as (D1 & D2 & D3). destruct E as (E1 & E2 & E3). destruct A as (A1 & A2 & A3 & A4).
  split; [tauto|]. split; [|split; [|exact A4]].
  - rewrite !orb_false_iff. tauto.
  - rewrite !orb_false_iff. intros [[F1 F2] F3]. rewrite (D3 F1), (E3 F2), (A3 F3). reflexivity.
Qed.

(** ** An unknown member of a switch group *)
Lemma count_unknown a : forall ms st, (exists m, In m ms /\ ~ In m (map g_id (groups a))) -> count_on a ms st = None.
Proof.
  induction ms as [|m ms IH]; intros st (b & Hb & B); [destruct Hb|]. cbn [count_on].
  destruct Hb as [->|Hb].
  - rewrite grp_idx_unknown by exact B. reflexivity.
  - destruct (ix st (grp_idx a m)); [|reflexivity]. rewrite IH; [reflexivity|]. exists b. split; assumption.
Qed.
Lemma logic_unknown a : forall ss st, (exists s m, In s ss /\ In m (members s) /\ ~ In m (map g_id (groups a))) -> sg_logic a ss st = None.
Proof.
  induction ss as [|s ss IH]; intros st (b & m & Hb & Hm & B); [destruct Hb|]. cbn [sg_logic].
  destruct (sg_logic_one a s st) as [s1|] eqn:E; [|reflexivity]. destruct Hb as [->|Hb].
  - unfold sg_logic_one in E. rewrite count_unknown in E by (exists m; split; assumption). discriminate.
  - apply IH. exists b, m. split; [exact Hb|]. split; assumption.
Qed.
Lemma frame_unknown a x e ty dmx sel st r : presets_ok a -> (exists s m, In s (switches a) /\ In m (members s) /\ ~ In m (map g_id (groups a))) ->
  frame_onoff a x e ty dmx sel st <> Some (Ok r).
Proof.
  intros PO U. assert (G : forall c s2 st2, on_off a x c dmx s2 st2 <> Some (Ok r)).
  { intros c s2 st2. unfold on_off. set (ch := if i_dflt c then _ else _). set (k := pos_of _ (presets a) 0).
    destruct ((k =? -1) && (s2 <=? -1)) eqn:B; [discriminate|]. set (pr := if k =? -1 then (s2, s2) else (ch, ch)). destruct pr as [ch' sel1] eqn:P.
    assert (CH : 0 <= ch').
    { unfold pr in P. destruct (Z.eqb_spec k (-1)) as [K|K]; injection P as <- <-; [cbn in B; lia|].
      destruct (pos_of_in _ _ k eq_refl K) as (p & K1 & K2 & _). assert (0 <= p_id p < 32) by (apply (presets_id a p PO); eapply nth_error_In, K1). lia. }
    destruct (Z.leb_spec ch' (-1)); [lia|]. destruct (onoff_groups a x c ch' dmx 0 (groups a) _) as [[s1|]|]; [|discriminate..].
    destruct (if k =? -1 then Some s1 else _) as [s3|]; [|discriminate]. rewrite logic_unknown by exact U. discriminate. }
  unfold frame_onoff. destruct (modes a e ty sel) as [c|]; [|discriminate]. destruct (i_apply c); [apply G|]. destruct (i_dflt c); [apply G|]. destruct (0 <=? sel); [apply G|].
  rewrite logic_unknown by exact U. discriminate.
Qed.

(** ** Scenes for the examples *)
Definition gz : gdef := mkG 0 0 0 0 0 0 0 0 0 0 0 0 0 0 0 0 (repeat 0 128).
(** A group: id, whether it may be switched, default status, and its channels. *)
Definition grp (id onoff def : Z) (mem : list Z) : gdef := mkG id onoff def 1 0 10 0 10 0 10 1 4 10 (Z.of_nat (length mem)) 0 0 (mem ++ repeat 0 (128 - length mem)).
Definition sz : sdef := mkS 0 0 0 0 (repeat 0 32) 0.
Definition sw (id onoff dflt : Z) (mem : list Z) : sdef := mkS id onoff 0 (Z.of_nat (length mem)) (mem ++ repeat 0 (32 - length mem)) dflt.
Definition cz : pcond := mkC 0 0 0 0 0 0 0 0 0 0.
Definition cnd (id on : Z) : pcond := mkC id on 0 0 0 0 0 0 0 0.
Definition pre (id : Z) (cs : list pcond) : pdef := mkP id 0 (Z.of_nat (length cs)) (cs ++ repeat cz (16 - length cs)).
Definition scene (gs : list gdef) (ss : list sdef) (ps : list pdef) : asi :=
  mkA 0 0 0 (Z.of_nat (length gs)) (gs ++ repeat gz (16 - length gs)) (Z.of_nat (length ss)) (ss ++ repeat sz (8 - length ss))
      (Z.of_nat (length ps)) (ps ++ repeat (pre 0 []) (8 - length ps)) [] 0 0.
Definition xplain : xext := mkXe (repeat 0 8) [] [] [] (repeat (repeat 0 16) 8).
(** A packet: mode, preset, and for each group its id and the wish. *)
Definition packet (mode preset : Z) (ws : list (Z * Z)) : ei :=
  mkEi [] 0 0 mode (Z.of_nat (length ws)) preset
       (map (fun '(i, o) => mkEg i o 0 0 0 0 0 0 0 0) ws ++ repeat (mkEg 0 0 0 0 0 0 0 0 0 0) (128 - length ws)) 0 (0, 0) (0, 0) 1.
Definition nopacket : ei := mkEi [] 0 0 0 0 0 (repeat (mkEg 0 0 0 0 0 0 0 0 0 0) 128) 0 (0, 0) (0, 0) 0.
