(** * Lem_MdpOn: on/off statuses of a frame *)
From Coq Require Import ZArith List Lia Bool.
From Verif Require Import Prog Asi Ei Mdp Spec_Mdp Lem_Mdp.
Import ListNotations.
Open Scope Z_scope.

Lemma sx_len {A} (l : list A) i v l' : sx l i v = Some l' -> length l' = length l.
Proof. intros E. apply (sx_spec _ _ _ _ E). Qed.

(** ** Lengths never change *)
Ltac step E := match type of E with
  | (match ?x with _ => _ end) = _ => let H := fresh "S" in destruct x eqn:H; try discriminate
  end.
Ltac steps E := repeat step E.

Lemma sg_off_len a id : forall ms st st', sg_off a id ms st = Some (Ok st') -> length st' = length st.
Proof.
  induction ms as [|m ms IH]; intros st st' E; cbn [sg_off] in E; [congruence|].
  destruct (negb (m =? id)).
  - destruct (ix st (grp_idx a m)) as [v|]; [|discriminate]. destruct (v =? 1); [discriminate|].
    destruct (sx st (grp_idx a m) 0) as [s|] eqn:S; [|discriminate]. rewrite (IH _ _ E). eapply sx_len, S.
  - destruct (sx st (grp_idx a m) 1) as [s|] eqn:S; [|discriminate]. rewrite (IH _ _ E). eapply sx_len, S.
Qed.
Lemma sw_off_len a id st st' : switch_group_off a id st = Some (Ok st') -> length st' = length st.
Proof. unfold switch_group_off. destruct (ix _ _) as [s|]; [apply sg_off_len|discriminate]. Qed.
Lemma onoff_one_len a x c pid dmx i g st st' : onoff_one a x c pid dmx i g st = Some (Ok st') -> length st' = length st.
Proof.
  unfold onoff_one. destruct (preset_cnd a x pid (g_id g) dmx) as [[cond e]|]; [|discriminate].
  destruct (ix st i) as [old|]; [|discriminate].
  destruct (cond =? -1).
  - destruct (if (g_onoff g =? 1) && i_apply c then _ else _) as [v|]; [|discriminate].
    destruct (sx st i v) as [s|] eqn:S; [|discriminate]. intros [= <-]. eapply sx_len, S.
  - destruct ((cond =? 1) && (old =? -1)).
    + destruct (sx st i 1) as [s|] eqn:S; [|discriminate]. apply sx_len in S. destruct (is_member a (g_id g)); [|congruence].
      intros E. apply sw_off_len in E. congruence.
    + destruct ((cond =? 0) && (old =? -1)); [|congruence]. destruct (sx st i 0) as [s|] eqn:S; [|discriminate]. intros [= <-]. eapply sx_len, S.
Qed.
Lemma onoff_groups_len a x c pid dmx : forall gs i st st', onoff_groups a x c pid dmx i gs st = Some (Ok st') -> length st' = length st.
Proof.
  induction gs as [|g gs IH]; intros i st st' E; cbn [onoff_groups] in E; [congruence|].
  destruct (onoff_one a x c pid dmx i g st) as [[s|e]|] eqn:S; try discriminate. rewrite (IH _ _ _ E). eapply onoff_one_len, S.
Qed.
Lemma advanced_len a c : forall gs i st st', advanced a c i gs st = Some (Ok st') -> length st' = length st.
Proof.
  induction gs as [|g gs IH]; intros i st st' E; cbn [advanced] in E; [congruence|].
  destruct (advanced_one a c i g st) as [[s|e]|] eqn:S; try discriminate. rewrite (IH _ _ _ E). clear E IH.
  unfold advanced_one in S. destruct (g_onoff g =? 0); [destruct (sx st i (g_def g)) eqn:X; [|discriminate]; injection S as <-; eapply sx_len, X|].
  destruct (find _ _) as [w|].
  - destruct (sx st i (eg_on w)) as [s1|] eqn:X; [|discriminate]. apply sx_len in X. destruct (_ && _); [apply sw_off_len in S; congruence|congruence].
  - destruct (sx st i (g_def g)) eqn:X; [|discriminate]. injection S as <-. eapply sx_len, X.
Qed.
Lemma sgc_off_members_len a i k : forall n st st', sgc_off_members a i k n st = Some st' -> length st' = length st.
Proof.
  induction n as [|n IH]; intros st st' E; cbn [sgc_off_members] in E; [congruence|].
  destruct (ix (a_switch a) i); [|discriminate]. destruct (ix (s_mem s) k); [|discriminate]. destruct (ix st (grp_idx a z)) as [v|]; [|discriminate].
  destruct (v =? 1); [|apply IH, E]. destruct (sx st (grp_idx a z) 0) as [s1|] eqn:S; [|discriminate]. rewrite (IH _ _ E). eapply sx_len, S.
Qed.
Lemma sgc_off_len a sid i : forall ss k st st', sgc_off a sid i k ss st = Some st' -> length st' = length st.
Proof.
  induction ss as [|s ss IH]; intros k st st' E; cbn [sgc_off] in E; [congruence|]. destruct (s_id s =? sid); [|eapply IH, E].
  destruct (s_onoff s =? 0); [congruence|]. destruct (sgc_off_members a i k (Z.to_nat (s_num s)) st) as [s1|] eqn:S; [|discriminate].
  rewrite (IH _ _ _ E). eapply sgc_off_members_len, S.
Qed.
Lemma sgc_on_len a sid i : forall ss k st st', sgc_on a sid i k ss st = Some st' -> length st' = length st.
Proof.
  induction ss as [|s ss IH]; intros k st st' E; cbn [sgc_on] in E; [congruence|]. destruct (s_id s =? sid); [|eapply IH, E].
  destruct (sgc_on_count a i k (Z.to_nat (s_num s)) st) as [n|]; [|discriminate]. destruct (n =? 0).
  - destruct (sx st (grp_idx a (s_dgrp s)) 1) as [s1|] eqn:S; [|discriminate]. rewrite (IH _ _ _ E). eapply sx_len, S.
  - destruct (1 <? n); [congruence|eapply IH, E].
Qed.
Lemma sgc_all_len a x k e : forall n i st st', sgc_all a x k e n i st = Some st' -> length st' = length st.
Proof.
  induction n as [|n IH]; intros i st st' E; cbn [sgc_all] in E; [congruence|].
  destruct (sgc_one a x k e i st) as [s1|] eqn:S; [|discriminate]. rewrite (IH _ _ _ E). clear E.
  unfold sgc_one in S. destruct (if e <=? -1 then _ else _) as [[c sid]|]; [|discriminate].
  destruct (c =? 0); [eapply sgc_off_len, S|]. destruct (c =? 1); [eapply sgc_on_len, S|congruence].
Qed.

Lemma unset_len n st : (n <= length st)%nat -> length (unset n st) = length st.
Proof. intros H. unfold unset. rewrite app_length, repeat_length, skipn_length. lia. Qed.

Lemma pos_of_in {A} (p : A -> bool) l k : pos_of p l 0 = k -> k <> -1 -> exists y, nth_error l (Z.to_nat k) = Some y /\ p y = true /\ find p l = Some y /\ 0 <= k.
Proof.
  intros E H. destruct (pos_of_spec p l 0) as [[K _]|(n & y & K1 & K2 & K3 & K4 & _)]; [lia|lia|].
  exists y. assert (Z.to_nat k = n) by lia. rewrite H0. split; [exact K2|]. split; [exact K3|]. split; [exact K4|lia].
Qed.

(** ** At most one member of a switch group is on after any frame *)
Lemma on_off_exclusive a x c dmx sel st st' sel' : scene_ok a -> switch_ok a -> presets_ok a -> (length (groups a) <= length st)%nat ->
  on_off a x c dmx sel st = Some (Ok (st', sel')) -> exclusive a st' /\ length st' = length st.
Proof.
  intros SO SW PO L. unfold on_off. set (ch := if i_dflt c then _ else _). set (k := pos_of _ (presets a) 0).
  destruct ((k =? -1) && (sel <=? -1)) eqn:B; [discriminate|].
  set (pr := if k =? -1 then (sel, sel) else (ch, ch)). destruct pr as [ch' sel1] eqn:P.
  assert (CH : 0 <= ch').
  { unfold pr in P. destruct (Z.eqb_spec k (-1)) as [K|K]; injection P as <- <-; [cbn in B; lia|].
    destruct (pos_of_in _ _ k eq_refl K) as (p & K1 & K2 & _). destruct PO as (_ & _ & F). rewrite Forall_forall in F.
    assert (IN : In p (a_presets a)) by (apply nth_error_In in K1; unfold presets in K1; rewrite <- (firstn_skipn (Z.to_nat (a_np a)) (a_presets a)); apply in_app_iff; left; exact K1).
    destruct (F p IN) as (F1 & _). lia. }
  destruct (Z.leb_spec ch' (-1)); [lia|].
  rewrite (ng_len a SO) in L. pose proof (unset_len (Z.to_nat (a_ng a)) st L) as LU. set (s0 := unset (Z.to_nat (a_ng a)) st) in *.
  destruct (onoff_groups a x c ch' dmx 0 (groups a) s0) as [[s1|e]|] eqn:E1; try discriminate. apply onoff_groups_len in E1.
  set (o := if k =? -1 then Some s1 else _). destruct o as [s2|] eqn:E2; [|discriminate].
  assert (L2 : length s2 = length s1).
  { unfold o in E2. destruct (k =? -1); [congruence|]. destruct (if -1 <? dmx then _ else _) as [e|]; [|discriminate].
    destruct (ix (a_presets a) k) as [p|]; [|discriminate]. destruct (if e <=? -1 then _ else _) as [n|]; [|discriminate]. eapply sgc_all_len, E2. }
  destruct (sg_logic a (switches a) s2) as [s3|] eqn:E3; [|discriminate]. intros [= <- <-].
  assert (L3 : (length (groups a) <= length s2)%nat) by (rewrite (ng_len a SO); lia).
  split; [eapply logic_exclusive; eassumption|].
  destruct (logic_spec a SO s2 SW L3) as (s4 & E4 & [T _] & _). rewrite E3 in E4. injection E4 as <-. lia.
Qed.

Lemma frame_exclusive a x e ty dmx sel st st' sel' : scene_ok a -> switch_ok a -> presets_ok a -> (length (groups a) <= length st)%nat ->
  frame_onoff a x e ty dmx sel st = Some (Ok (st', sel')) -> exclusive a st' /\ length st' = length st.
Proof.
  intros SO SW PO L. unfold frame_onoff. destruct (modes a e ty sel) as [c|]; [|discriminate].
  set (s0 := repeat 0 _ ++ _). pose proof (ng_len a SO) as NL.
  assert (L0 : length s0 = length st) by (unfold s0; rewrite app_length, repeat_length, skipn_length; lia).
  destruct (i_apply c); [intros E; destruct (on_off_exclusive _ _ _ _ _ s0 _ _ SO SW PO ltac:(lia) E); split; [assumption|lia]|].
  destruct (i_dflt c); [intros E; destruct (on_off_exclusive _ _ _ _ _ s0 _ _ SO SW PO ltac:(lia) E); split; [assumption|lia]|].
  destruct (0 <=? sel); [intros E; destruct (on_off_exclusive _ _ _ _ _ s0 _ _ SO SW PO ltac:(lia) E); split; [assumption|lia]|].
  set (s1 := map g_def (groups a) ++ skipn (Z.to_nat (a_ng a)) s0).
  assert (L1 : length s1 = length st) by (unfold s1; rewrite app_length, map_length, skipn_length; lia).
  destruct (sg_logic a (switches a) s1) as [s2|] eqn:E; [|discriminate]. intros [= <- <-].
  assert (L2 : (length (groups a) <= length s1)%nat) by lia.
  split; [eapply logic_exclusive; eassumption|]. destruct (logic_spec a SO s1 SW L2) as (s4 & E4 & [T _] & _). rewrite E in E4. injection E4 as <-. lia.
Qed.

(** ** The status of groups outside switch groups *)
Lemma find_ext0 x k dmx : plain_ext x -> 0 <= k < 8 -> ext_of x k dmx = Some (-1).
Proof.
  intros (H & _) Hk. unfold ext_of. rewrite H. unfold ix. destruct (Z.ltb_spec k 0); [lia|].
  rewrite (nth_error_nth' _ 0) by (rewrite repeat_length; lia). rewrite nth_repeat. reflexivity.
Qed.

Section Plain.
Variables (a : asi) (x : xext) (c : icfg) (dmx : Z).
Hypothesis SO : scene_ok a.
Hypothesis SW : switch_ok a.
Hypothesis PO : presets_ok a.
Hypothesis PX : plain_ext x.
Hypothesis EL : length (ei_groups (i_ei c)) = 128%nat.
Variables (k : Z) (p : pdef).
Hypothesis PK : nth_error (presets a) (Z.to_nat k) = Some p.
Hypothesis KP : pos_of (fun q => p_id q =? p_id p) (presets a) 0 = k.
Hypothesis K0 : 0 <= k.

Lemma presets_sub n q : nth_error (presets a) n = Some q -> nth_error (a_presets a) n = Some q /\ (n < 8)%nat.
Proof.
  intros H. assert (N : (n < length (presets a))%nat) by (apply nth_error_Some; congruence). destruct PO as (P1 & P2 & _).
  unfold presets in *. rewrite firstn_length_le in N by lia. split; [|lia].
  rewrite <- (firstn_skipn (Z.to_nat (a_np a)) (a_presets a)). rewrite nth_error_app1 by (rewrite firstn_length_le; lia). exact H.
Qed.
Lemma k_range : 0 <= k < 8. Proof. destruct (presets_sub _ _ PK). lia. Qed.
Lemma ix_preset : ix (a_presets a) k = Some p.
Proof. unfold ix. destruct (Z.ltb_spec k 0); [lia|]. apply (presets_sub _ _ PK). Qed.
Lemma p_good : 0 <= p_id p < 32 /\ 0 <= p_num p <= 16 /\ length (p_conds p) = 16%nat /\ Forall (fun c => c_on c = 0 \/ c_on c = 1) (p_conds p).
Proof. destruct PO as (_ & _ & F). rewrite Forall_forall in F. apply F. eapply nth_error_In. apply (presets_sub _ _ PK). Qed.

Lemma cnd_spec gid : preset_cnd a x (p_id p) gid dmx = Some (match cond_of p gid with Some v => v | None => -1 end, -1).
Proof.
  unfold preset_cnd. rewrite KP. destruct (Z.leb_spec k (-1)); [lia|]. rewrite find_ext0 by (try exact PX; apply k_range). rewrite ix_preset.
  change (-1 <=? -1) with true. cbv iota. unfold cond_of. destruct (find _ (conds p)); reflexivity.
Qed.
Lemma cond_bool gid v : cond_of p gid = Some v -> v = 0 \/ v = 1.
Proof.
  unfold cond_of. destruct (find _ (conds p)) as [q|] eqn:F; [|discriminate]. intros [= <-]. apply find_some in F. destruct F as [F _].
  destruct p_good as (_ & _ & _ & G). rewrite Forall_forall in G. apply G. unfold conds in F.
  rewrite <- (firstn_skipn (Z.to_nat (p_num p)) (p_conds p)). apply in_app_iff. left. exact F.
Qed.

(** Switching the other members off touches members of switch groups only. *)
Lemma sg_off_touch id : forall ms st, (forall m, In m ms -> In m (map g_id (groups a))) -> (length (groups a) <= length st)%nat ->
  (exists st', sg_off a id ms st = Some (Ok st') /\ touches a ms st st') \/ sg_off a id ms st = Some (Er E_SG_OFF).
Proof.
  induction ms as [|m ms IH]; intros st H L; cbn [sg_off]; [left; exists st; split; [reflexivity|apply touches_refl]|].
  assert (Hm : In m (map g_id (groups a))) by (apply H; left; reflexivity).
  assert (G : forall v, (exists st', (let! st0 := sx st (grp_idx a m) v in sg_off a id ms st0) = Some (Ok st') /\ touches a (m :: ms) st st') \/ (let! st0 := sx st (grp_idx a m) v in sg_off a id ms st0) = Some (Er E_SG_OFF)).
  { intros v. destruct (set_spec a st m v Hm L) as (s1 & E1 & L1 & _). rewrite E1. destruct (IH s1) as [(s2 & E2 & T)|E2]; [intros; apply H; right; assumption|lia| |right; exact E2].
    left. exists s2. split; [exact E2|]. eapply touches_trans; [eapply touches_incl; [|exact (set_touches a st m v s1 E1)]|eapply touches_incl; [|exact T]].
    - intros y [<-|[]]. left. reflexivity.
    - intros y Hy. right. exact Hy. }
  destruct (negb (m =? id)); [|apply G]. destruct (val_some a m st Hm L) as [v Hv]. unfold val in Hv. rewrite Hv.
  destruct (v =? 1); [right; reflexivity|apply G].
Qed.

Lemma member_switch id : is_member a id = true -> exists s, In s (switches a).
Proof. unfold is_member, switch_of. destruct (switches a) as [|s l]; [discriminate|]. intros _. exists s. left. reflexivity. Qed.

Lemma sw_off_touch id st : is_member a id = true -> (length (groups a) <= length st)%nat ->
  (exists st', switch_group_off a id st = Some (Ok st') /\ touches a (concat (map members (switches a))) st st') \/
  switch_group_off a id st = Some (Er E_SG_OFF).
Proof.
  intros HM L. unfold switch_group_off. set (j := pos_of _ (tl (switches a)) 1).
  assert (G : exists s, ix (a_switch a) (if j <=? -1 then 0 else j) = Some s /\ In s (switches a)).
  { destruct (member_switch id HM) as (s0 & H0). destruct SO as (_ & _ & _ & SL & SN).
    assert (NS : length (switches a) = Z.to_nat (a_ns a)) by (unfold switches; apply firstn_length_le; lia).
    assert (SUB : forall n s, nth_error (switches a) n = Some s -> ix (a_switch a) (Z.of_nat n) = Some s).
    { intros n s Hn. unfold ix. destruct (Z.ltb_spec (Z.of_nat n) 0); [lia|]. rewrite Nat2Z.id.
      assert (n < length (switches a))%nat by (apply nth_error_Some; congruence).
      rewrite <- (firstn_skipn (Z.to_nat (a_ns a)) (a_switch a)). rewrite nth_error_app1 by (rewrite firstn_length_le; lia). exact Hn. }
    destruct (pos_of_spec (fun s => existsb (Z.eqb id) (members s)) (tl (switches a)) 1) as [[K _]|(n & s & K1 & K2 & _)]; [lia| |].
    - unfold j. rewrite K. change (-1 <=? -1) with true. cbv iota. destruct (switches a) as [|s l] eqn:E; [destruct H0|]. exists s. split; [|left; reflexivity]. apply (SUB O s). reflexivity.
    - unfold j. rewrite K1. destruct (Z.leb_spec (1 + Z.of_nat n) (-1)); [lia|]. exists s.
      assert (X : nth_error (switches a) (S n) = Some s) by (destruct (switches a); [destruct n; discriminate|exact K2]).
      split; [|eapply nth_error_In, X]. replace (1 + Z.of_nat n) with (Z.of_nat (S n)) by lia. apply SUB, X. }
  destruct G as (s & E & IN). rewrite E. destruct SW as (_ & _ & F). rewrite Forall_forall in F. destruct (F s IN) as [_ F'].
  destruct (sg_off_touch id (members s) st F' L) as [(s2 & E2 & T)|E2]; [left|right; exact E2].
  exists s2. split; [exact E2|]. eapply touches_incl; [|exact T]. intros m Hm. eapply in_members; eassumption.
Qed.

Definition wish_of (i : nat) : option Z := if i_apply c then option_map eg_on (nth_error (ei_groups (i_ei c)) i) else None.
Definition tm := concat (map members (switches a)).

Lemma one_spec i g st : nth_error (groups a) i = Some g -> (length (groups a) <= length st)%nat ->
  (exists st', onoff_one a x c (p_id p) dmx (Z.of_nat i) g st = Some (Ok st') /\ length st' = length st /\
     (forall j, j <> i -> (forall m, In m tm -> Z.of_nat j <> grp_idx a m) -> nth_error st' j = nth_error st j) /\
     (free a (g_id g) -> nth_error st i = Some (-1) -> nth_error st' i = Some (status p (wish_of i) g))) \/
  onoff_one a x c (p_id p) dmx (Z.of_nat i) g st = Some (Er E_SG_OFF).
Proof.
  intros Hg L. unfold onoff_one. rewrite cnd_spec.
  assert (Hi : (i < length (groups a))%nat) by (apply nth_error_Some; congruence).
  destruct (ix_some st (Z.of_nat i)) as [old Hold]; [lia|]. rewrite Hold.
  assert (OLD : nth_error st i = Some old) by (unfold ix in Hold; destruct (Z.ltb_spec (Z.of_nat i) 0); [lia|]; rewrite Nat2Z.id in Hold; exact Hold).
  unfold status. destruct (cond_of p (g_id g)) as [v|] eqn:CO.
  - destruct (cond_bool _ _ CO) as [-> | ->].
    + change (0 =? -1) with false. change (0 =? 1) with false. change (0 =? 0) with true. cbn [andb]. destruct (Z.eqb_spec old (-1)) as [O|O].
      * destruct (sx_some st (Z.of_nat i) 0) as [s1 E1]; [lia|]. rewrite E1. left. exists s1. split; [reflexivity|]. split; [eapply sx_len, E1|]. split.
        -- intros j Hj _. rewrite (sx_nth _ _ _ _ E1 j). destruct (Z.eqb_spec (Z.of_nat j) (Z.of_nat i)); [lia|reflexivity].
        -- intros _ _. rewrite (sx_nth _ _ _ _ E1 i), Z.eqb_refl. reflexivity.
      * left. exists st. split; [reflexivity|]. split; [reflexivity|]. split; [reflexivity|]. intros _ H. congruence.
    + change (1 =? -1) with false. change (1 =? 1) with true. change (1 =? 0) with false. cbn [andb]. destruct (Z.eqb_spec old (-1)) as [O|O].
      2:{ left. exists st. split; [reflexivity|]. split; [reflexivity|]. split; [reflexivity|]. intros _ H. congruence. }
      destruct (sx_some st (Z.of_nat i) 1) as [s1 E1]; [lia|]. rewrite E1. pose proof (sx_len _ _ _ _ E1) as L1.
      assert (G1 : forall j, j <> i -> nth_error s1 j = nth_error st j) by (intros j Hj; rewrite (sx_nth _ _ _ _ E1 j); destruct (Z.eqb_spec (Z.of_nat j) (Z.of_nat i)); [lia|reflexivity]).
      assert (G2 : nth_error s1 i = Some 1) by (rewrite (sx_nth _ _ _ _ E1 i), Z.eqb_refl; reflexivity).
      destruct (is_member a (g_id g)) eqn:M.
      * destruct (sw_off_touch (g_id g) s1 M) as [(s2 & E2 & T1 & T2)|E2]; [lia| |right; exact E2].
        left. exists s2. split; [exact E2|]. split; [lia|]. split.
        -- intros j Hj Hm. rewrite T2 by exact Hm. apply G1, Hj.
        -- intros FR _. rewrite T2; [exact G2|]. intros m Hm C. apply FR. 
           assert (KN : In (g_id g) (map g_id (groups a))) by (apply in_map; eapply nth_error_In, Hg).
           rewrite <- (grp_idx_nth a i g (ND a SO) Hg) in C. rewrite (grp_idx_inj a (g_id g) m KN C). exact Hm.
      * left. exists s1. split; [reflexivity|]. split; [exact L1|]. split; [intros j Hj _; apply G1, Hj|intros _ _; exact G2].
  - change (-1 =? -1) with true. cbv iota.
    assert (V : exists v, (if (g_onoff g =? 1) && i_apply c then let! w := ix (ei_groups (i_ei c)) (Z.of_nat i) in Some (eg_on w) else Some (g_def g)) = Some v /\
      v = match wish_of i with Some w => if g_onoff g =? 1 then w else g_def g | None => g_def g end).
    { unfold wish_of. destruct (i_apply c); [|rewrite andb_false_r; eexists; split; reflexivity].
      assert (NG : (i < 16)%nat) by (rewrite (ng_len a SO) in Hi; destruct SO as (S1 & _); lia).
      destruct (nth_error (ei_groups (i_ei c)) i) as [w|] eqn:W; [|apply nth_error_None in W; lia]. cbn [option_map]. rewrite andb_true_r.
      destruct (g_onoff g =? 1); [|eexists; split; reflexivity]. unfold ix. destruct (Z.ltb_spec (Z.of_nat i) 0); [lia|]. rewrite Nat2Z.id, W. eexists; split; reflexivity. }
    destruct V as (v & V1 & V2). rewrite V1. destruct (sx_some st (Z.of_nat i) v) as [s1 E1]; [lia|]. rewrite E1. left. exists s1.
    split; [reflexivity|]. split; [eapply sx_len, E1|]. split.
    + intros j Hj _. rewrite (sx_nth _ _ _ _ E1 j). destruct (Z.eqb_spec (Z.of_nat j) (Z.of_nat i)); [lia|reflexivity].
    + intros _ _. rewrite (sx_nth _ _ _ _ E1 i), Z.eqb_refl. f_equal. exact V2.
Qed.

Lemma free_idx i g m : nth_error (groups a) i = Some g -> free a (g_id g) -> In m tm -> Z.of_nat i <> grp_idx a m.
Proof.
  intros Hg F Hm C. apply F. assert (KN : In (g_id g) (map g_id (groups a))) by (apply in_map; eapply nth_error_In, Hg).
  rewrite <- (grp_idx_nth a i g (ND a SO) Hg) in C. rewrite (grp_idx_inj a (g_id g) m KN C). exact Hm.
Qed.

Lemma groups_spec : forall gs i st, (forall n, nth_error gs n = nth_error (groups a) (i + n)) -> (length (groups a) <= length st)%nat ->
  (exists st', onoff_groups a x c (p_id p) dmx (Z.of_nat i) gs st = Some (Ok st') /\ length st' = length st /\
     (forall j g, nth_error (groups a) j = Some g -> free a (g_id g) -> (j < i)%nat -> nth_error st' j = nth_error st j) /\
     (forall j g, nth_error (groups a) j = Some g -> free a (g_id g) -> (i <= j)%nat -> nth_error st j = Some (-1) -> nth_error st' j = Some (status p (wish_of j) g))) \/
  onoff_groups a x c (p_id p) dmx (Z.of_nat i) gs st = Some (Er E_SG_OFF).
Proof.
  induction gs as [|g gs IH]; intros i st HG L; cbn [onoff_groups].
  - left. exists st. split; [reflexivity|]. split; [reflexivity|]. split; [reflexivity|].
    intros j g Hj _ H _. specialize (HG (j - i)%nat). replace (i + (j - i))%nat with j in HG by lia. rewrite Hj in HG. destruct (j - i)%nat; discriminate.
  - assert (Hg : nth_error (groups a) i = Some g) by (specialize (HG O); rewrite Nat.add_0_r in HG; symmetry; exact HG).
    destruct (one_spec i g st Hg L) as [(s1 & E1 & L1 & T1 & V1)|E1]; [|right; rewrite E1; reflexivity]. rewrite E1.
    replace (Z.of_nat i + 1) with (Z.of_nat (S i)) by lia.
    destruct (IH (S i) s1) as [(s2 & E2 & L2 & T2 & V2)|E2]; [intros n; specialize (HG (S n)); cbn in HG; rewrite HG; f_equal; lia|lia| |right; exact E2].
    left. exists s2. split; [exact E2|]. split; [lia|]. split.
    + intros j h Hj F H. rewrite (T2 j h Hj F) by lia. apply T1; [lia|]. intros m Hm. eapply free_idx; eassumption.
    + intros j h Hj F H O. destruct (Nat.eq_dec j i) as [->|N].
      * rewrite (T2 i h Hj F) by lia. assert (h = g) by congruence. subst h. apply V1; assumption.
      * apply V2; [assumption..|lia|]. rewrite T1; [exact O|exact N|]. intros m Hm. eapply free_idx; eassumption.
Qed.

Lemma sgc_noop : forall n i st, Z.of_nat n + i <= 16 -> 0 <= i -> sgc_all a x k (-1) n i st = Some st.
Proof.
  induction n as [|n IH]; intros i st H Hi; cbn [sgc_all]; [reflexivity|]. unfold sgc_one. change (-1 <=? -1) with true. cbv iota.
  assert (E : ix2 (xe_sgc x) k i = Some 0).
  { unfold ix2. destruct PX as (_ & P1 & P2). pose proof k_range as KR. destruct (ix_some (xe_sgc x) k) as [l Hl]; [lia|]. rewrite Hl.
    assert (IN : In l (xe_sgc x)) by (unfold ix in Hl; destruct (k <? 0); [discriminate|]; eapply nth_error_In, Hl).
    rewrite Forall_forall in P2. rewrite (P2 l IN). unfold ix. destruct (Z.ltb_spec i 0); [lia|]. rewrite (nth_error_nth' _ 0) by (rewrite repeat_length; lia). rewrite nth_repeat. reflexivity. }
  rewrite E. change (0 =? 1) with false. cbv iota. change (-1 =? 0) with false. change (-1 =? 1) with false. cbv iota. apply IH; lia.
Qed.

Lemma onoff_spec sel st : (if i_dflt c then min_preset a else if i_apply c then ei_preset (i_ei c) else sel) = p_id p -> (length (groups a) <= length st)%nat ->
  (exists st', on_off a x c dmx sel st = Some (Ok (st', p_id p)) /\ exclusive a st' /\
     forall j g, nth_error (groups a) j = Some g -> free a (g_id g) -> nth_error st' j = Some (status p (wish_of j) g)) \/
  on_off a x c dmx sel st = Some (Er E_SG_OFF).
Proof.
  intros HC L. pose proof (on_off_exclusive a x c dmx sel st) as EX.
  assert (G : (exists st', on_off a x c dmx sel st = Some (Ok (st', p_id p)) /\
     forall j g, nth_error (groups a) j = Some g -> free a (g_id g) -> nth_error st' j = Some (status p (wish_of j) g)) \/
  on_off a x c dmx sel st = Some (Er E_SG_OFF)).
  2:{ destruct G as [(st' & E & V)|E]; [left|right; exact E]. exists st'. split; [exact E|]. split; [apply (EX st' (p_id p) SO SW PO L E)|exact V]. }
  clear EX. unfold on_off. rewrite HC, KP. destruct (Z.eqb_spec k (-1)); [lia|]. cbn [andb].
  destruct (Z.leb_spec (p_id p) (-1)); [pose proof p_good; lia|].
  rewrite (ng_len a SO) in L. pose proof (unset_len (Z.to_nat (a_ng a)) st L) as LU. set (s0 := unset (Z.to_nat (a_ng a)) st) in *.
  assert (L0 : (length (groups a) <= length s0)%nat) by (rewrite (ng_len a SO); lia).
  destruct (groups_spec (groups a) 0 s0) as [(s1 & E1 & L1 & _ & V1)|E1]; [reflexivity|exact L0| |change (Z.of_nat 0) with 0 in E1; rewrite E1; right; reflexivity].
  change (Z.of_nat 0) with 0 in E1. rewrite E1.
  replace (if -1 <? dmx then ext_of x k dmx else Some (-1)) with (Some (-1)) by (destruct (-1 <? dmx); [symmetry; apply find_ext0; [exact PX|apply k_range]|reflexivity]).
  rewrite ix_preset. change (-1 <=? -1) with true. cbv iota. rewrite sgc_noop by (pose proof p_good; lia).
  destruct (logic_spec a SO s1 SW) as (s2 & E2 & [_ T] & _); [lia|]. rewrite E2. left. exists s2. split; [reflexivity|].
  intros j g Hj F. rewrite T by (intros m Hm; eapply free_idx; eassumption).
  apply V1; [exact Hj|exact F|lia|]. assert (J : (j < length (groups a))%nat) by (apply nth_error_Some; congruence). rewrite (ng_len a SO) in J.
  unfold s0, unset. rewrite nth_error_app1 by (rewrite repeat_length; exact J). rewrite (nth_error_nth' _ (-1)) by (rewrite repeat_length; exact J). f_equal.
  apply nth_repeat.
Qed.
End Plain.
