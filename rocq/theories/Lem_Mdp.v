(** * Lem_Mdp: switch groups and statuses *)
From Coq Require Import ZArith List Lia Bool.
From Verif Require Import Asi Ei Mdp Spec_Mdp.
Import ListNotations.
Open Scope Z_scope.

(** ** Arrays *)
Lemma put_some {A} (l : list A) : forall n v, (n < length l)%nat -> exists l', put l n v = Some l'.
Proof.
  induction l as [|x l IH]; intros n v H; [cbn in H; lia|]. destruct n as [|n]; cbn [put]; [eexists; reflexivity|].
  cbn in H. destruct (IH n v) as [l' E]; [lia|]. rewrite E. eexists. reflexivity.
Qed.
Lemma put_spec {A} (l : list A) : forall n v l', put l n v = Some l' ->
  length l' = length l /\ nth_error l' n = Some v /\ forall k, k <> n -> nth_error l' k = nth_error l k.
Proof.
  induction l as [|x l IH]; intros n v l' E; [discriminate|]. destruct n as [|n]; cbn [put] in E.
  - injection E as <-. split; [reflexivity|]. split; [reflexivity|]. intros [|k] H; [lia|reflexivity].
  - destruct (put l n v) as [r|] eqn:P; [|discriminate]. injection E as <-. destruct (IH n v r P) as (K1 & K2 & K3).
    split; [cbn; lia|]. split; [exact K2|]. intros [|k] H; [reflexivity|]. cbn. apply K3. lia.
Qed.
Lemma ix_some {A} (l : list A) i : 0 <= i < Z.of_nat (length l) -> exists v, ix l i = Some v.
Proof.
  intros H. unfold ix. destruct (Z.ltb_spec i 0); [lia|]. destruct (nth_error l (Z.to_nat i)) eqn:E; [eexists; reflexivity|].
  apply nth_error_None in E. lia.
Qed.
Lemma sx_some {A} (l : list A) i v : 0 <= i < Z.of_nat (length l) -> exists l', sx l i v = Some l'.
Proof. intros H. unfold sx. destruct (Z.ltb_spec i 0); [lia|]. apply put_some. lia. Qed.
Lemma sx_spec {A} (l : list A) i v l' : sx l i v = Some l' ->
  0 <= i /\ length l' = length l /\ ix l' i = Some v /\ forall k, k <> i -> ix l' k = ix l k.
Proof.
  unfold sx. destruct (Z.ltb_spec i 0); [discriminate|]. intros E. destruct (put_spec _ _ _ _ E) as (K1 & K2 & K3).
  split; [lia|]. split; [exact K1|]. unfold ix. split; [destruct (Z.ltb_spec i 0); [lia|exact K2]|].
  intros k Hk. destruct (Z.ltb_spec k 0); [reflexivity|]. apply K3. lia.
Qed.
Lemma sx_nth {A} (l : list A) i v l' : sx l i v = Some l' -> forall k, nth_error l' k = if Z.of_nat k =? i then Some v else nth_error l k.
Proof.
  intros E k. destruct (sx_spec _ _ _ _ E) as (K1 & _ & K2 & K3). destruct (Z.eqb_spec (Z.of_nat k) i) as [H|H].
  - subst i. unfold ix in K2. destruct (Z.ltb_spec (Z.of_nat k) 0); [lia|]. rewrite Nat2Z.id in K2. exact K2.
  - specialize (K3 _ H). unfold ix in K3. destruct (Z.ltb_spec (Z.of_nat k) 0); [lia|]. rewrite Nat2Z.id in K3. exact K3.
Qed.

(** ** Positions *)
Lemma pos_of_spec {A} (p : A -> bool) l : forall i, 0 <= i ->
  (pos_of p l i = -1 /\ Forall (fun x => p x = false) l) \/
  exists n x, pos_of p l i = i + Z.of_nat n /\ nth_error l n = Some x /\ p x = true /\ find p l = Some x /\
    forall m y, (m < n)%nat -> nth_error l m = Some y -> p y = false.
Proof.
  induction l as [|x l IH]; intros i Hi; cbn [pos_of]; [left; split; [reflexivity|constructor]|].
  destruct (p x) eqn:E.
  - right. exists O, x. split; [lia|]. split; [reflexivity|]. split; [exact E|]. split; [cbn; rewrite E; reflexivity|]. intros m y H. lia.
  - destruct (IH (i + 1)) as [[K1 K2]|(n & y & K1 & K2 & K3 & K4 & K5)]; [lia| |].
    + left. split; [exact K1|]. constructor; assumption.
    + right. exists (S n), y. split; [lia|]. split; [exact K2|]. split; [exact K3|]. split; [cbn; rewrite E; exact K4|].
      intros [|m] w H Hw; [injection Hw as <-; exact E|]. apply (K5 m w); [lia|exact Hw].
Qed.

Lemma grp_idx_known a id : In id (map g_id (groups a)) ->
  exists n g, grp_idx a id = Z.of_nat n /\ nth_error (groups a) n = Some g /\ g_id g = id /\ (n < length (groups a))%nat.
Proof.
  intros H. unfold grp_idx. destruct (pos_of_spec (fun g => g_id g =? id) (groups a) 0) as [[_ K]|(n & g & K1 & K2 & K3 & _)]; [lia| |].
  - exfalso. apply in_map_iff in H. destruct H as (g & H1 & H2). rewrite Forall_forall in K. specialize (K g H2). cbv beta in K. lia.
  - exists n, g. split; [lia|]. split; [exact K2|]. split; [lia|]. apply nth_error_Some. congruence.
Qed.
Lemma grp_idx_unknown a id : ~ In id (map g_id (groups a)) -> grp_idx a id = -1.
Proof.
  intros H. unfold grp_idx. destruct (pos_of_spec (fun g => g_id g =? id) (groups a) 0) as [[K _]|(n & g & _ & K2 & K3 & _)]; [lia|exact K|].
  exfalso. apply H. apply in_map_iff. exists g. split; [lia|]. eapply nth_error_In, K2.
Qed.
Lemma grp_idx_nth a n g : NoDup (map g_id (groups a)) -> nth_error (groups a) n = Some g -> grp_idx a (g_id g) = Z.of_nat n.
Proof.
  intros ND H. destruct (grp_idx_known a (g_id g)) as (m & h & K1 & K2 & K3 & K4).
  { apply in_map. eapply nth_error_In, H. }
  rewrite K1. f_equal. rewrite NoDup_nth_error in ND. apply ND; [rewrite map_length; exact K4|].
  rewrite (map_nth_error g_id _ _ K2), (map_nth_error g_id _ _ H). congruence.
Qed.
Lemma grp_idx_inj a i j : In i (map g_id (groups a)) -> grp_idx a i = grp_idx a j -> i = j.
Proof.
  intros Hi E. destruct (grp_idx_known a i Hi) as (n & g & K1 & K2 & K3 & _).
  destruct (in_dec Z.eq_dec j (map g_id (groups a))) as [Hj|Hj].
  - destruct (grp_idx_known a j Hj) as (m & h & L1 & L2 & L3 & _). assert (n = m) by lia. subst m. congruence.
  - rewrite (grp_idx_unknown a j Hj) in E. lia.
Qed.

(** The value of a known group. *)
Definition val (a : asi) (st : list Z) (id : Z) : option Z := ix st (grp_idx a id).

Lemma onb_val a st id : NoDup (map g_id (groups a)) -> In id (map g_id (groups a)) ->
  onb a st id = match val a st id with Some v => v =? 1 | None => false end.
Proof.
  intros ND HI. destruct (grp_idx_known a id HI) as (n & g & K1 & K2 & K3 & K4). unfold val. rewrite K1. unfold ix.
  destruct (Z.ltb_spec (Z.of_nat n) 0); [lia|]. rewrite Nat2Z.id. unfold onb.
  assert (G : forall gs st n, NoDup (map g_id gs) -> nth_error gs n = Some g ->
    existsb (fun '(g, v) => (g_id g =? id) && (v =? 1)) (combine gs st) = match nth_error st n with Some v => v =? 1 | None => false end).
  { clear - K3. induction gs as [|h gs IH]; intros st n ND H; [destruct n; discriminate|]. cbn [map] in ND. inversion ND as [|? ? N1 N2]; subst.
    destruct st as [|v st]; [cbn; destruct n; reflexivity|]. cbn [combine existsb]. destruct n as [|n]; cbn [nth_error] in *.
    - injection H as ->. rewrite Z.eqb_refl. cbn [andb]. destruct (v =? 1); [reflexivity|]. cbn [orb].
      destruct (existsb (fun '(g0, v0) => (g_id g0 =? g_id g) && (v0 =? 1)) (combine gs st)) eqn:E; [|reflexivity]. exfalso. apply existsb_exists in E. destruct E as ((g' & v') & E1 & E2). apply N1.
      apply in_map_iff. exists g'. split; [lia|]. eapply in_combine_l, E1.
    - destruct (Z.eqb_spec (g_id h) (g_id g)) as [E|E].
      + exfalso. apply N1. rewrite E. apply in_map. eapply nth_error_In, H.
      + cbn [andb orb]. apply IH; assumption. }
  apply G; assumption.
Qed.

Section Fixed.
Variable a : asi.
Hypothesis SO : scene_ok a.
Let ids := map g_id (groups a).

Lemma ND : NoDup ids. Proof. exact (proj1 (proj2 (proj2 SO))). Qed.
Lemma ng_len : length (groups a) = Z.to_nat (a_ng a).
Proof. destruct SO as (H1 & H2 & _). unfold groups. apply firstn_length_le. lia. Qed.

Lemma known_range id (st : list Z) : In id ids -> (length (groups a) <= length st)%nat -> 0 <= grp_idx a id < Z.of_nat (length st).
Proof. intros H L. destruct (grp_idx_known a id H) as (n & g & K1 & _ & _ & K4). lia. Qed.

Lemma val_some id st : In id ids -> (length (groups a) <= length st)%nat -> exists v, val a st id = Some v.
Proof. intros H L. apply ix_some, known_range; assumption. Qed.

Lemma count_spec st : (length (groups a) <= length st)%nat -> forall ms, (forall m, In m ms -> In m ids) ->
  count_on a ms st = Some (Z.of_nat (length (filter (onb a st) ms))).
Proof.
  intros L. induction ms as [|m ms IH]; intros H; [reflexivity|]. cbn [count_on filter].
  destruct (val_some m st) as [v Hv]; [apply H; left; reflexivity|exact L|]. unfold val in Hv. rewrite Hv. rewrite IH by (intros; apply H; right; assumption).
  rewrite (onb_val a st m ND) by (apply H; left; reflexivity). unfold val. rewrite Hv. destruct (v =? 1); cbn [length]; f_equal; lia.
Qed.

(** Changing the status of one known group. *)
Lemma set_spec st id v : In id ids -> (length (groups a) <= length st)%nat ->
  exists st', sx st (grp_idx a id) v = Some st' /\ length st' = length st /\ val a st' id = Some v /\
    (forall m, m <> id -> In m ids -> val a st' m = val a st m) /\
    forall k, Z.of_nat k <> grp_idx a id -> nth_error st' k = nth_error st k.
Proof.
  intros H L. destruct (sx_some st (grp_idx a id) v (known_range id st H L)) as [st' E]. exists st'.
  destruct (sx_spec _ _ _ _ E) as (_ & K1 & K2 & K3). split; [exact E|]. split; [exact K1|]. split; [exact K2|]. split.
  - intros m Hm Hi. apply K3. intros C. apply Hm. apply grp_idx_inj with a; assumption.
  - intros k Hk. rewrite (sx_nth _ _ _ _ E k). destruct (Z.eqb_spec (Z.of_nat k) (grp_idx a id)); [contradiction|reflexivity].
Qed.

(** Statuses that differ from [st] only at the groups [ms]. *)
Definition touches (ms : list Z) (st st' : list Z) : Prop :=
  length st' = length st /\ forall k, (forall m, In m ms -> Z.of_nat k <> grp_idx a m) -> nth_error st' k = nth_error st k.
Lemma touches_refl ms st : touches ms st st. Proof. split; reflexivity. Qed.
Lemma touches_trans ms s1 s2 s3 : touches ms s1 s2 -> touches ms s2 s3 -> touches ms s1 s3.
Proof. intros [A1 A2] [B1 B2]. split; [congruence|]. intros k Hk. rewrite B2, A2 by exact Hk. reflexivity. Qed.
Lemma touches_incl ms ms' s1 s2 : incl ms ms' -> touches ms s1 s2 -> touches ms' s1 s2.
Proof. intros I [A1 A2]. split; [exact A1|]. intros k Hk. apply A2. intros m Hm. apply Hk, I, Hm. Qed.
Lemma touches_val ms st st' id : touches ms st st' -> In id ids -> ~ In id ms -> val a st' id = val a st id.
Proof.
  intros [_ T] H N. destruct (grp_idx_known a id H) as (n & g & K1 & _). unfold val, ix. rewrite K1. destruct (Z.ltb_spec (Z.of_nat n) 0); [lia|].
  rewrite Nat2Z.id. apply T. intros m Hm C. apply N. assert (id = m) by (apply (grp_idx_inj a); [exact H|congruence]). subst. exact Hm.
Qed.
Lemma touches_onb ms st st' id : touches ms st st' -> In id ids -> ~ In id ms -> onb a st' id = onb a st id.
Proof. intros T H N. rewrite !onb_val by (try exact ND; exact H). rewrite (touches_val ms st st' id T H N). reflexivity. Qed.

Lemma set_touches st id v st' : sx st (grp_idx a id) v = Some st' -> touches [id] st st'.
Proof.
  intros E. destruct (sx_spec _ _ _ _ E) as (_ & K1 & _). split; [exact K1|]. intros k Hk. rewrite (sx_nth _ _ _ _ E k).
  destruct (Z.eqb_spec (Z.of_nat k) (grp_idx a id)) as [C|C]; [|reflexivity]. exfalso. apply (Hk id); [left; reflexivity|exact C].
Qed.

Lemma only_spec d : forall ms st, NoDup ms -> (forall m, In m ms -> In m ids) -> (length (groups a) <= length st)%nat ->
  exists st', only_default a d ms st = Some st' /\ touches ms st st' /\
    forall m, In m ms -> onb a st' m = (m =? d).
Proof.
  induction ms as [|m ms IH]; intros st N H L; [exists st; split; [reflexivity|]; split; [apply touches_refl|intros m []]|].
  inversion N as [|? ? N1 N2]; subst. cbn [only_default].
  destruct (set_spec st m (if negb (d =? m) then 0 else 1)) as (st1 & E1 & L1 & V1 & _); [apply H; left; reflexivity|exact L|].
  rewrite E1. destruct (IH st1 N2) as (st' & E & T & V); [intros; apply H; right; assumption|lia|].
  exists st'. split; [exact E|]. split.
  - eapply touches_trans; [|eapply touches_incl; [|exact T]; intros ? ?; right; assumption].
    eapply touches_incl; [|exact (set_touches _ _ _ _ E1)]. intros ? [<-|[]]. left. reflexivity.
  - intros m' [<-|Hm].
    + rewrite (touches_onb ms st1 st' m T) by (try exact N1; apply H; left; reflexivity).
      rewrite (onb_val a st1 m ND) by (apply H; left; reflexivity). rewrite V1. destruct (Z.eqb_spec d m) as [->|C]; cbn [negb]; [symmetry; apply Z.eqb_refl|].
      destruct (Z.eqb_spec m d); [congruence|reflexivity].
    + apply V, Hm.
Qed.

Lemma filter_none {A} (p : A -> bool) l : length (filter p l) = O -> forall x, In x l -> p x = false.
Proof. intros H x Hx. destruct (p x) eqn:E; [|reflexivity]. assert (K : In x (filter p l)) by (apply filter_In; auto). destruct (filter p l); [destruct K|discriminate]. Qed.

(** One switch group: afterwards its members that are on are the decided ones. *)
Lemma sg_one_spec s st : In (s_dgrp s) (members s) -> (forall m, In m (members s) -> In m ids) -> NoDup (members s) ->
  sg_allow a (s_id s) = s_onoff s -> (length (groups a) <= length st)%nat ->
  exists st', sg_logic_one a s st = Some st' /\ touches (members s) st st' /\
    forall m, In m (members s) -> (onb a st' m = true <-> In m (decided s (filter (onb a st) (members s)))).
Proof.
  intros HD HM N HA L. unfold sg_logic_one. rewrite count_spec by assumption. set (f := filter (onb a st) (members s)).
  rewrite HA. unfold decided. destruct f as [|m0 [|m1 f']] eqn:F; cbn [length].
  - change (Z.of_nat 0 =? 0) with true. change (1 <? Z.of_nat 0) with false. cbv iota.
    assert (Z0 : forall x, In x (members s) -> onb a st x = false) by (intros; apply (filter_none (onb a st) (members s)); [unfold f in F; rewrite F; reflexivity|assumption]).
    destruct (Z.eqb_spec (s_onoff s) 1) as [E|E]; cbn [negb].
    + exists st. split; [reflexivity|]. split; [apply touches_refl|]. intros m Hm. rewrite Z0 by exact Hm. split; [discriminate|intros []].
    + destruct (set_spec st (s_dgrp s) 1) as (st1 & E1 & L1 & V1 & V2 & _); [apply HM, HD|exact L|]. rewrite E1.
      exists st1. split; [reflexivity|].
      assert (T : touches [s_dgrp s] st st1) by exact (set_touches _ _ _ _ E1).
      split; [eapply touches_incl; [|exact T]; intros ? [<-|[]]; exact HD|].
      intros m Hm. destruct (Z.eq_dec m (s_dgrp s)) as [->|C].
      * rewrite (onb_val a st1 _ ND) by (apply HM, HD). rewrite V1. split; [intros _; left; reflexivity|reflexivity].
      * rewrite (touches_onb _ _ _ m T) by (try (apply HM, Hm); intros [K|[]]; congruence). rewrite Z0 by exact Hm.
        split; [discriminate|intros [K|[]]; congruence].
  - change (Z.of_nat 1 =? 0) with false. change (1 <? Z.of_nat 1) with false. cbv iota.
    exists st. split; [reflexivity|]. split; [apply touches_refl|]. intros m Hm.
    assert (K : In m f <-> onb a st m = true) by (unfold f; rewrite filter_In; tauto). rewrite F in K. rewrite K. reflexivity.
  - assert (X1 : (Z.of_nat (S (S (length f'))) =? 0) = false) by (apply Z.eqb_neq; lia). assert (X2 : (1 <? Z.of_nat (S (S (length f')))) = true) by (apply Z.ltb_lt; lia). rewrite X1, X2. cbv iota.
    destruct (only_spec (s_dgrp s) (members s) st N HM L) as (st' & E & T & V). rewrite E. exists st'. split; [reflexivity|]. split; [exact T|].
    intros m Hm. rewrite V by exact Hm. rewrite Z.eqb_eq. split; [intros ->; left; reflexivity|intros [<-|[]]; reflexivity].
Qed.

Lemma allow_spec s : NoDup (map s_id (switches a)) -> In s (switches a) -> sg_allow a (s_id s) = s_onoff s.
Proof.
  unfold sg_allow. generalize (switches a). induction l as [|x l IH]; intros N H; [destruct H|]. cbn [map find] in *. inversion N as [|? ? N1 N2]; subst.
  destruct H as [->|H]; [rewrite Z.eqb_refl; reflexivity|]. destruct (Z.eqb_spec (s_id x) (s_id s)) as [E|E]; [|apply IH; assumption].
  exfalso. apply N1. rewrite E. apply in_map, H.
Qed.

Lemma nodup_app {A} (l m : list A) : NoDup (l ++ m) -> NoDup l /\ NoDup m /\ forall x, In x l -> ~ In x m.
Proof.
  induction l as [|x l IH]; cbn [app]; intros H; [split; [constructor|split; [exact H|intros ? []]]|].
  inversion H as [|? ? H1 H2]; subst. destruct (IH H2) as (K1 & K2 & K3). rewrite in_app_iff in H1.
  split; [constructor; tauto|]. split; [exact K2|]. intros y [<-|Hy]; [tauto|apply K3, Hy].
Qed.

Lemma in_members s ss m : In s ss -> In m (members s) -> In m (concat (map members ss)).
Proof. intros H1 H2. apply in_concat. exists (members s). split; [apply in_map, H1|exact H2]. Qed.

Lemma logic_list : forall ss st, (forall s, In s ss -> sg_allow a (s_id s) = s_onoff s) -> NoDup (concat (map members ss)) ->
  Forall (fun s => In (s_dgrp s) (members s) /\ forall m, In m (members s) -> In m ids) ss ->
  (length (groups a) <= length st)%nat ->
  exists st', sg_logic a ss st = Some st' /\ touches (concat (map members ss)) st st' /\
    forall s m, In s ss -> In m (members s) -> (onb a st' m = true <-> In m (decided s (filter (onb a st) (members s)))).
Proof.
  induction ss as [|s ss IH]; intros st HA N F L; cbn [sg_logic map concat].
  - exists st. split; [reflexivity|]. split; [apply touches_refl|]. intros s m [].
  - cbn [map concat] in N. destruct (nodup_app _ _ N) as (N1 & N2 & N3). pose proof (Forall_inv F) as (F1 & F2). apply Forall_inv_tail in F.
    destruct (sg_one_spec s st F1 F2 N1) as (st1 & E1 & T1 & V1); [apply HA; left; reflexivity|exact L|]. rewrite E1.
    destruct (IH st1) as (st' & E & T & V); [intros; apply HA; right; assumption|exact N2|exact F|destruct T1; lia|].
    exists st'. split; [exact E|]. split.
    + eapply touches_trans; [eapply touches_incl; [|exact T1]|eapply touches_incl; [|exact T]]; intros ? ?; apply in_app_iff; tauto.
    + intros s' m [<-|Hs] Hm.
      * rewrite (touches_onb _ _ _ m T) by (try (apply F2, Hm); apply N3, Hm). apply V1, Hm.
      * rewrite (V s' m Hs Hm).
        assert (K : filter (onb a st1) (members s') = filter (onb a st) (members s')).
        { apply filter_ext_in. intros x Hx. rewrite Forall_forall in F. destruct (F s' Hs) as [_ F'].
          apply (touches_onb _ _ _ x T1); [apply F', Hx|]. intros C. apply (N3 x C). eapply in_members; eassumption. }
        rewrite K. reflexivity.
Qed.

Lemma logic_spec st : switch_ok a -> (length (groups a) <= length st)%nat ->
  exists st', sg_logic a (switches a) st = Some st' /\ touches (concat (map members (switches a))) st st' /\
    forall s m, In s (switches a) -> In m (members s) ->
      (onb a st' m = true <-> In m (decided s (filter (onb a st) (members s)))).
Proof. intros (N & C & F) L. apply logic_list; [intros; apply allow_spec; assumption|exact C|exact F|exact L]. Qed.
End Fixed.

Lemma decided_one s l m m' : In m (decided s l) -> In m' (decided s l) -> m = m'.
Proof. unfold decided. destruct l as [|x [|y l]]; [destruct (s_onoff s =? 1)| |]; cbn; intuition congruence. Qed.

Lemma decided_sub a s st m : In (s_dgrp s) (members s) -> In m (decided s (filter (onb a st) (members s))) -> In m (members s).
Proof.
  intros D. unfold decided. destruct (filter (onb a st) (members s)) as [|x [|y l]] eqn:F.
  - destruct (s_onoff s =? 1); [intros []|intros [<-|[]]; exact D].
  - intros [<-|[]]. assert (K : In x (filter (onb a st) (members s))) by (rewrite F; left; reflexivity). apply filter_In in K. tauto.
  - intros [<-|[]]. exact D.
Qed.

Lemma logic_exclusive a st st' : scene_ok a -> switch_ok a -> (length (groups a) <= length st)%nat ->
  sg_logic a (switches a) st = Some st' -> exclusive a st'.
Proof.
  intros SO SW L E. destruct (logic_spec a SO st SW L) as (s2 & E2 & _ & V). rewrite E in E2. injection E2 as <-.
  intros s Hs. split.
  - intros m m' Hm Hm' O O'. apply (V s m Hs Hm) in O. apply (V s m' Hs Hm') in O'. eapply decided_one; eassumption.
  - intros Hoff. destruct SW as (_ & _ & F). rewrite Forall_forall in F. destruct (F s Hs) as [D _].
    assert (K : exists m, In m (decided s (filter (onb a st) (members s)))).
    { unfold decided. destruct (filter (onb a st) (members s)) as [|x [|y l]]; [destruct (Z.eqb_spec (s_onoff s) 1); [contradiction|]| |]; eexists; left; reflexivity. }
    destruct K as [m K]. pose proof (decided_sub a s st m D K) as Hm. exists m. split; [exact Hm|]. apply (V s m Hs Hm), K.
Qed.
