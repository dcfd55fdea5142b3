(** * Lem_DrcCfg: safety and capacity of the DRC configuration parser *)

From Coq Require Import ZArith List Lia Bool.
From Verif Require Import Bits BitBuf Prog Asi Wp Wlp Leaf Loud DrcCfg Spec_Drc.
Import ListNotations.
Open Scope Z_scope.

(** ** Agreement of the parser with and without the added tests *)
Definition agree {A} (p q : prog (res A)) : Prop := forall s,
  exec q s = exec p s \/
  ((exists s', exec q s = Done (Er E_DRC_FIX, s')) /\ forall a s', exec p s <> Done (Ok a, s')).

Lemma agree_refl {A} (p : prog (res A)) : agree p p.
Proof. intros s. left. reflexivity. Qed.

Lemma agree_bind {A B} (r : prog A) (p q : A -> prog (res B)) :
  (forall a, agree (p a) (q a)) -> agree (bind r p) (bind r q).
Proof.
  intros H s. rewrite !exec_bind. destruct (exec r s) as [[a s1]| |]; auto. apply H.
Qed.

Lemma agree_bindR {A B} (p q : prog (res A)) (f g : A -> prog (res B)) :
  agree p q -> (forall a, agree (f a) (g a)) ->
  agree (r <- p ;; match r with Er e => Ret (Er e) | Ok a => f a end)
        (r <- q ;; match r with Er e => Ret (Er e) | Ok a => g a end).
Proof.
  intros H1 H2 s. rewrite !exec_bind. destruct (H1 s) as [E|((s' & E) & N)].
  - rewrite E. destruct (exec p s) as [[[a|e] s1]| |]; auto. apply H2.
  - right. rewrite E. cbn. split; [eauto|]. intros a s1.
    destruct (exec p s) as [[[x|e] s2]| |] eqn:X; cbn; try discriminate.
    destruct (N x s2). reflexivity.
Qed.

Lemma agree_forR {S} (b c : nat -> S -> prog (res S)) :
  (forall i s, agree (b i s) (c i s)) -> forall n i s, agree (forR n i b s) (forR n i c s).
Proof.
  intros H. induction n as [|n IH]; intros i s; cbn [forR]; [apply agree_refl|].
  intros st. rewrite !exec_bind. destruct (H i s st) as [E|((s' & E) & N)].
  - rewrite E. destruct (exec (b i s) st) as [[[a|e] s1]| |]; auto. apply IH.
  - right. rewrite E. cbn. split; [eauto|]. intros a s1.
    destruct (exec (b i s) st) as [[[x|e] s2]| |] eqn:X; cbn; try discriminate.
    destruct (N x s2). reflexivity.
Qed.

(** A loop whose body checks its index against a bound cannot finish beyond it. *)
Lemma forR_chk {S} (cap : Z) (body : nat -> S -> prog (res S)) :
  (forall j t, cap <= Z.of_nat j -> body j t = Undef UOob) ->
  forall n i s, leaf (forR n i body s)
    (fun r => match r with Ok _ => n = O \/ Z.of_nat (i + n) <= cap | Er _ => True end).
Proof.
  intros HB. induction n as [|n IH]; intros i s; cbn [forR]; [cbn; auto|].
  apply leaf_bind. destruct (Z.le_gt_cases cap (Z.of_nat i)) as [H|H].
  - rewrite HB by exact H. exact I.
  - apply leaf_any. intros [u|e]; [|exact I].
    eapply leaf_mono; [|apply IH]. intros [x|e]; [|auto]. intros [->|K]; right; lia.
Qed.
Lemma chk_out i n : n <= i -> chk i n = Undef UOob.
Proof.
  intros H. unfold chk. replace (i <? n) with false by (symmetry; apply Z.ltb_ge; lia).
  rewrite andb_false_r. reflexivity.
Qed.

Lemma agree_coeff : agree (parse_coeff false) (parse_coeff true).
Proof.
  unfold parse_coeff. apply agree_bind. intros t.
  destruct (negb (t mod 2 =? 0)); [apply agree_refl|]. apply agree_bind. intros n.
  cbn [andb]. destruct (Z.ltb_spec GAIN_SET_MAX n) as [L|L]; [|apply agree_refl].
  intros s. right. split; [exists s; reflexivity|]. intros a s' H.
  rewrite exec_bind in H.
  match type of H with context [exec (forR ?n ?i ?b ?x) s] =>
    pose proof (forR_chk GAIN_SET_MAX b) as F;
    destruct (exec (forR n i b x) s) as [[r s1]| |] eqn:E end; try discriminate.
  specialize (F ltac:(intros j [sets q] Hj; rewrite chk_out by exact Hj; reflexivity)).
  pose proof (exec_leaf _ _ s r s1 (F _ _ _) E) as P.
  destruct r as [[sets q]|e]; cbn in H; [|discriminate]. unfold GAIN_SET_MAX in *. lia.
Qed.

Theorem agree_config dmxs tdef : agree (parse_config false dmxs tdef) (parse_config true dmxs tdef).
Proof.
  unfold parse_config. apply agree_bind. intros nc. destruct (COEFF_MAX <? nc); [apply agree_refl|].
  apply agree_bind. intros ni. destruct (INSTR_MAX <? ni); [apply agree_refl|].
  apply agree_bind. intros base. apply agree_bindR.
  { apply agree_forR. intros i acc. apply agree_bind. intros _. apply agree_bindR; [apply agree_coeff|].
    intros a. apply agree_refl. }
  intros cs. apply agree_bindR; [apply agree_refl|]. intros is_.
  apply agree_bind. intros ep. apply agree_bindR; [apply agree_refl|]. intros _.
  apply agree_bind. intros lp. destruct (negb (lp =? 0)); [apply agree_refl|].
  apply agree_bindR; [apply agree_refl|]. intros is2.
  destruct (INSTR_MAX <=? ni); [apply agree_refl|].
  cbn [andb]. destruct (Z.leb_spec INSTR_MAX (ni + 1)) as [L|L]; [|apply agree_refl].
  intros s. right. split; [exists s; reflexivity|]. intros a s' H.
  rewrite exec_bind in H. destruct (exec (chk ni INSTR_MAX) s) as [[u s1]| |]; try discriminate.
  rewrite chk_out in H by exact L. discriminate.
Qed.

(** ** Safety and capacity of the parser with the tests *)
Definition okP {A} (P : A -> Prop) (r : res A) : Prop := match r with Ok a => P a | Er _ => True end.

Definition set_raw (g : gset) : Prop :=
  0 <= gs_count g <= 4 /\
  (gs_prof g = 3 -> gs_count g = 1) /\
  (gs_prof g <> 3 -> Z.of_nat (length (gs_bands g)) = gs_count g /\
                     forall b, In b (gs_bands g) -> 0 <= fst b < 24).

Lemma gain_set_params_wp seq : -1 <= seq ->
  wp (gain_set_params seq) (okP (fun x => set_raw (fst x) /\ -1 <= snd x)).
Proof.
  intros Hs. unfold gain_set_params. wp1. wp1. wp1.
  apply wp_mono with (Q := fun _ => True); [|destruct (v mod 2 =? 0); wps; exact I].
  intros tmin _. wp1.
  { wp1. unfold set_raw, okP; cbn. apply Z.eqb_eq in E. intuition (try lia; try congruence). }
  apply Z.eqb_neq in E. wps; [exact I| |]; rename v0 into n, Hv0 into Hn, E0 into En;
    unfold BAND_MAX in En; apply Z.ltb_ge in En.
  - apply wp_forR with (E := fun _ => True)
      (I := fun j '(bands, q) => length bands = j /\ -1 <= q /\ forall b, In b bands -> 0 <= fst b < 24).
    + cbn. intuition lia.
    + intros j [bands q] Hj (HL & Hq & HB). wp1; [exact I|]. apply Z.leb_gt in E0. unfold SEQUENCE_MAX in E0.
      wp1. wp1; [unfold BAND_MAX; lia|]. wps. rewrite app_length; cbn. split; [lia|]. split; [lia|].
      intros b Hb. apply in_app_or in Hb. destruct Hb as [Hb|[<-|[]]]; [auto|cbn; lia].
    + intros [bands q] (HL & Hq & HB). wp1.
      apply wp_for with (I := fun _ _ => True); [exact I| |].
      * intros j t Hj _. wp1. wp1; try (unfold BAND_MAX; lia). wps; exact I.
      * intros ed _. wp1. unfold okP, set_raw; cbn. repeat split; try lia; try (intros; congruence); apply HB; auto.
    + intros c _. wp1. exact I.
  - apply wp_forR with (E := fun _ => True)
      (I := fun j '(bands, q) => length bands = j /\ -1 <= q /\ forall b, In b bands -> 0 <= fst b < 24).
    + cbn. intuition lia.
    + intros j [bands q] Hj (HL & Hq & HB). wp1; [exact I|]. apply Z.leb_gt in E0. unfold SEQUENCE_MAX in E0.
      wp1. wp1; [unfold BAND_MAX; lia|]. wps. rewrite app_length; cbn. split; [lia|]. split; [lia|].
      intros b Hb. apply in_app_or in Hb. destruct Hb as [Hb|[<-|[]]]; [auto|cbn; lia].
    + intros [bands q] (HL & Hq & HB). wp1.
      apply wp_for with (I := fun _ _ => True); [exact I| |].
      * intros j t Hj _. exfalso. apply Z.ltb_ge in E1. lia.
      * intros ed _. wp1. unfold okP, set_raw; cbn. repeat split; try lia; try (intros; congruence); apply HB; auto.
    + intros c _. wp1. exact I.
Qed.

Lemma parse_coeff_wp : wp (parse_coeff true) (okP coef_within).
Proof.
  unfold parse_coeff. wp1. wp1. wp1; [wps; exact I|]. wp1. wp1. wp1; [wps; exact I|].
  cbn [andb] in E0. apply Z.ltb_ge in E0. unfold GAIN_SET_MAX in E0. wp1.
  apply wp_forR with (E := fun _ => True)
    (I := fun j '(sets, q) => length sets = j /\ -1 <= q /\ forall g, In g sets -> set_within g).
  - cbn. intuition lia.
  - intros j [sets q] Hj (HL & Hq & HS). wp1. wp1; [unfold GAIN_SET_MAX; lia|]. wp1.
    eapply wp_mono; [|apply gain_set_params_wp; exact Hq]. intros [[g q']|e]; cbn [okP]; [|intros _; wps; exact I].
    cbn [fst snd]. intros (HR & Hq'). wps; [exact I|]. rewrite app_length; cbn. split; [lia|]. split; [lia|].
    apply orb_false_iff in E1. destruct E1 as [E1 E2]. apply negb_false_iff, Z.eqb_eq in E1, E2.
    intros x Hx. apply in_app_or in Hx. destruct Hx as [Hx|[<-|[]]]; [auto|].
    destruct HR as (R1 & R2 & R3). unfold set_within. auto.
  - intros [sets q] (HL & Hq & HS). wp1. unfold okP, coef_within; cbn. split; [lia|exact HS].
  - intros c _. wps. exact I.
Qed.

Lemma parse_downmix_id_wp : wp parse_downmix_id (fun l => (1 <= length l <= 8)%nat).
Proof.
  unfold parse_downmix_id. wps; [cbn; lia|].
  apply wp_for with (I := fun j l => length l = j); [reflexivity| |].
  - intros j l Hj HL. wp1. wp1; [unfold DMX_ID_MAX; lia|]. wps. rewrite app_length; cbn. lia.
  - intros l HL. lia.
Qed.

Lemma parse_target_loudness_wp (Q : Z * Z * Z -> Prop) : (forall x, Q x) -> wp parse_target_loudness Q.
Proof. intros H. unfold parse_target_loudness. wps; apply H. Qed.

(** The channel loop. *)
Lemma channel_loop_wp {A} (P : A -> Prop) (item : prog (res (A * Z))) cnt :
  cnt <= 16 -> wp item (okP (fun x => P (fst x))) ->
  forall fuel acc, cnt <= zlen acc + Z.of_nat fuel -> Forall P acc ->
  wp (channel_loop fuel item cnt acc) (okP (fun l => Forall P l /\ cnt <= zlen l)).
Proof.
  intros Hc HI. induction fuel as [|f IH]; intros acc HF HA; cbn [channel_loop].
  - destruct (Z.leb_spec cnt (zlen acc)); [|lia]. wp1. cbn. auto.
  - destruct (Z.leb_spec cnt (zlen acc)); [wp1; cbn; auto|]. wp1.
    eapply wp_mono; [|exact HI]. intros [[a rep]|e]; cbn [okP fst]; intros HPa; [|wp1; exact I].
    wp1. wp1; [unfold zlen, CHANNEL_MAX in *; lia|].
    assert (HA' : Forall P (acc ++ [a])) by (apply Forall_app; auto).
    assert (HL : zlen (acc ++ [a]) = zlen acc + 1) by (unfold zlen; rewrite app_length; cbn; lia).
    destruct (rep =? 1).
    + wp1. wp1. wp1; [wp1; exact I|]. apply Z.ltb_ge in E. unfold CHANNEL_MAX in E. wp1.
      apply wp_for with (I := fun j l => zlen l = zlen acc + 1 + Z.of_nat j /\ Forall P l).
      * split; [lia|exact HA'].
      * intros j l Hj (Hl & HP). wp1. wp1; [unfold zlen, CHANNEL_MAX in *; lia|]. wp1.
        split; [unfold zlen in *; rewrite app_length; cbn; lia|apply Forall_app; auto].
      * intros l (Hl & HP). apply IH; [lia|exact HP].
    + apply IH; [lia|exact HA'].
Qed.

Definition idx_ok (i : Z) : Prop := -1 <= i < 24.

Lemma plain_item_wp : wp plain_item (okP (fun x => idx_ok (fst x))).
Proof.
  unfold plain_item. wp1. wp1. wp1; wp1; [exact I|]. apply Z.ltb_ge in E. unfold GAIN_SET_MAX in E.
  cbn. unfold idx_ok. pose proof (Z.mod_pos_bound (v / 2) 128). lia.
Qed.

Lemma duck_item_wp : wp duck_item (okP (fun x => idx_ok (fst (fst x)))).
Proof.
  unfold duck_item, ducking_scaling. wps; try exact I; apply Z.ltb_ge in E; unfold GAIN_SET_MAX in E;
  cbn; unfold idx_ok; lia.
Qed.

(** Grouping. *)
Lemma group_loop_wp {A} eqb unused (P : A -> Prop) (l : list A) : forall uniq cg,
  zlen uniq + zlen l <= 16 -> Forall P l -> Forall (fun x => P x /\ unused x = false) uniq ->
  wp (group_loop eqb unused l uniq cg)
     (fun x => Forall (fun y => P y /\ unused y = false) (fst x) /\ zlen (fst x) <= zlen uniq + zlen l).
Proof.
  induction l as [|x t IH]; intros uniq cg HL HP HU; cbn [group_loop].
  - wp1. cbn. split; [exact HU|unfold zlen; lia].
  - assert (HT := Forall_inv_tail HP). assert (Hx := Forall_inv HP).
    assert (HZ : zlen (x :: t) = zlen t + 1) by (unfold zlen; cbn [length]; lia).
    destruct (unused x) eqn:U.
    + eapply wp_mono; [|apply IH]; [|unfold zlen in *; lia|exact HT|exact HU].
      intros y (Y1 & Y2). split; [exact Y1|lia].
    + destruct (find_pos eqb x uniq 0).
      * eapply wp_mono; [|apply IH]; [|unfold zlen in *; lia|exact HT|exact HU].
        intros y (Y1 & Y2). split; [exact Y1|lia].
      * wp1. wp1; [unfold CHANNEL_MAX, zlen in *; lia|].
        assert (HZ' : zlen (uniq ++ [x]) = zlen uniq + 1) by (unfold zlen; rewrite app_length; cbn; lia).
        eapply wp_mono; [|apply IH]; [|lia|exact HT|apply Forall_app; auto].
        intros y (Y1 & Y2). split; [exact Y1|lia].
Qed.

Lemma duck_other_wp l : forall uniq cg seq, idx_ok seq ->
  zlen uniq + zlen l <= 16 -> Forall (fun x => idx_ok (fst x)) l ->
  wp (duck_other_loop l uniq cg seq)
     (okP (fun x => zlen (fst (fst x)) <= zlen uniq + zlen l /\ 0 <= snd x < 24)).
Proof.
  induction l as [|[idx f] t IH]; intros uniq cg seq Hs HL HP; cbn [duck_other_loop].
  - destruct (Z.eqb_spec seq (-1)); wp1; cbn; [exact I|]. unfold idx_ok, zlen in *; cbn. lia.
  - assert (HT := Forall_inv_tail HP). assert (Hx := Forall_inv HP). cbn in Hx.
    assert (HZ : zlen ((idx, f) :: t) = zlen t + 1) by (unfold zlen; cbn [length]; lia).
    destruct (0 <=? idx) eqn:U.
    + destruct (negb (idx =? seq) && (0 <? seq)); [wp1; exact I|].
      eapply wp_mono; [|apply IH]; [|exact Hx|unfold zlen in *; lia|exact HT].
      intros [y|e]; cbn [okP]; [|auto]. lia.
    + destruct (find_pos Z.eqb f uniq 0).
      * eapply wp_mono; [|apply IH]; [|exact Hs|unfold zlen in *; lia|exact HT].
        intros [y|e]; cbn [okP]; [|auto]. lia.
      * wp1. wp1; [unfold CHANNEL_MAX, zlen in *; lia|].
        assert (HZ' : zlen (uniq ++ [f]) = zlen uniq + 1) by (unfold zlen; rewrite app_length; cbn; lia).
        eapply wp_mono; [|apply IH]; [|exact Hs|lia|exact HT].
        intros [y|e]; cbn [okP]; [|auto]. lia.
Qed.

Lemma gain_modifiers_wp n (Q : gmod -> Prop) : n <= 4 -> (forall m, Q m) -> wp (gain_modifiers n) Q.
Proof.
  intros Hn H. unfold gain_modifiers. wps; try apply H; try (unfold BAND_MAX; apply Z.ltb_lt in E1; lia);
   try (unfold BAND_MAX; match goal with X : (0 <? n) = true |- _ => apply Z.ltb_lt in X end; lia).
Qed.

Definition part_ok (p : chpart) : Prop :=
  (length (cp_gsi p) <= 16)%nat /\ Forall idx_ok (cp_gsi p) /\
  (length (cp_sets p) <= 16)%nat /\ Forall (fun k => 0 <= k) (cp_sets p).

Lemma update_ch_count_le dmxs ids base n : update_ch_count dmxs ids base = Ok n -> n <= 16.
Proof.
  unfold update_ch_count. intros H.
  match type of H with match ?x with _ => _ end = _ => destruct x as [m|e] end; [|discriminate].
  destruct (Z.ltb_spec CHANNEL_MAX m); inversion H; subst. unfold CHANNEL_MAX in *. lia.
Qed.

Lemma channel_any_nonempty dmxs ids base n :
  update_ch_count dmxs ids base = Ok n -> (hd 0 ids =? 127) || (1 <? zlen ids) = true -> n = 1.
Proof.
  unfold update_ch_count. intros H E. rewrite E in H.
  assert (X : negb (hd 0 ids =? 0) && negb (hd 0 ids =? 127) && (zlen ids =? 1) = false).
  { apply orb_true_iff in E. destruct E as [E|E]; [rewrite E; cbn; rewrite andb_false_r; reflexivity|].
    apply Z.ltb_lt in E. replace (zlen ids =? 1) with false by (symmetry; apply Z.eqb_neq; lia).
    apply andb_false_r. }
  rewrite X in H. cbn in H. congruence.
Qed.

Lemma not_self_other_wp dmxs ids base c : coef_within c ->
  wp (not_self_other dmxs ids base c) (okP part_ok).
Proof.
  intros HC. unfold not_self_other. destruct (update_ch_count dmxs ids base) as [cnt|e] eqn:EC; [|wp1; exact I].
  assert (Hcnt := update_ch_count_le _ _ _ _ EC). wp1.
  eapply wp_mono; [|apply (channel_loop_wp idx_ok plain_item cnt Hcnt plain_item_wp)]; [|unfold zlen; cbn; lia|constructor].
  intros [gsi|e]; cbn [okP]; [|intros _; wp1; exact I]. intros (HG & HL). wp1; [wp1; exact I|].
  apply Z.ltb_ge in E. wp1.
  apply wp_mono with (Q := fun x => Forall (fun y => idx_ok y /\ (y <? 0) = false) (fst x) /\ zlen (fst x) <= 16).
  - intros [uniq cg] (HU & HZ). cbn [fst] in *. wp1; [wp1; exact I|]. wp1.
    apply wp_forR with (E := fun _ => True) (I := fun j l => True); [exact I| | |].
    + intros j mods Hj _. wp1. apply wp_aget; [lia|]. intros i Hi.
      apply nth_error_In in Hi. rewrite Forall_forall in HU. destruct (HU _ Hi) as (I1 & I2). rewrite I2.
      wp1. wp1; [unfold GROUP_MAX, zlen in *; lia|]. wp1. unfold band_count_of.
      destruct (Z.ltb_spec i (zlen (co_sets c))).
      * wp1. apply Z.ltb_ge in I2. apply wp_aget; [unfold zlen in *; lia|]. intros g Hg. wp1. wp1.
        apply nth_error_In in Hg. destruct HC as (_ & HC). destruct (HC _ Hg) as (HCg & _).
        apply gain_modifiers_wp; [lia|]. intros m. wp1. exact I.
      * wp1. wp1. apply gain_modifiers_wp; [lia|]. intros m. wp1. exact I.
    + intros mods _. wp1. unfold okP, part_ok; cbn. unfold zlen in *. repeat split; try lia; auto.
      eapply Forall_impl; [|exact HU]. intros a (_ & B). apply Z.ltb_ge in B. exact B.
    + intros e _. wp1. exact I.
  - wp1.
    + assert (cnt = 1) by (eapply channel_any_nonempty; eauto). subst cnt. wp1.
      apply wp_aget; [unfold zlen in *; lia|]. intros i Hi. apply nth_error_In in Hi.
      rewrite Forall_forall in HG. specialize (HG _ Hi).
      wp1. destruct (Z.leb_spec 0 i); cbn; split; try (unfold zlen; cbn; lia); [|constructor].
      constructor; [|constructor]. split; [exact HG|]. apply Z.ltb_ge. lia.
    + eapply wp_mono; [|apply (group_loop_wp Z.eqb _ idx_ok)]; [| |exact HG|constructor].
      * intros [u g] (H1 & H2). cbn in *. split; [exact H1|unfold zlen in *; cbn in *; lia].
      * unfold zlen in *; cbn; lia.
Qed.

Lemma self_other_wp eff base : base <= 16 -> duck_bits eff = true -> wp (self_other eff base) (okP part_ok).
Proof.
  intros Hb He. unfold self_other. wp1.
  eapply wp_mono; [|apply (channel_loop_wp (fun x => idx_ok (fst x)) duck_item base Hb duck_item_wp)];
    [|unfold zlen; cbn; lia|constructor].
  intros [chs|e]; cbn [okP]; [|intros _; wp1; exact I]. intros (HG & HL). wp1; [wp1; exact I|].
  apply Z.ltb_ge in E. wp1.
  apply wp_mono with (Q := okP (fun x : list Z * list Z * list Z * Z =>
    length (fst (fst (fst x))) = length (snd (fst (fst x))) /\ zlen (snd (fst (fst x))) <= 16)).
  - intros [[[[uidx uscal] cg] seq]|e]; cbn [okP fst snd]; [|intros _; wp1; exact I].
    intros (H1 & H2). wp1; [wp1; exact I|]. wp1.
    apply wp_forR with (E := fun _ => True) (I := fun j l => length l = j /\ Forall (fun k => 0 <= k) l).
    + split; [reflexivity|constructor].
    + intros j l Hj (Hl & HF). wp1. apply wp_aget; [lia|]. intros i Hi. wp1; [wp1; exact I|].
      apply Z.ltb_ge in E1. wp1. wp1; [unfold GROUP_MAX, zlen in *; lia|]. wp1.
      rewrite app_length; cbn. split; [lia|]. apply Forall_app; auto.
    + intros l (Hl & HF). wp1. unfold okP, part_ok; cbn. rewrite map_length. unfold zlen in *.
      repeat split; try lia; auto. rewrite Forall_map. exact HG.
    + intros e _. wp1. exact I.
  - wp1.
    + wp1. eapply wp_mono; [|apply (group_loop_wp pair_eqb _ (fun x => idx_ok (fst x)))]; [| |exact HG|constructor].
      * intros [u g] (H1 & H2). wp1. cbn in *. rewrite !map_length. split; [reflexivity|].
        unfold zlen in *. rewrite map_length. cbn in *; lia.
      * unfold zlen in *; cbn; lia.
    + wp1. eapply wp_mono; [|apply duck_other_wp]; [|unfold idx_ok; lia| |exact HG].
      * intros [[[u g] q]|e]; cbn [okP fst snd]; [|intros _; wp1; exact I]. intros (H1 & H2). wp1. cbn.
        rewrite map_length. split; [reflexivity|]. unfold zlen in *; cbn in *; lia.
      * unfold zlen in *; cbn; lia.
Qed.

(** An instruction before and after the derived data. *)
Definition instr_raw (cs : list coef) (i : instr) : Prop :=
  0 <= in_set i < 32 /\ (1 <= length (in_dmx i) <= 8)%nat /\
  (length (in_gsi i) <= 16)%nat /\ Forall idx_ok (in_gsi i) /\
  (length (in_sets i) <= 16)%nat /\ Forall (fun k => 0 <= k) (in_sets i) /\
  (hd 0 (in_dmx i) <> 0 -> length (in_sets i) = 1%nat).

Lemma last_coef_in cs loc c : last_coef cs loc = Some c -> In c cs.
Proof.
  unfold last_coef. assert (G : forall l r, fold_left (fun r c => if co_loc c =? loc then Some c else r) l r = Some c ->
    In c l \/ r = Some c).
  { induction l as [|x t IH]; intros r H; cbn in H; [auto|]. apply IH in H. destruct H as [H|H]; [left; right; exact H|].
    destruct (co_loc x =? loc); [|auto]. inversion H; subst. left; left; reflexivity. }
  intros H. apply G in H. destruct H as [H|H]; [exact H|discriminate].
Qed.

Lemma parse_instructions_wp dmxs base cs ty grp pre :
  (forall c, In c cs -> coef_within c) -> wp (parse_instructions dmxs base cs ty grp pre) (okP (instr_raw cs)).
Proof.
  intros HC. unfold parse_instructions. wp1. wp1. wp1; [wp1; exact I|].
  apply Z.leb_gt in E. unfold INSTR_MAX in E. wp1. wp1. wp1.
  eapply wp_mono; [|apply parse_downmix_id_wp]. intros ids Hids. wp1. wp1. wp1.
  apply wp_mono with (Q := fun _ => True); [|wps; exact I]. intros lim _. wp1.
  apply parse_target_loudness_wp. intros [[tf up] lo]. wp1. wp1. wp1; [wp1; exact I|]. wp1.
  apply wp_mono with (Q := fun _ => True); [|wps; exact I]. intros [dep noind] _.
  destruct (last_coef cs v0) as [c|] eqn:EL; [|wp1; exact I].
  apply last_coef_in in EL. wp1; [wp1; exact I|]. apply Z.ltb_ge in E1. unfold CHANNEL_MAX in E1. wp1.
  apply wp_mono with (Q := okP part_ok).
  - intros [p|e]; cbn [okP]; [|intros _; wp1; exact I]. intros (P1 & P2 & P3 & P4). wp1; [wp1; exact I|]. wp1.
    unfold okP, instr_raw; cbn. split; [lia|]. split; [exact Hids|]. split; [lia|]. split; [auto|]. split; [lia|]. split; [auto|]. intros N.
    apply andb_false_iff in E2. destruct E2 as [E2|E2]; apply negb_false_iff, Z.eqb_eq in E2; [contradiction|].
    unfold zlen in E2. lia.
  - destruct (duck_bits v1) eqn:D; [apply self_other_wp; auto|apply not_self_other_wp; auto].
Qed.

Lemma parse_instr_one_wp dmxs base cs :
  (forall c, In c cs -> coef_within c) -> wp (parse_instr_one dmxs base cs) (okP (instr_raw cs)).
Proof.
  intros HC. unfold parse_instr_one. wp1. wp1. wp1.
  apply wp_mono with (Q := fun _ => True); [|wps; exact I]. intros [[ty grp] pre] _.
  apply parse_instructions_wp, HC.
Qed.

Lemma read_ones_wp n (Q : unit -> Prop) : Q tt -> wp (read_ones n) Q.
Proof.
  intros H. unfold read_ones. apply wp_for with (I := fun _ _ => True); [exact I| |].
  - intros j t _ _. wps. exact I.
  - intros [] _. exact H.
Qed.

Lemma config_ext_wp (Q : res unit -> Prop) : (forall x, Q x) -> wp config_ext Q.
Proof.
  intros H. unfold config_ext. wp1. wp1. wp1; [wp1; apply H|]. wp1. wp1. wp1. wp1. wp1.
  apply read_ones_wp. wps; apply H.
Qed.

Lemma derived_data_wp tdef cs i : (forall c, In c cs -> coef_within c) -> instr_raw cs i ->
  wp (derived_data tdef cs i) (okP (instr_within cs)).
Proof.
  intros HC (R1 & R2 & R3 & R4 & R5 & R6 & R7). unfold derived_data.
  destruct (first_coef cs (in_loc i)) as [c|] eqn:EF; [|wp1; exact I].
  unfold first_coef in EF. apply find_some in EF. destruct EF as [Hin Hloc]. apply Z.eqb_eq in Hloc. wp1.
  apply wp_forR with (E := fun _ => True)
    (I := fun j acc => length acc = j /\ forall m k, (m < j)%nat -> nth_error (in_sets i) m = Some k ->
            k < Z.of_nat (length (co_sets c))).
  - split; [reflexivity|]. intros; lia.
  - intros j acc Hj (HL & HB). wp1. apply wp_aget; [lia|]. intros seq Hseq. rewrite Nat2Z.id in Hseq.
    wp1; [wp1; exact I|]. apply Z.leb_gt in E. wp1.
    assert (S0 : 0 <= seq) by (rewrite Forall_forall in R6; apply R6; eapply nth_error_In; eauto).
    apply wp_aget; [unfold zlen in *; lia|]. intros p Hp. wp1. rewrite app_length; cbn. split; [lia|].
    intros m k Hm Hk. destruct (Nat.eq_dec m j) as [->|N]; [|apply (HB m); [lia|exact Hk]].
    rewrite Hseq in Hk. inversion Hk; subst. exact E.
  - intros acc (HL & HB). wp1. unfold okP, instr_within; cbn. repeat split; try lia; auto.
    + rewrite Forall_forall in R4. apply R4. exact H.
    + rewrite Forall_forall in R4. apply R4. exact H.
    + exists c. split; [exact Hin|]. split; [exact Hloc|]. intros k Hk. split.
      * rewrite Forall_forall in R6. apply R6. exact Hk.
      * destruct (In_nth_error _ _ Hk) as (m & Hm). apply (HB m); [|exact Hm].
        cbn. apply nth_error_Some. congruence.
  - intros e _. wp1. exact I.
Qed.

Theorem parse_config_wp dmxs tdef : wp (parse_config true dmxs tdef) (okP within).
Proof.
  unfold parse_config. wp1. wp1. wp1; [wp1; exact I|]. apply Z.ltb_ge in E. unfold COEFF_MAX in E.
  wp1. wp1. wp1; [wp1; exact I|]. apply Z.ltb_ge in E0. unfold INSTR_MAX in E0. wp1. wp1. wp1.
  apply wp_forR with (E := fun _ => True)
    (I := fun j acc => length acc = j /\ forall c, In c acc -> coef_within c).
  { split; [reflexivity|]. intros c []. }
  { intros j acc Hj (HL & HC). wp1. wp1; [unfold COEFF_MAX; lia|]. wp1.
    eapply wp_mono; [|apply parse_coeff_wp]. intros [c|e]; cbn [okP]; [|intros _; wp1; exact I].
    intros Hc. wp1. rewrite app_length; cbn. split; [lia|]. intros x Hx. apply in_app_or in Hx.
    destruct Hx as [Hx|[<-|[]]]; auto. }
  2: { intros e _. wp1. exact I. }
  intros cs (HLc & HC). wp1.
  apply wp_forR with (E := fun _ => True)
    (I := fun j acc => length acc = j /\ forall i, In i acc -> instr_raw cs i).
  { split; [reflexivity|]. intros i []. }
  { intros j acc Hj (HL & HI). wp1. wp1; [unfold INSTR_MAX; lia|]. wp1.
    eapply wp_mono; [|apply parse_instr_one_wp; exact HC]. intros [x|e]; cbn [okP]; [|intros _; wp1; exact I].
    intros Hx. wp1. rewrite app_length; cbn. split; [lia|]. intros y Hy. apply in_app_or in Hy.
    destruct Hy as [Hy|[<-|[]]]; auto. }
  2: { intros e _. wp1. exact I. }
  intros is_ (HLi & HI). wp1. wp1. wp1.
  apply wp_mono with (Q := fun _ => True); [|wp1; [apply config_ext_wp; auto|wp1; exact I]].
  intros [u|e] _; [|wp1; exact I]. wp1. wp1. wp1; [wp1; exact I|]. wp1.
  apply wp_forR with (E := fun _ => True)
    (I := fun j acc => length acc = j /\ forall i, In i acc -> instr_within cs i).
  { split; [reflexivity|]. intros i []. }
  { intros j acc Hj (HL & HW). wp1. apply wp_aget; [lia|]. intros i Hi. wp1. apply nth_error_In in Hi.
    eapply wp_mono; [|apply derived_data_wp; auto]. intros [x|e]; cbn [okP]; [|intros _; wp1; exact I].
    intros Hx. wp1. rewrite app_length; cbn. split; [lia|]. intros y Hy. apply in_app_or in Hy.
    destruct Hy as [Hy|[<-|[]]]; auto. }
  2: { intros e _. wp1. exact I. }
  intros is2 (HL2 & HW). wp1; [wp1; exact I|]. wp1; [wp1; exact I|].
  cbn [andb] in E3. apply Z.leb_gt in E3. unfold INSTR_MAX in E3.
  wp1. apply wp_chk; [unfold INSTR_MAX; lia|]. wp1. apply wp_chk; [unfold INSTR_MAX; lia|]. wp1.
  unfold okP, within; cbn. split; [lia|]. split; [exact HC|]. split; [lia|exact HW].
Qed.

(** The C parser: an accepted configuration is accepted by the parser with the tests. *)
Theorem config_accepted dmxs tdef s c s' : wf s ->
  exec (parse_config false dmxs tdef) s = Done (Ok c, s') ->
  exec (parse_config true dmxs tdef) s = Done (Ok c, s') /\ within c.
Proof.
  intros W H. destruct (agree_config dmxs tdef s) as [E|(_ & N)]; [|destruct (N _ _ H)].
  rewrite H in E. split; [exact E|].
  pose proof (wp_exec _ _ s (parse_config_wp dmxs tdef) W) as X. rewrite E in X. apply X.
Qed.

Theorem config_safe dmxs tdef s : wf s ->
  (forall r, exec (parse_config true dmxs tdef) s <> UB r) /\
  (exec (parse_config false dmxs tdef) s = exec (parse_config true dmxs tdef) s \/
   (exists s', exec (parse_config true dmxs tdef) s = Done (Er E_DRC_FIX, s')) /\
   (forall c s', exec (parse_config false dmxs tdef) s <> Done (Ok c, s'))).
Proof.
  intros W. split.
  - intros r H. pose proof (wp_exec _ _ s (parse_config_wp dmxs tdef) W) as X. rewrite H in X. exact X.
  - destruct (agree_config dmxs tdef s) as [E|(E & N)]; [left; symmetry; exact E|right; split; [exact E|exact N]].
Qed.
