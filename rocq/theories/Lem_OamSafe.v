(** * Lem_OamSafe: object metadata frames stay inside their tables *)

From Coq Require Import ZArith List Lia Bool SpecFloat.
From Verif Require Import Bits BitBuf Prog Wp Leaf Config Lem_ConfigSafe Lem_Dmx F32 Oam.
Import ListNotations.
Open Scope Z_scope.
Open Scope prog_scope.

(** A table of 96 integers, entry [i] of magnitude at most [B i]. *)
Definition tab (B : nat -> Z) (l : list Z) : Prop :=
  length l = 96%nat /\ forall i v, nth_error l i = Some v -> - B i <= v <= B i.
Definition ftab (l : list f32) : Prop := length l = 96%nat.

Lemma tab_mono (B C : nat -> Z) l : (forall i, B i <= C i) -> tab B l -> tab C l.
Proof. intros H [L F]. split; [exact L|]. intros i v E. specialize (F i v E). specialize (H i). lia. Qed.

Lemma nth_set {A} (l : list A) i v j x : (i < length l)%nat ->
  nth_error (firstn i l ++ v :: skipn (S i) l) j = Some x ->
  (j = i /\ x = v) \/ (j <> i /\ nth_error l j = Some x).
Proof.
  intros Hi E. destruct (Nat.eq_dec j i) as [->|N].
  - rewrite nth_aset_eq in E by exact Hi. left. split; congruence.
  - right. split; [exact N|]. rewrite nth_aset_neq in E by auto. exact E.
Qed.

Lemma wp_tab_set (B : nat -> Z) l i v (Q : list Z -> Prop) :
  tab B l -> 0 <= i < 96 -> - B (Z.to_nat i) <= v <= B (Z.to_nat i) -> (forall l', tab B l' -> Q l') -> wp (aset l i v) Q.
Proof.
  intros [L F] Hi Hv HQ. apply wp_aset; [lia|]. apply HQ. split.
  - rewrite aset_length; lia.
  - intros j x E. apply nth_set in E; [|lia]. destruct E as [(-> & ->)|(N & E)]; auto.
Qed.

Lemma wp_tab_get B l i (Q : Z -> Prop) :
  tab B l -> 0 <= i < 96 -> (forall v, - B (Z.to_nat i) <= v <= B (Z.to_nat i) -> Q v) -> wp (aget l i) Q.
Proof.
  intros [L F] Hi HQ. apply wp_aget; [lia|]. intros v E. apply HQ. apply F, E.
Qed.

Lemma wp_ftab_set l i (v : f32) (Q : list f32 -> Prop) :
  ftab l -> 0 <= i < 96 -> (forall l', ftab l' -> Q l') -> wp (aset l i v) Q.
Proof.
  intros L Hi HQ. unfold ftab in L. apply wp_aset; [lia|]. apply HQ. unfold ftab. rewrite aset_length; lia.
Qed.

Lemma wp_addi a b (Q : Z -> Prop) : - 2 ^ 31 <= a + b < 2 ^ 31 -> Q (a + b) -> wp (addi a b) Q.
Proof.
  intros H HQ. unfold addi.
  replace ((- 2 ^ 31 <=? a + b) && (a + b <? 2 ^ 31)) with true; [exact HQ|].
  symmetry. apply andb_true_intro. split; [apply Z.leb_le|apply Z.ltb_lt]; lia.
Qed.

(** Adding to one entry. *)
Definition bump (B : nat -> Z) (i D : Z) (j : nat) : Z := if Z.of_nat j =? i then B j + D else B j.

Lemma bump_ge B i D j : 0 <= D -> B j <= bump B i D j.
Proof. intros. unfold bump. destruct (Z.of_nat j =? i); lia. Qed.

Lemma wp_acc B D l i d (Q : list Z -> Prop) :
  tab B l -> 0 <= i < 96 -> - D <= d <= D -> 0 <= D -> B (Z.to_nat i) + D < 2 ^ 31 ->
  (forall l', tab (bump B i D) l' -> Q l') -> wp (acc l i d) Q.
Proof.
  intros T Hi Hd HD HS HQ. unfold acc. apply wp_bindi, (wp_tab_get B); auto. intros v Hv.
  apply wp_bindi, wp_addi; [lia|].
  assert (E : bump B i D (Z.to_nat i) = B (Z.to_nat i) + D).
  { unfold bump. rewrite Z2Nat.id by lia. rewrite Z.eqb_refl. reflexivity. }
  apply (wp_tab_set (bump B i D)); auto; [|lia].
  apply (tab_mono B); [|exact T]. intros j. apply bump_ge; lia.
Qed.

(** Values read for intra and absolute coding are small. *)
Definition small (v : Z) : Prop := - 128 <= v <= 128.
Definition room (B : nat -> Z) : Prop := forall i, 128 <= B i.

Lemma wp_rd_signed n B (Q : Z -> Prop) :
  1 <= n <= 24 -> 2 ^ (n - 1) <= B -> (forall v, - B <= v <= B -> Q v) -> wp (rd_signed n) Q.
Proof.
  intros Hn HB HQ. unfold rd_signed. apply wp_bindi, wp_rd; [lia|]. intros v Hv. apply wp_ret, HQ.
  assert (E : 2 ^ n = 2 * 2 ^ (n - 1)) by (rewrite <- Z.pow_succ_r by lia; f_equal; lia).
  destruct (Z.leb_spec (2 ^ (n - 1)) v); lia.
Qed.

Lemma wp_rs k (Q : Z -> Prop) : 1 <= k <= 8 -> (forall v, small v -> Q v) -> wp (rd_signed k) Q.
Proof.
  intros Hk HQ. apply (wp_rd_signed _ 128); [lia| |exact HQ].
  transitivity (2 ^ 7); [apply Z.pow_le_mono_r; lia|]. change (2 ^ 7) with 128. lia.
Qed.

Lemma wp_ru k (Q : Z -> Prop) : 0 <= k <= 7 -> (forall v, small v -> Q v) -> wp (rd k) Q.
Proof.
  intros Hk HQ. apply wp_rd; [lia|]. intros v Hv. apply HQ.
  assert (2 ^ k <= 2 ^ 7) by (apply Z.pow_le_mono_r; lia). change (2 ^ 7) with 128 in *. unfold small. lia.
Qed.

Lemma wp_set_small B l i v (Q : list Z -> Prop) :
  tab B l -> room B -> 0 <= i < 96 -> small v -> (forall l', tab B l' -> Q l') -> wp (aset l i v) Q.
Proof.
  intros T R Hi Hv HQ. apply (wp_tab_set B); auto. specialize (R (Z.to_nat i)). unfold small in Hv. lia.
Qed.

Lemma small0 : small 0.
Proof. unfold small. lia. Qed.

Lemma wp_store_all B l base n v (Q : list Z -> Prop) :
  tab B l -> room B -> 0 <= base -> base + n <= 96 -> small v -> (forall l', tab B l' -> Q l') ->
  wp (store_all l base n v) Q.
Proof.
  intros T R Hb Hn Hv HQ. unfold store_all. apply (wp_for (fun _ => tab B)); auto.
  intros j t Hj Ht. apply (wp_set_small B); auto. lia.
Qed.

Lemma wp_fill B l base n (rdv : prog Z) (Q : list Z -> Prop) :
  tab B l -> room B -> 0 <= base -> base + n <= 96 -> wp rdv small -> (forall l', tab B l' -> Q l') ->
  wp (forP (Z.to_nat n) 0 (fun i l => v <- rdv ;; aset l (base + Z.of_nat i) v) l) Q.
Proof.
  intros T R Hb Hn Hv HQ. apply (wp_for (fun _ => tab B)); auto.
  intros j t Hj Ht. apply wp_bindi. eapply wp_mono; [|exact Hv]. intros v Hv'.
  apply (wp_set_small B); auto. lia.
Qed.

Lemma wp_param_dec B rdv fixed l base n (Q : list Z -> Prop) :
  tab B l -> room B -> 0 <= base -> base + n <= 96 -> wp rdv small -> (forall l', tab B l' -> Q l') ->
  wp (param_dec rdv fixed l base n) Q.
Proof.
  intros T R Hb Hn Hv HQ. unfold param_dec. destruct (negb (fixed =? 0)).
  - apply wp_bindi. eapply wp_mono; [|exact Hv]. intros v Hv'. apply (wp_store_all B); auto.
  - apply wp_bindi, wp_rd; [lia|]. intros c _. destruct (negb (c =? 0)).
    + apply wp_bindi. eapply wp_mono; [|exact Hv]. intros v Hv'. apply (wp_store_all B); auto.
    + apply (wp_fill B); auto.
Qed.

Definition tab3 (B : nat -> Z) (t : list Z * list Z * list Z) : Prop :=
  let '(a, b, c) := t in tab B a /\ tab B b /\ tab B c.

Lemma wp_spread3 (Q : Z * Z * Z -> Prop) :
  (forall w h d, small w -> small h -> small d -> Q (w, h, d)) -> wp rd_spread3 Q.
Proof. intros HQ. unfold rd_spread3, small in *. wps. apply HQ; lia. Qed.

Lemma wp_set3 B lw lh ld i w h d (Q : list Z * list Z * list Z -> Prop) :
  tab B lw -> tab B lh -> tab B ld -> room B -> 0 <= i < 96 ->
  small w -> small h -> small d -> (forall t, tab3 B t -> Q t) ->
  wp (lw <- aset lw i w ;; lh <- aset lh i h ;; ld <- aset ld i d ;; Ret (lw, lh, ld)) Q.
Proof.
  intros Tw Th Td R Hi Hw Hh Hd HQ. apply wp_bindi, (wp_set_small B); auto. intros a Ha.
  apply wp_bindi, (wp_set_small B); auto. intros b Hb.
  apply wp_bindi, (wp_set_small B); auto. intros c Hc. apply wp_ret, HQ. cbn. auto.
Qed.

Lemma wp_store3_all B base n w h d t (Q : list Z * list Z * list Z -> Prop) :
  tab3 B t -> room B -> 0 <= base -> base + n <= 96 -> small w -> small h -> small d ->
  (forall t', tab3 B t' -> Q t') -> wp (store3_all base n (w, h, d) t) Q.
Proof.
  intros T R Hb Hn Hw Hh Hd HQ. unfold store3_all. apply (wp_for (fun _ => tab3 B)); auto.
  intros j [[a b] c] Hj (Ta & Tb & Tc). apply (wp_set3 B); auto. lia.
Qed.

Lemma wp_spread_dec B uni base n t (Q : Z * (list Z * list Z * list Z) -> Prop) :
  room B -> tab3 B t -> 0 <= base -> 0 <= n -> base + n <= 96 ->
  (forall fs t', tab3 B t' -> Q (fs, t')) -> wp (spread_dec uni base n t) Q.
Proof.
  intros HB T Hb H0 Hn HQ. destruct t as [[lw lh] ld]. unfold spread_dec.
  assert (T' := T). destruct T' as (Tw & Th & Td).
  apply wp_bindi, wp_rd; [lia|]. intros fs _. apply wp_bindi.
  apply (wp_mono _ (tab3 B)). { intros t' Ht'. apply wp_ret. auto. }
  destruct (fs =? 0).
  - apply wp_bindi, wp_rd; [lia|]. intros c _. destruct (negb (c =? 0)); destruct (negb (uni =? 0)).
    + apply wp_bindi, wp_ru; [lia|]. intros v Hv. apply wp_bindi, (wp_store_all B); auto. intros l' Hl'. apply wp_ret. cbn; auto.
    + apply wp_bindi, wp_spread3; auto. intros. apply (wp_store3_all B); auto.
    + apply wp_bindi, (wp_fill B); auto.
      * apply wp_ru; [lia|auto].
      * intros l' Hl'. apply wp_ret. cbn; auto.
    + apply (wp_for (fun _ => tab3 B)); auto. intros j [[a b] e] Hj (Ta & Tb & Tc).
      apply wp_bindi, wp_spread3; auto. intros. apply (wp_set3 B); auto. lia.
  - destruct (negb (uni =? 0)).
    + apply wp_bindi, wp_ru; [lia|]. intros v Hv. apply wp_bindi, (wp_store_all B); auto; try lia. intros l' Hl'. apply wp_ret. cbn; auto.
    + apply wp_bindi, wp_spread3; auto. intros. apply (wp_store3_all B); auto.
Qed.

Definition raw_ok (B : nat -> Z) (w : raws) : Prop :=
  (tab B (r_az w) /\ tab B (r_el w) /\ tab B (r_rad w) /\ tab B (r_gain w)) /\
  (tab B (r_sw w) /\ tab B (r_sh w) /\ tab B (r_sd w) /\ tab B (r_pri w)).

Lemma raw_mono (B C : nat -> Z) w : (forall i, B i <= C i) -> raw_ok B w -> raw_ok C w.
Proof.
  intros H ((T1 & T2 & T3 & T4) & (T5 & T6 & T7 & T8)).
  (split; [split; [|split; [|split]]|split; [|split; [|split]]]); eapply (tab_mono B); eauto.
Qed.

Lemma raw_mk B a b c d e f g h : tab B a -> tab B b -> tab B c -> tab B d -> tab B e -> tab B f -> tab B g -> tab B h ->
  raw_ok B (mkRaw a b c d e f g h).
Proof. intros. (split; [split; [|split; [|split]]|split; [|split; [|split]]]); auto. Qed.

Lemma wp_intra B c n base w x (Q : raws * fixs -> Prop) :
  room B -> raw_ok B w -> 0 <= base -> 0 <= n -> base < 96 -> base + n <= 96 ->
  (forall w' x', raw_ok B w' -> Q (w', x')) -> wp (intra_dec c n base w x) Q.
Proof.
  intros HB ((Ta & Te & Tr & Tg) & (Tw & Th & Td & Tp)) Hb Hn Hb2 Hn2 HQ. unfold intra_dec.
  destruct (Z.leb_spec n 1).
  - apply wp_bindi, wp_rs; [lia|]. intros v1 H1.
    apply wp_bindi, (wp_set_small B); auto. intros az Haz.
    apply wp_bindi, wp_rs; [lia|]. intros v2 H2.
    apply wp_bindi, (wp_set_small B); auto. intros el Hel.
    apply wp_bindi, wp_ru; [lia|]. intros v3 H3.
    apply wp_bindi, (wp_set_small B); auto. intros rad Hrad.
    apply wp_bindi, wp_rs; [lia|]. intros v4 H4.
    apply wp_bindi, (wp_set_small B); auto. intros gain Hgain.
    apply wp_bindi. apply (wp_mono _ (tab3 B)).
    + intros [[sw sh] sd] (S1 & S2 & S3). apply wp_bindi. apply (wp_mono _ (tab B)).
      { intros pri Hpri. apply wp_ret, HQ, raw_mk; auto. }
      destruct (negb (oc_dyn c =? 0)); [|exact Tp].
      apply wp_bindi, wp_ru; [lia|]. intros v5 H5. apply (wp_set_small B); auto.
    + destruct (oc_uni c =? 0).
      * apply wp_bindi, wp_ru; [lia|]. intros v5 H5.
        apply wp_bindi, (wp_set_small B); auto. intros sw Hsw.
        apply wp_bindi, wp_ru; [lia|]. intros v6 H6.
        apply wp_bindi, (wp_set_small B); auto. intros sh Hsh.
        apply wp_bindi, wp_ru; [lia|]. intros v7 H7.
        apply wp_bindi, (wp_set_small B); auto. intros sd Hsd. apply wp_ret. cbn; auto.
      * apply wp_bindi, wp_ru; [lia|]. intros v5 H5.
        apply wp_bindi, (wp_set_small B); auto. intros sw Hsw. apply wp_ret. cbn; auto.
  - assert (RS : forall k, 1 <= k <= 8 -> wp (rd_signed k) small) by (intros; apply wp_rs; auto).
    assert (RU : forall k, 0 <= k <= 7 -> wp (rd k) small) by (intros; apply wp_ru; auto).
    apply wp_bindi, wp_rd; [lia|]. intros fa _. apply wp_bindi, (wp_param_dec B); auto; [apply RS; lia|]. intros az Haz.
    apply wp_bindi, wp_rd; [lia|]. intros fe _. apply wp_bindi, (wp_param_dec B); auto; [apply RS; lia|]. intros el Hel.
    apply wp_bindi, wp_rd; [lia|]. intros fr _. apply wp_bindi, (wp_param_dec B); auto; [apply RU; lia|]. intros rad Hrad.
    apply wp_bindi, wp_rd; [lia|]. intros fg _. apply wp_bindi, (wp_param_dec B); auto; [apply RS; lia|]. intros gain Hgain.
    apply wp_bindi, (wp_spread_dec B); auto; [cbn; auto|]. intros fs [[sw sh] sd] (S1 & S2 & S3).
    apply wp_bindi. apply (wp_mono _ (fun '(_, l) => tab B l)).
    + intros [fp pri] Hpri. apply wp_ret, HQ, raw_mk; auto.
    + destruct (negb (oc_dyn c =? 0)); [|exact Tp].
      apply wp_bindi, wp_rd; [lia|]. intros f _. apply wp_bindi, (wp_param_dec B); auto. apply RU; lia.
Qed.

Lemma wp_diff B nb l i (Q : list Z -> Prop) :
  1 <= nb <= 9 -> tab B l -> 0 <= i < 96 -> B (Z.to_nat i) + 256 < 2 ^ 31 ->
  (forall l', tab (bump B i 256) l' -> Q l') -> wp (diff nb l i) Q.
Proof.
  intros Hnb T Hi HS HQ. unfold diff. apply wp_bindi, wp_rd; [lia|]. intros f _.
  destruct (f =? 0).
  - apply wp_ret, HQ, (tab_mono B); [|exact T]. intros j. apply bump_ge. lia.
  - apply wp_bindi, (wp_rd_signed _ 256); [lia| |].
    { transitivity (2 ^ 8); [apply Z.pow_le_mono_r; lia|reflexivity || lia]. }
    intros v Hv. apply (wp_acc B 256); auto; lia.
Qed.

Lemma wp_cdiff B b nb l i (Q : list Z -> Prop) :
  1 <= nb <= 9 -> tab B l -> 0 <= i < 96 -> B (Z.to_nat i) + 256 < 2 ^ 31 ->
  (forall l', tab (bump B i 256) l' -> Q l') -> wp (if b : bool then diff nb l i else Ret l) Q.
Proof.
  intros H1 T Hi HS HQ. destruct b; [apply (wp_diff B); auto|]. apply wp_ret.
  apply HQ, (tab_mono B); auto. intros j. apply bump_ge. lia.
Qed.

Lemma wp_single_diff B c x w i (Q : raws -> Prop) :
  room B -> B (Z.to_nat i) + 256 < 2 ^ 31 -> raw_ok B w -> 0 <= i < 96 ->
  (forall w', raw_ok (bump B i 256) w' -> Q w') -> wp (single_diff c x w i) Q.
Proof.
  intros HB HS ((Ta & Te & Tr & Tg) & (Tw & Th & Td & Tp)) Hi HQ. unfold single_diff.
  apply wp_bindi, wp_rd; [lia|]. intros b Hb. change (2 ^ 3) with 8 in Hb. cbv zeta.
  apply wp_bindi, (wp_cdiff B); auto; [lia|]. intros az Haz.
  apply wp_bindi, (wp_cdiff B); auto; [lia|]. intros el Hel.
  apply wp_bindi, (wp_cdiff B); auto; [lia|]. intros rad Hrad.
  apply wp_bindi, (wp_cdiff B); auto; [lia|]. intros gain Hgain.
  assert (M : forall l, tab B l -> tab (bump B i 256) l) by (intros l; apply tab_mono; intros j; apply bump_ge; lia).
  apply wp_bindi. apply (wp_mono _ (tab3 (bump B i 256))).
  - intros [[sw sh] sd] (S1 & S2 & S3). apply wp_bindi, (wp_cdiff B); auto; [lia|]. intros pri Hpri.
    apply wp_ret, HQ, raw_mk; auto.
  - destruct (x_sp x =? 0); [destruct (oc_uni c =? 0)|].
    + apply wp_bindi, (wp_diff B); auto; [lia|]. intros sw Hsw.
      apply wp_bindi, (wp_diff B); auto; [lia|]. intros sh Hsh.
      apply wp_bindi, (wp_diff B); auto; [lia|]. intros sd Hsd. apply wp_ret; cbn; auto.
    + apply wp_bindi, (wp_diff B); auto; [lia|]. intros sw Hsw. apply wp_ret; cbn; auto.
    + apply wp_bindi, (wp_set_small B); auto using small0. intros sw Hsw.
      apply wp_bindi, (wp_set_small B); auto using small0. intros sh Hsh.
      apply wp_bindi, (wp_set_small B); auto using small0. intros sd Hsd. apply wp_ret; cbn; auto.
Qed.

Lemma wp_single_abs B c x w i (Q : raws -> Prop) :
  room B -> raw_ok B w -> 0 <= i < 96 ->
  (forall w', raw_ok B w' -> Q w') -> wp (single_abs c x w i) Q.
Proof.
  intros HB ((Ta & Te & Tr & Tg) & (Tw & Th & Td & Tp)) Hi HQ. unfold single_abs.
  assert (C1 : forall (b : bool) (rdv : prog Z) l (R : list Z -> Prop), tab B l ->
     wp rdv small -> (forall l', tab B l' -> R l') ->
     wp (if b then aset l i 0 else v <- rdv ;; aset l i v) R).
  { intros b rdv l R T Hr HR. destruct b; [apply (wp_set_small B); auto using small0|].
    apply wp_bindi. eapply wp_mono; [|exact Hr]. intros v Hv. apply (wp_set_small B); auto. }
  assert (RS : forall k, 1 <= k <= 8 -> wp (rd_signed k) small) by (intros; apply wp_rs; auto).
  assert (RU : forall k, 0 <= k <= 7 -> wp (rd k) small) by (intros; apply wp_ru; auto).
  apply wp_bindi, C1; auto; [apply RS; lia|]. intros az Haz.
  apply wp_bindi, C1; auto; [apply RS; lia|]. intros el Hel.
  apply wp_bindi, C1; auto; [apply RU; lia|]. intros rad Hrad.
  apply wp_bindi, C1; auto; [apply RS; lia|]. intros gain Hgain.
  apply wp_bindi. apply (wp_mono _ (tab3 B)).
  - intros [[sw sh] sd] (S1 & S2 & S3). apply wp_bindi. apply (wp_mono _ (tab B)).
    + intros pri Hpri. apply wp_ret, HQ, raw_mk; auto.
    + destruct (negb (oc_dyn c =? 0)); [|exact Tp]. destruct (x_pri x =? 0).
      * apply (wp_set_small B); auto using small0.
      * apply wp_bindi. eapply wp_mono; [|apply (RU 3); lia]. intros v Hv. apply (wp_set_small B); auto.
  - destruct (negb (x_sp x =? 0)); [|destruct (oc_uni c =? 0)].
    + apply wp_bindi, (wp_set_small B); auto using small0. intros sw Hsw.
      apply wp_bindi, (wp_set_small B); auto using small0. intros sh Hsh.
      apply wp_bindi, (wp_set_small B); auto using small0. intros sd Hsd. apply wp_ret; cbn; auto.
    + apply wp_bindi. eapply wp_mono; [|apply (RU 7); lia]. intros v5 H5.
      apply wp_bindi, (wp_set_small B); auto. intros sw Hsw.
      apply wp_bindi. eapply wp_mono; [|apply (RU 5); lia]. intros v6 H6.
      apply wp_bindi, (wp_set_small B); auto. intros sh Hsh.
      apply wp_bindi. eapply wp_mono; [|apply (RU 5); lia]. intros v7 H7.
      apply wp_bindi, (wp_set_small B); auto. intros sd Hsd. apply wp_ret; cbn; auto.
    + apply wp_bindi. eapply wp_mono; [|apply (RU 7); lia]. intros v5 H5.
      apply wp_bindi, (wp_set_small B); auto. intros sw Hsw. apply wp_ret; cbn; auto.
Qed.

(** Bounds while the objects of a sub-frame are updated one after the other. *)
Definition part (B base : Z) (k : nat) (j : nat) : Z :=
  if (base <=? Z.of_nat j) && (Z.of_nat j <? base + Z.of_nat k) then B + 256 else B.

Definition htab (l : list Z) : Prop := length l = 96%nat.

Lemma wp_dyn B c n base x has w (Q : list Z * raws -> Prop) :
  128 <= B -> B + 256 < 2 ^ 31 -> raw_ok (fun _ => B) w -> htab has ->
  0 <= base -> 0 <= n -> base < 96 -> base + n <= 96 ->
  (forall has' w', htab has' -> raw_ok (fun _ => B + 256) w' -> Q (has', w')) ->
  wp (dyn_dec c n base x has w) Q.
Proof.
  intros HB HS T Hh Hb Hn Hb2 Hn2 HQ. unfold dyn_dec. apply wp_bindi, wp_rd; [lia|]. intros ab _.
  apply (wp_for (fun k '(has, w) => htab has /\ raw_ok (part B base k) w)).
  - split; [exact Hh|]. eapply raw_mono; [|exact T]. intros j. unfold part.
    destruct ((base <=? Z.of_nat j) && (Z.of_nat j <? base + Z.of_nat 0)); lia.
  - intros j [h u] Hj (Lh & Tu). apply wp_bindi, wp_rd; [lia|]. intros p _.
    unfold htab in Lh. apply wp_bindi, wp_aset; [lia|].
    assert (Lh' : forall v, htab (firstn (Z.to_nat base) h ++ v :: skipn (S (Z.to_nat base)) h))
      by (intros v; unfold htab; rewrite aset_length; lia).
    assert (M : forall k, part B base j k <= part B base (S j) k).
    { intros k. unfold part. destruct (Z.leb_spec base (Z.of_nat k)); cbn [andb]; [|lia].
      destruct (Z.ltb_spec (Z.of_nat k) (base + Z.of_nat j)); destruct (Z.ltb_spec (Z.of_nat k) (base + Z.of_nat (S j))); lia. }
    assert (RM : room (part B base j)).
    { intros k. unfold part. destruct (_ && _); lia. }
    destruct (p =? 0).
    + apply wp_ret. split; [apply Lh'|]. eapply raw_mono; [|exact Tu]. exact M.
    + apply wp_bindi. apply (wp_mono _ (raw_ok (part B base (S j)))).
      { intros w' Hw'. apply wp_ret. split; [apply Lh'|exact Hw']. }
      destruct (ab =? 0).
      * apply (wp_single_diff (part B base j)); auto; [|lia|].
        { unfold part. rewrite Z2Nat.id by lia.
          destruct (Z.leb_spec base (base + Z.of_nat j)); [|lia].
          destruct (Z.ltb_spec (base + Z.of_nat j) (base + Z.of_nat j)); cbn [andb]; lia. }
        intros w' Hw'. eapply raw_mono; [|exact Hw']. intros k. unfold bump, part.
        destruct (Z.eqb_spec (Z.of_nat k) (base + Z.of_nat j)).
        -- destruct (Z.leb_spec base (Z.of_nat k)); [|lia].
           destruct (Z.ltb_spec (Z.of_nat k) (base + Z.of_nat j)); [lia|].
           destruct (Z.ltb_spec (Z.of_nat k) (base + Z.of_nat (S j))); cbn [andb]; lia.
        -- apply M.
      * apply (wp_single_abs (part B base j)); auto; [lia|].
        intros w' Hw'. eapply raw_mono; [|exact Hw']. exact M.
  - intros [h u] (Lh & Tu). apply HQ; [exact Lh|]. eapply raw_mono; [|exact Tu].
    intros k. unfold part. destruct (_ && _); lia.
Qed.

(** ** Descaling, limiting *)
Definition dsc_ok (d : dscs) : Prop :=
  (ftab (d_az d) /\ ftab (d_el d) /\ ftab (d_rad d) /\ ftab (d_gain d)) /\
  (ftab (d_sw d) /\ ftab (d_sh d) /\ ftab (d_sd d) /\ ftab (d_pri d)).

Lemma wp_descale_tab B g base n raw out (Q : list f32 -> Prop) :
  tab B raw -> ftab out -> 0 <= base -> base + n <= 96 -> (forall t, ftab t -> Q t) ->
  wp (descale_tab g base n raw out) Q.
Proof.
  intros T F Hb Hn HQ. unfold descale_tab. apply (wp_for (fun _ => ftab)); auto.
  intros j t Hj Ht. apply wp_bindi, (wp_tab_get B); auto; [lia|]. intros v _.
  apply wp_ftab_set; auto. lia.
Qed.

Lemma wp_descale B pw c base n w d (Q : dscs -> Prop) :
  raw_ok B w -> dsc_ok d -> 0 <= base -> base + n <= 96 -> (forall d', dsc_ok d' -> Q d') ->
  wp (descale pw c base n w d) Q.
Proof.
  intros ((Ta & Te & Tr & Tg) & (Tw & Th & Td & Tp)) ((Da & De & Dr & Dg) & (Dw & Dh & Dd & Dp)) Hb Hn HQ.
  unfold descale.
  apply wp_bindi, (wp_descale_tab B); auto. intros pri Hpri.
  apply wp_bindi, (wp_descale_tab B); auto. intros sw Hsw.
  apply wp_bindi. apply (wp_mono _ (fun '(sh, sd) => ftab sh /\ ftab sd)).
  - intros [sh sd] (H1 & H2).
    apply wp_bindi, (wp_descale_tab B); auto. intros rad Hrad.
    apply wp_bindi, (wp_descale_tab B); auto. intros el Hel.
    apply wp_bindi, (wp_descale_tab B); auto. intros az Haz.
    apply wp_bindi, (wp_descale_tab B); auto. intros gain Hgain.
    apply wp_ret, HQ. (split; [split; [|split; [|split]]|split; [|split; [|split]]]); auto.
  - destruct (negb (oc_uni c =? 1)); [|split; auto].
    apply wp_bindi, (wp_descale_tab B); auto. intros sh Hsh.
    apply wp_bindi, (wp_descale_tab B); auto. intros sd Hsd. apply wp_ret; auto.
Qed.

(** After the limiting loop the first [n] entries are in range. *)
Definition lim (lo hi : f32) (n : Z) (t : list f32) : Prop :=
  forall j v, Z.of_nat j < n -> nth_error t j = Some v -> between lo hi v.

Lemma wp_limit_tab lo hi n t (Q : list f32 -> Prop) :
  f_lt lo hi = true -> f_le lo lo = true -> f_le hi hi = true ->
  ftab t -> n <= 96 -> (forall t', ftab t' -> lim lo hi n t' -> Q t') ->
  wp (limit_tab lo hi n t) Q.
Proof.
  intros C1 C2 C3 F Hn HQ. unfold limit_tab.
  apply (wp_for (fun k t => ftab t /\ lim lo hi (Z.of_nat k) t)).
  - split; [exact F|]. intros j v Hj. lia.
  - intros k u Hk (Fu & Lu). unfold ftab in Fu. apply wp_bindi, wp_aget; [lia|]. intros v Ev.
    apply wp_aset; [lia|]. split; [unfold ftab; rewrite aset_length; lia|].
    intros j x Hj E. apply nth_set in E; [|lia]. destruct E as [(E1 & ->)|(N & E)].
    + apply clamp_between; auto.
    + apply (Lu j); auto. lia.
  - intros u (Fu & Lu). apply HQ; [exact Fu|]. intros j v Hj. apply Lu. lia.
Qed.

(** The legal ranges of the descaled values. *)
Definition in_range (c : oamc) (n : Z) (d : dscs) : Prop :=
  lim (lit (-180) 1) (lit 180 1) n (d_az d) /\ lim (lit (-90) 1) (lit 90 1) n (d_el d) /\
  lim (lit 5 10) (lit 16 1) n (d_rad d) /\ lim (lit 4 1000) (lit 5957 1000) n (d_gain d) /\
  lim (lit 0 1) (lit 180 1) n (d_sw d) /\
  (oc_uni c = 0 -> lim (lit 0 1) (lit 90 1) n (d_sh d) /\ lim (lit 0 1) (lit 155 10) n (d_sd d)) /\
  lim (lit 0 1) (lit 7 1) n (d_pri d).

Lemma wp_limit c n d (Q : dscs -> Prop) :
  dsc_ok d -> n <= 96 -> (forall d', dsc_ok d' -> in_range c n d' -> Q d') -> wp (limit c n d) Q.
Proof.
  intros ((Da & De & Dr & Dg) & (Dw & Dh & Dd & Dp)) Hn HQ. unfold limit.
  apply wp_bindi, wp_limit_tab; auto; try reflexivity. intros rad F1 L1.
  apply wp_bindi, wp_limit_tab; auto; try reflexivity. intros el F2 L2.
  apply wp_bindi, wp_limit_tab; auto; try reflexivity. intros az F3 L3.
  apply wp_bindi, wp_limit_tab; auto; try reflexivity. intros gain F4 L4.
  apply wp_bindi, wp_limit_tab; auto; try reflexivity. intros sw F5 L5.
  apply wp_bindi. apply (wp_mono _ (fun '(sd, sh) => ftab sd /\ ftab sh /\
    (oc_uni c = 0 -> lim (lit 0 1) (lit 90 1) n sh /\ lim (lit 0 1) (lit 155 10) n sd))).
  - intros [sd sh] (F6 & F7 & L6). apply wp_bindi, wp_limit_tab; auto; try reflexivity. intros pri F8 L8.
    apply wp_ret, HQ.
    + (split; [split; [|split; [|split]]|split; [|split; [|split]]]); auto.
    + unfold in_range; cbn [d_az d_el d_rad d_gain d_sw d_sh d_sd d_pri]; auto 10.
  - destruct (Z.eqb_spec (oc_uni c) 0).
    + apply wp_bindi, wp_limit_tab; auto; try reflexivity. intros sd F6 L6.
      apply wp_bindi, wp_limit_tab; auto; try reflexivity. intros sh F7 L7. apply wp_ret; auto.
    + apply wp_ret. repeat split; auto; contradiction.
Qed.

(** ** The whole frame *)

(** All tables have their sizes, at most 24 objects, and the counters are at most [K] *
    1024: [K] is the number of payloads decoded so far (plus one). *)
Definition st_ok (B S : Z) (st : oamst) : Prop :=
  0 <= o_n st <= 24 /\ length (o_pres st) = 4%nat /\ htab (o_has st) /\
  tab (fun _ => S) (o_smp st) /\ raw_ok (fun _ => B) (o_raw st) /\ dsc_ok (o_dsc st).

Lemma wp_sample S fl n l (Q : list Z -> Prop) :
  0 <= fl -> 0 <= S -> S + fl < 2 ^ 31 -> 0 <= n <= 96 -> tab (fun _ => S) l ->
  (forall l', tab (fun _ => S + fl) l' -> Q l') ->
  wp (forP (Z.to_nat n) 0 (fun i l => acc l (Z.of_nat i) fl) l) Q.
Proof.
  intros Hf HS HSf Hn T HQ.
  set (P := fun (k : nat) (j : nat) => if (j <? k)%nat then S + fl else S).
  apply (wp_for (fun k => tab (P k))).
  - eapply tab_mono; [|exact T]. intros j. unfold P. destruct (j <? 0)%nat; lia.
  - intros j t Hj Ht. apply (wp_acc (P j) fl); auto; try lia.
    + unfold P. rewrite Nat2Z.id, Nat.ltb_irrefl. lia.
    + intros l' Hl'. eapply tab_mono; [|exact Hl']. intros k. unfold bump, P.
      destruct (Z.eqb_spec (Z.of_nat k) (Z.of_nat j)).
      * replace k with j by lia. rewrite Nat.ltb_irrefl.
        destruct (Nat.ltb_spec j (Datatypes.S j)); lia.
      * destruct (Nat.ltb_spec k j); destruct (Nat.ltb_spec k (Datatypes.S j)); lia.
  - intros t Ht. apply HQ. eapply tab_mono; [|exact Ht]. intros k. unfold P. destruct (_ <? _)%nat; lia.
Qed.

Lemma wp_low_delay pw c B S st (Q : oamst -> Prop) :
  128 <= B -> B + 256 < 2 ^ 31 -> 0 <= S -> 0 <= oc_fl c -> S + oc_fl c < 2 ^ 31 ->
  st_ok B S st -> 1 <= o_sub st <= 4 ->
  (forall st', st_ok (B + 256) (S + oc_fl c) st' -> o_n st' = o_n st -> o_sub st' = o_sub st ->
     o_pres st' = o_pres st -> in_range c (o_n st) (o_dsc st') -> Q st') ->
  wp (low_delay_dec pw c st) Q.
Proof.
  intros HB HB2 HS Hf HSf (Hn & Hp & Hh & Tsm & Tr & Td) Hsub HQ. unfold low_delay_dec. cbv zeta.
  assert (Hb : 0 <= (o_sub st - 1) * o_n st) by nia.
  assert (Hb2 : (o_sub st - 1) * o_n st < 96) by nia.
  assert (Hb3 : (o_sub st - 1) * o_n st + o_n st <= 96) by nia.
  set (base := (o_sub st - 1) * o_n st) in *. clearbody base.
  apply wp_bindi, wp_rd; [lia|]. intros intra _. apply wp_bindi.
  apply (wp_mono _ (fun '(has, w, x) => htab has /\ raw_ok (fun _ => B + 256) w)).
  - intros [[has w] x] (H1 & H2).
    apply wp_bindi, (wp_descale (fun _ => B + 256)); auto. intros d Hd.
    apply wp_bindi, wp_limit; auto; [lia|]. intros d' Hd' Hr.
    apply wp_bindi, (wp_sample S); auto; [lia|]. intros smp Hsm.
    apply wp_ret, HQ; auto. unfold st_ok. cbn [o_n o_pres o_has o_smp o_raw o_dsc]. auto 10.
  - destruct (intra =? 0).
    + apply wp_bindi, (wp_dyn B); auto; try lia. intros has' w' H1 H2. apply wp_ret. auto.
    + apply wp_bindi, (wp_intra (fun _ => B)); auto; try lia.
      * intros i; cbn; lia.
      * intros w' x' Hw'. apply wp_ret. split; [exact Hh|]. eapply raw_mono; [|exact Hw']. cbn; intros; lia.
Qed.

(** One payload: at most 1024 more on every counter. *)
Lemma wp_payload pw c B S st (Q : Z * oamst -> Prop) :
  128 <= B -> B + 1024 < 2 ^ 31 -> 0 <= S -> S + 1024 < 2 ^ 31 -> st_ok B S st ->
  (forall e st', st_ok (B + 1024) (S + 1024) st' -> o_n st' = o_n st ->
     (in_range c (o_n st) (o_dsc st') \/ o_dsc st' = o_dsc st) -> Q (e, st')) ->
  wp (oam_payload pw c 1024 st) Q.
Proof.
  intros HB HB2 HS HS2 Hst HQ. unfold oam_payload. apply wp_bindi, wp_avail. intros bits _.
  assert (MONO : forall B' S' s, B' <= B + 1024 -> S' <= S + 1024 -> st_ok B' S' s -> st_ok (B + 1024) (S + 1024) s).
  { intros B' S' s HB' HS' (A1 & A2 & A3 & A4 & A5 & A6). unfold st_ok.
    split; [exact A1|]. split; [exact A2|]. split; [exact A3|]. split; [|split; [|exact A6]].
    - eapply tab_mono; [|exact A4]. cbn; intros; lia.
    - eapply raw_mono; [|exact A5]. cbn; intros; lia. }
  destruct (bits <=? 0). { apply wp_ret, HQ; auto. apply (MONO B S); auto; lia. }
  assert (FL : oc_fl c = 256 \/ oc_fl c = 512 \/ oc_fl c = 1024 \/
    negb ((oc_fl c =? 256) || (oc_fl c =? 512) || (oc_fl c =? 1024)) = true).
  { destruct (Z.eqb_spec (oc_fl c) 256); [auto|]. destruct (Z.eqb_spec (oc_fl c) 512); [auto|].
    destruct (Z.eqb_spec (oc_fl c) 1024); auto. }
  destruct (negb ((oc_fl c =? 256) || (oc_fl c =? 512) || (oc_fl c =? 1024))) eqn:EF.
  { apply wp_ret, HQ; auto. apply (MONO B S); auto; lia. }
  destruct (Z.ltb_spec (oc_fl c) 1024) as [LT|GE].
  - assert (NS : 0 <= oc_fl c /\ Z.of_nat (Z.to_nat (1024 / oc_fl c)) * oc_fl c = 1024 /\
              (Z.to_nat (1024 / oc_fl c) <= 4)%nat).
    { destruct FL as [E|[E|[E|E]]]; try discriminate; rewrite E in *.
      - change (1024 / 256) with 4. split; [lia|]. split; [reflexivity|]. cbn. lia.
      - change (1024 / 512) with 2. split; [lia|]. split; [reflexivity|]. cbn. lia.
      - lia. }
    destruct NS as (NS0 & NS1 & NS2). set (m := Z.to_nat (1024 / oc_fl c)) in *. clearbody m.
    set (I := fun (k : nat) (s : oamst) =>
      st_ok (B + 256 * Z.of_nat k) (S + oc_fl c * Z.of_nat k) s /\ o_n s = o_n st /\
      0 <= o_sub s <= Z.of_nat k /\ (in_range c (o_n st) (o_dsc s) \/ o_dsc s = o_dsc st)).
    apply (wp_forE (fun k s => I k s) (fun _ s => exists s0 : oamst, st_ok (B + 1024) (S + 1024) s /\ o_n s = o_n st /\ (in_range c (o_n st) (o_dsc s) \/ o_dsc s = o_dsc st))).
    + unfold I. change (Z.of_nat 0) with 0. rewrite !Z.mul_0_r, !Z.add_0_r.
      cbn [s_sub o_n o_sub o_dsc]. split; [exact Hst|]. split; [reflexivity|]. split; [lia|auto].
    + intros j s Hj (I1 & I2 & I3 & I4). apply wp_bindi, wp_rd; [lia|]. intros p _.
      assert (I1' := I1). destruct I1' as (A1 & A2 & A3 & A4 & A5 & A6).
      apply wp_bindi, wp_aset; [lia|]. cbv zeta.
      set (pr := firstn _ _ ++ _ :: skipn _ _).
      assert (Lp : length pr = 4%nat) by (unfold pr; rewrite aset_length; lia). clearbody pr.
      assert (O' : st_ok (B + 256 * Z.of_nat j) (S + oc_fl c * Z.of_nat j) (s_sub (s_pres s pr) (o_sub s + 1))).
      { unfold st_ok, s_sub, s_pres. cbn [o_n o_pres o_has o_smp o_raw o_dsc]. auto 10. }
      destruct (p =? 0).
      * apply wp_ret. cbn [fst snd Z.eqb]. unfold I. unfold s_pres at 2 3 4 5. cbn [o_n o_sub o_dsc].
        split; [|split; [exact I2|split; [lia|exact I4]]].
        destruct O' as (O1 & O2 & O3 & O4 & O5 & O6). unfold st_ok.
        unfold s_sub, s_pres in *. cbn [o_n o_pres o_has o_smp o_raw o_dsc] in *.
        split; [exact O1|]. split; [exact O2|]. split; [exact O3|]. split; [|split; [|exact O6]].
        -- eapply tab_mono; [|exact O4]. intros; cbv beta; nia.
        -- eapply raw_mono; [|exact O5]. intros; cbv beta; lia.
      * unfold obj_md_dec. destruct (negb (oc_ld c =? 0)).
        -- apply wp_bindi, (wp_low_delay pw c (B + 256 * Z.of_nat j) (S + oc_fl c * Z.of_nat j)); auto; try lia; try nia.
           { unfold s_sub. cbn [o_sub s_pres]. lia. }
           intros st' B1 B2 B3 B4 B5. apply wp_ret. cbn [fst snd Z.eqb]. unfold I.
           unfold s_sub, s_pres in B2, B3, B5. cbn [o_n o_sub] in B2, B3, B5.
           split; [|split; [congruence|split; [lia|]]].
           ++ replace (B + 256 * Z.of_nat (Datatypes.S j)) with (B + 256 * Z.of_nat j + 256) by lia.
              replace (S + oc_fl c * Z.of_nat (Datatypes.S j)) with (S + oc_fl c * Z.of_nat j + oc_fl c) by lia.
              exact B1.
           ++ left. rewrite <- I2. exact B5.
        -- apply wp_ret. change (E_OAM_UNSUPPORTED =? 0) with false. cbv iota.
           exists s. cbn [fst snd]. split; [|split; [exact I2|exact I4]]. eapply MONO; [| |exact O']; nia.
    + intros s (I1 & I2 & I3 & I4). apply HQ; auto. rewrite Nat.add_0_l in *. eapply MONO; [| |exact I1]; nia.
    + intros e s _ (s0 & J1 & J2 & J3). apply HQ; auto.
  - assert (E : oc_fl c = 1024) by (destruct FL as [E|[E|[E|E]]]; try discriminate; lia).
    assert (Hst' : st_ok B S (s_sub st 1)) by exact Hst.
    unfold obj_md_dec. destruct (negb (oc_ld c =? 0)).
    + apply wp_bindi, (wp_low_delay pw c B S); auto; try lia. { cbn [s_sub o_sub]. lia. }
      intros st' B1 B2 B3 B4 B5. apply wp_ret, HQ; auto. eapply MONO; [| |exact B1]; lia.
    + apply wp_ret, HQ; auto. apply (MONO B S); auto; lia.
Qed.
