(** * Lem_Dmx: downmix configurations: exact storage, and overruns *)

From Coq Require Import ZArith List Lia Bool.
From Verif Require Import Bits BitBuf BitWrite Prog Asi Escape Wp Wlp Loops Cicp Hoa Config Leaf Spec_Config
  Lem_ConfigSafe Lem_ConfigFrame Lem_MhasProps.
Import ListNotations.
Open Scope Z_scope.

Lemma nth_aset_neq {A} (l : list A) i j v : (i < length l)%nat -> j <> i ->
  nth_error (firstn i l ++ v :: skipn (S i) l) j = nth_error l j.
Proof.
  revert i j. induction l as [|a l IH]; intros i j Hi Hj; [cbn in Hi; lia|].
  destruct i as [|i]; destruct j as [|j]; cbn; try lia; auto.
  apply (IH i j); [cbn in Hi; lia|lia].
Qed.

Lemma forE_tab {S X} (body : nat -> S -> prog (Z * S)) (enc : X -> list bool) (I : nat -> S -> Prop) (xs : list X) :
  (forall i t x rest, nth_error xs i = Some x -> I i t ->
     exists t', runA (body i t) (enc x ++ rest) = Done ((0, t'), rest) /\ I (Datatypes.S i) t') ->
  forall ys i t rest, (forall j, nth_error ys j = nth_error xs (i + j)) -> I i t ->
    exists t', runA (forE (length ys) i body t) (concat (map enc ys) ++ rest) = Done ((0, t'), rest) /\
      I (i + length ys)%nat t'.
Proof.
  intros HB. induction ys as [|y ys IH]; intros i t rest HN HI; cbn [length forE map concat].
  - exists t. rewrite Nat.add_0_r. split; [reflexivity|exact HI].
  - assert (Hy : nth_error xs i = Some y). { rewrite <- (Nat.add_0_r i), <- HN. reflexivity. }
    rewrite <- app_assoc. destruct (HB i t y (concat (map enc ys) ++ rest) Hy HI) as (t1 & E1 & I1).
    rewrite runA_bind, E1. cbn [Z.eqb].
    destruct (IH (Datatypes.S i) t1 rest) as (t2 & E2 & I2); [|exact I1|].
    { intros j. replace (Datatypes.S i + j)%nat with (i + Datatypes.S j)%nat by lia. apply (HN (Datatypes.S j)). }
    exists t2. split; [exact E2|]. replace (i + Datatypes.S (length ys))%nat with (Datatypes.S i + length ys)%nat by lia. exact I2.
Qed.

(** Bits as whole bytes and a rest. *)
Lemma bits_chunks : forall n (l : list bool), (length l <= n)%nat ->
  exists bs tl, l = bytes_bits bs ++ tl /\ are_bytes bs /\ (length tl < 8)%nat.
Proof.
  induction n as [|n IH]; intros l Hl.
  - exists [], l. repeat split; [constructor|lia].
  - destruct (le_lt_dec 8 (length l)) as [H|H].
    + destruct (IH (skipn 8 l)) as (bs & tl & E & B & T). { rewrite skipn_length. lia. }
      exists (val_of (firstn 8 l) :: bs), tl. split; [|split; [|exact T]].
      * unfold bytes_bits. cbn [flat_map]. fold (bytes_bits bs). rewrite <- app_assoc, <- E.
        replace (bits_of 8 (val_of (firstn 8 l))) with (firstn 8 l); [symmetry; apply firstn_skipn|].
        rewrite <- (bits_of_val (firstn 8 l)) at 1. f_equal. rewrite firstn_length. lia.
      * constructor; [|exact B]. assert (R := val_of_range (firstn 8 l)). rewrite firstn_length, Nat.min_l in R by lia.
        exact R.
    + exists [], l. repeat split; [constructor|lia].
Qed.

Lemma concat_bytes bs : concat (map (bits_of 8) bs) = bytes_bits bs.
Proof. unfold bytes_bits. symmetry. apply flat_map_concat_map. Qed.

Lemma rd_bytes_run bs b rest : are_bytes bs -> (length bs <= length b)%nat ->
  runA (rd_bytes (Z.of_nat (length bs)) b) (bytes_bits bs ++ rest) = Done (bs ++ skipn (length bs) b, rest).
Proof.
  intros B L. unfold rd_bytes. rewrite Nat2Z.id, <- concat_bytes.
  assert (K := forP_fill (fun i b => v <- rd 8 ;; aset b (Z.of_nat i) v) (bits_of 8) (fun v => v) is_byte (length b)).
  rewrite K; auto.
  - cbn [firstn app]. rewrite map_id. reflexivity.
  - intros i arr x r Hi HL Hx. rewrite (runA_rdb 8 8) by (auto; lia).
    unfold aset. rewrite Nat2Z.id.
    replace ((0 <=? Z.of_nat i) && (Z.of_nat i <? Z.of_nat (length arr))) with true; [reflexivity|].
    symmetry. apply andb_true_intro. split; lia.
Qed.

Lemma forP_split {S} (body : nat -> S -> prog S) : forall a b i t l,
  runA (forP (a + b) i body t) l = runA (bind (forP a i body t) (forP b (i + a) body)) l.
Proof.
  induction a as [|a IH]; intros b i t l; cbn [Nat.add forP bind].
  - rewrite Nat.add_0_r. reflexivity.
  - rewrite bind_assoc, !runA_bind. destruct (runA (body i t) l) as [[t1 l1]| |]; auto.
    rewrite IH. replace (i + Datatypes.S a)%nat with (Datatypes.S i + a)%nat by lia. reflexivity.
Qed.

Lemma runA_aset_out {A B} (l : list A) i x (k : list A -> prog B) bs :
  ~ (0 <= i < Z.of_nat (length l)) -> runA (bind (aset l i x) k) bs = UB UOob.
Proof.
  intros H. unfold aset. destruct ((0 <=? i) && (i <? Z.of_nat (length l))) eqn:E; [|reflexivity].
  apply andb_true_iff in E. lia.
Qed.
Lemma runA_aset_out' {A} (l : list A) i (x : A) bs :
  ~ (0 <= i < Z.of_nat (length l)) -> runA (aset l i x) bs = UB UOob.
Proof.
  intros H. unfold aset. destruct ((0 <=? i) && (i <? Z.of_nat (length l))) eqn:E; [|reflexivity].
  apply andb_true_iff in E. lia.
Qed.

(** More bytes than the buffer holds. *)
Lemma rd_bytes_over bs b rest : are_bytes bs -> (length b < length bs)%nat ->
  runA (rd_bytes (Z.of_nat (length bs)) b) (bytes_bits bs ++ rest) = UB UOob.
Proof.
  intros B L. unfold rd_bytes. rewrite Nat2Z.id.
  rewrite <- (firstn_skipn (length b) bs) in B |- *. set (b1 := firstn (length b) bs) in *.
  assert (L1 : length b1 = length b) by (unfold b1; rewrite firstn_length; lia).
  destruct (skipn (length b) bs) as [|x b2] eqn:E2.
  { assert (K := skipn_length (length b) bs). rewrite E2 in K. cbn in K. lia. }
  rewrite app_length, forP_split, runA_bind.
  rewrite bytes_bits_app, <- app_assoc.
  apply Forall_app in B as [B1 B2].
  assert (K := rd_bytes_run b1 b (bytes_bits (x :: b2) ++ rest) B1 ltac:(lia)).
  unfold rd_bytes in K. rewrite Nat2Z.id in K. rewrite K.
  cbn [length forP]. unfold bytes_bits at 1. cbn [flat_map]. rewrite <- app_assoc. rewrite bind_assoc.
  inversion B2; subst. rewrite (runA_rdb 8 8) by (auto; lia).
  apply runA_aset_out. rewrite app_length, skipn_length. lia.
Qed.

(** ** One matrix *)
Definition dims (m : dmat) : Prop :=
  length (dm_ngrp m) = 8%nat /\ length (dm_grp m) = 8%nat /\ Forall (fun g => length g = 16%nat) (dm_grp m) /\
  length (dm_len m) = 8%nat /\ length (dm_bytes m) = 8%nat /\ Forall (fun b => length b = 256%nat) (dm_bytes m).
Definition same_head (m m' : dmat) : Prop :=
  dm_id m' = dm_id m /\ dm_type m' = dm_type m /\ dm_lay m' = dm_lay m /\ dm_cnt m' = dm_cnt m.

Lemma dmx_groups_run gs g rest : Forall (fun v => 0 <= v < 32) gs -> (length gs <= length g)%nat ->
  runA (forP (length gs) 0 (fun i b => v <- rd 5 ;; aset b (Z.of_nat i) v) g) (concat (map (bits_of 5) gs) ++ rest)
  = Done (gs ++ skipn (length gs) g, rest).
Proof.
  intros B L.
  assert (K := forP_fill (fun i b => v <- rd 5 ;; aset b (Z.of_nat i) v) (bits_of 5) (fun v => v) (fun v => 0 <= v < 32) (length g)).
  rewrite K; auto.
  - cbn [firstn app]. rewrite map_id. reflexivity.
  - intros i arr x r Hi HL Hx. rewrite (runA_rdb 5 5) by (auto; lia).
    unfold aset. rewrite Nat2Z.id.
    replace ((0 <=? Z.of_nat i) && (Z.of_nat i <? Z.of_nat (length arr))) with true; [reflexivity|].
    symmetry. apply andb_true_intro. split; lia.
Qed.

Lemma tail_byte (tl : list bool) : (length tl < 8)%nat ->
  firstn (length tl) (bits_of 8 (val_of tl * 2 ^ (8 - Z.of_nat (length tl)))) = tl.
Proof.
  intros H. assert (R := val_of_range tl).
  assert (E : bits_of 8 (val_of tl * 2 ^ (8 - Z.of_nat (length tl))) = tl ++ repeat false (8 - length tl)).
  { apply bits_of_inj.
    - rewrite bits_of_length, app_length, repeat_length. lia.
    - rewrite val_of_app, repeat_length.
      replace (val_of (repeat false (8 - length tl))) with 0.
      2:{ clear. induction (8 - length tl)%nat; [reflexivity|]. cbn [repeat val_of]. rewrite <- IHn. lia. }
      rewrite val_bits_of, Z.add_0_r, Nat2Z.inj_sub by (try lia;
        replace (2 ^ Z.of_nat 8) with (2 ^ Z.of_nat (length tl) * 2 ^ (8 - Z.of_nat (length tl))) by
          (rewrite <- Z.pow_add_r by lia; f_equal; lia);
        assert (0 < 2 ^ (8 - Z.of_nat (length tl))) by (apply pow2_pos; lia); nia).
      reflexivity. }
  rewrite E, firstn_app, Nat.sub_diag, firstn_all. cbn. apply app_nil_r.
Qed.

Definition mtx_prefix (t : mtx) : list bool :=
  esc_enc 1 4 4 (Z.of_nat (length (t_groups t)) - 1) ++ concat (map (bits_of 5) (t_groups t)) ++
  esc_enc 8 8 12 (Z.of_nat (length (t_bits t))).

Lemma dmx_one_prefix l m t rest : (l < 8)%nat -> dims m -> valid_mtx t ->
  exists g b, nth_error (dm_grp m) l = Some g /\ length g = 16%nat /\
    nth_error (dm_bytes m) l = Some b /\ length b = 256%nat /\
  let len := Z.of_nat (length (t_bits t)) in
  runA (dmx_one l m) (enc_mtx t ++ rest) =
  runA (b1 <- rd_bytes (len / 8) b ;;
        b2 <- (if len mod 8 =? 0 then Ret b1
               else v <- rd (len mod 8) ;; aset b1 (len / 8) (v * 2 ^ (8 - len mod 8))) ;;
        bs <- aset (dm_bytes m) (Z.of_nat l) b2 ;;
        Ret (0, s_dm_bytes (s_dm_len (s_dm_grp
          (s_dm_ngrp m (firstn l (dm_ngrp m) ++ Z.of_nat (length (t_groups t)) :: skipn (S l) (dm_ngrp m)))
          (firstn l (dm_grp m) ++ (t_groups t ++ skipn (length (t_groups t)) g) :: skipn (S l) (dm_grp m)))
          (firstn l (dm_len m) ++ len :: skipn (S l) (dm_len m))) bs)) (t_bits t ++ rest).
Proof.
  intros Hl (D1 & D2 & D3 & D4 & D5 & D6) (V1 & V2 & V3).
  destruct (nth_error_Some_ex (dm_grp m) l ltac:(lia)) as [g Hg].
  destruct (nth_error_Some_ex (dm_bytes m) l ltac:(lia)) as [b Hb].
  assert (Lg := nth_error_Forall _ _ _ _ D3 Hg). assert (Lb := nth_error_Forall _ _ _ _ D6 Hb). cbv beta in Lg, Lb.
  exists g, b. split; [exact Hg|]. split; [exact Lg|]. split; [exact Hb|]. split; [exact Lb|]. cbv zeta.
  unfold dmx_one, enc_mtx. rewrite <- !app_assoc. cbv zeta.
  change (read_escape 1 4 4) with (read_escape (Z.of_nat 1) (Z.of_nat 4) (Z.of_nat 4)).
  rewrite read_escape_enc by (try lia; unfold esc_max; cbn; lia).
  destruct (Z.leb_spec 16 (Z.of_nat (length (t_groups t)) - 1)); [lia|].
  rewrite runA_aset by lia. rewrite (runA_aget (dm_grp m) (Z.of_nat l) g) by (try lia; rewrite Nat2Z.id; exact Hg).
  rewrite runA_bind. replace (Z.to_nat (Z.of_nat (length (t_groups t)) - 1 + 1)) with (length (t_groups t)) by lia.
  rewrite dmx_groups_run by (auto; lia). rewrite runA_aset by lia.
  change (read_escape 8 8 12) with (read_escape (Z.of_nat 8) (Z.of_nat 8) (Z.of_nat 12)).
  rewrite read_escape_enc by (try lia; unfold esc_max; cbn; lia).
  rewrite runA_aset by lia. rewrite (runA_aget (dm_bytes m) (Z.of_nat l) b) by (try lia; rewrite Nat2Z.id; exact Hb).
  rewrite Nat2Z.id. replace (Z.of_nat (length (t_groups t)) - 1 + 1) with (Z.of_nat (length (t_groups t))) by lia.
  reflexivity.
Qed.

Lemma div_mod_chunks bs (tl : list bool) : (length tl < 8)%nat ->
  Z.of_nat (length (bytes_bits bs ++ tl)) / 8 = Z.of_nat (length bs) /\
  Z.of_nat (length (bytes_bits bs ++ tl)) mod 8 = Z.of_nat (length tl).
Proof.
  intros H. rewrite app_length, bytes_bits_length.
  replace (Z.of_nat (8 * length bs + length tl)) with (Z.of_nat (length tl) + Z.of_nat (length bs) * 8) by lia.
  rewrite Z.div_add, Z.mod_add by lia. rewrite Z.div_small, Z.mod_small by lia. lia.
Qed.

Lemma dmx_one_run l m t rest : (l < 8)%nat -> dims m -> valid_mtx t -> (length (t_bits t) <= 2048)%nat ->
  exists m', runA (dmx_one l m) (enc_mtx t ++ rest) = Done ((0, m'), rest) /\ dims m' /\ same_head m m' /\
    holds_mtx t l m' /\ (forall j x, j <> l -> holds_mtx x j m -> holds_mtx x j m').
Proof.
  intros Hl D V L. assert (D0 := D). destruct D0 as (D1 & D2 & D3 & D4 & D5 & D6).
  destruct (dmx_one_prefix l m t rest Hl D V) as (g & b & Hg & Lg & Hb & Lb & E). cbv zeta in E.
  destruct (bits_chunks _ (t_bits t) (le_n _)) as (bs & tl & Eb & B & T).
  destruct (div_mod_chunks bs tl T) as [Q1 Q2]. rewrite <- Eb in Q1, Q2.
  assert (LB : length (t_bits t) = (8 * length bs + length tl)%nat) by (rewrite Eb, app_length, bytes_bits_length; lia).
  rewrite Q1, Q2 in E. rewrite E. clear E.
  assert (EE : t_bits t ++ rest = bytes_bits bs ++ tl ++ rest) by (rewrite Eb, <- app_assoc; reflexivity).
  rewrite EE, runA_bind, rd_bytes_run by (auto; lia).
  set (b1 := bs ++ skipn (length bs) b).
  assert (Lb1 : length b1 = 256%nat) by (unfold b1; rewrite app_length, skipn_length; lia).
  assert (exists b2, runA (if Z.of_nat (length tl) =? 0 then Ret b1
               else v <- rd (Z.of_nat (length tl)) ;; aset b1 (Z.of_nat (length bs)) (v * 2 ^ (8 - Z.of_nat (length tl)))) (tl ++ rest)
            = Done (b2, rest) /\ length b2 = 256%nat /\ firstn (length (t_bits t)) (bytes_bits b2) = t_bits t) as (b2 & E2 & L2 & F2).
  { destruct (Z.eqb_spec (Z.of_nat (length tl)) 0) as [E0|E0].
    - destruct tl; [|cbn in E0; lia]. exists b1. split; [reflexivity|]. split; [exact Lb1|].
      rewrite LB, Eb, app_nil_r. unfold b1. rewrite bytes_bits_app, firstn_app, bytes_bits_length.
      cbn [length]. rewrite Nat.add_0_r, Nat.sub_diag. rewrite firstn_all2 by (rewrite bytes_bits_length; lia).
      cbn [firstn]. apply app_nil_r.
    - assert (Hlt : (length bs < 256)%nat) by lia.
      exists (firstn (length bs) b1 ++ val_of tl * 2 ^ (8 - Z.of_nat (length tl)) :: skipn (S (length bs)) b1).
      split; [|split].
      + replace (tl ++ rest) with (bits_of (length tl) (val_of tl) ++ rest) by (rewrite bits_of_val; reflexivity). rewrite (runA_rdb _ (length tl)); [|reflexivity|lia|apply val_of_range].
        unfold aset. rewrite Nat2Z.id.
        replace ((0 <=? Z.of_nat (length bs)) && (Z.of_nat (length bs) <? Z.of_nat (length b1))) with true; [reflexivity|].
        symmetry. apply andb_true_intro. split; lia.
      + rewrite aset_len; lia.
      + assert (F : firstn (length bs) b1 = bs).
        { unfold b1. rewrite firstn_app, Nat.sub_diag, firstn_all. cbn. apply app_nil_r. }
        rewrite F, LB, Eb, bytes_bits_app, firstn_app, bytes_bits_length.
        rewrite firstn_all2 by (rewrite bytes_bits_length; lia).
        replace (8 * length bs + length tl - 8 * length bs)%nat with (length tl) by lia.
        f_equal. unfold bytes_bits. cbn [flat_map]. rewrite firstn_app, bits_of_length.
        replace (length tl - 8)%nat with 0%nat by lia. cbn [firstn]. rewrite app_nil_r.
        apply tail_byte, T. }
  rewrite runA_bind, E2, runA_aset by lia. rewrite Nat2Z.id.
  eexists. split; [reflexivity|]. split; [|split; [|split]].
  - repeat split; cbn -[skipn firstn app]; try (rewrite aset_len; lia); apply Forall_aset; auto; try lia.
    rewrite app_length, skipn_length. destruct V as (V1 & _). lia.
  - repeat split.
  - repeat split; cbn -[skipn firstn app].
    + apply nth_aset_eq. lia.
    + eexists. split; [apply nth_aset_eq; lia|]. rewrite firstn_app, Nat.sub_diag, firstn_all. cbn. apply app_nil_r.
    + apply nth_aset_eq. lia.
    + exists b2. split; [apply nth_aset_eq; lia|exact F2].
  - intros j x Hj (X1 & X2 & X3 & X4). repeat split; cbn -[skipn firstn app]; rewrite nth_aset_neq by lia; auto.
Qed.

(** A matrix of more than 2048 bits is written past its 256 bytes. *)
Lemma dmx_one_over l m t rest : (l < 8)%nat -> dims m -> valid_mtx t -> (2048 < length (t_bits t))%nat ->
  runA (dmx_one l m) (enc_mtx t ++ rest) = UB UOob.
Proof.
  intros Hl D V L.
  destruct (dmx_one_prefix l m t rest Hl D V) as (g & b & Hg & Lg & Hb & Lb & E). cbv zeta in E.
  destruct (bits_chunks _ (t_bits t) (le_n _)) as (bs & tl & Eb & B & T).
  destruct (div_mod_chunks bs tl T) as [Q1 Q2]. rewrite <- Eb in Q1, Q2.
  assert (LB : length (t_bits t) = (8 * length bs + length tl)%nat) by (rewrite Eb, app_length, bytes_bits_length; lia).
  rewrite Q1, Q2 in E. rewrite E. clear E.
  assert (EE : t_bits t ++ rest = bytes_bits bs ++ tl ++ rest) by (rewrite Eb, <- app_assoc; reflexivity).
  rewrite EE, runA_bind.
  destruct (le_lt_dec (length bs) 256) as [H|H].
  - rewrite rd_bytes_run by (auto; lia). destruct (Z.eqb_spec (Z.of_nat (length tl)) 0); [lia|].
    rewrite bind_assoc. replace (tl ++ rest) with (bits_of (length tl) (val_of tl) ++ rest) by (rewrite bits_of_val; reflexivity).
    rewrite (runA_rdb _ (length tl)); [|reflexivity|lia|apply val_of_range].
    apply runA_aset_out. rewrite app_length, skipn_length. lia.
  - rewrite rd_bytes_over by (auto; lia). reflexivity.
Qed.

(** ** One entry *)
Lemma dmx_ones_run ts m rest : (length ts <= 8)%nat -> dims m -> Forall valid_mtx ts ->
  Forall (fun t => (length (t_bits t) <= 2048)%nat) ts ->
  exists m', runA (forE (length ts) 0 dmx_one m) (concat (map enc_mtx ts) ++ rest) = Done ((0, m'), rest) /\
    dims m' /\ same_head m m' /\ forall j t, nth_error ts j = Some t -> holds_mtx t j m'.
Proof.
  intros L D V F.
  destruct (forE_tab dmx_one enc_mtx
    (fun i m' => dims m' /\ same_head m m' /\ forall j t, (j < i)%nat -> nth_error ts j = Some t -> holds_mtx t j m') ts)
    with (ys := ts) (i := 0%nat) (t := m) (rest := rest) as (m' & E & D' & H' & K).
  - intros i t x r Hx (D1 & H1 & K1).
    assert (Hi : (i < length ts)%nat) by (apply nth_error_Some; congruence).
    destruct (dmx_one_run i t x r) as (t' & E & D2 & H2 & K2 & K3); auto.
    + lia.
    + apply (nth_error_Forall _ _ _ _ V Hx).
    + apply (nth_error_Forall _ _ _ _ F Hx).
    + exists t'. split; [exact E|]. split; [exact D2|]. split.
      * destruct H1 as (a1 & a2 & a3 & a4), H2 as (b1 & b2 & b3 & b4). unfold same_head. repeat split; congruence.
      * intros j y Hj Hy. destruct (Nat.eq_dec j i) as [->|N].
        -- rewrite Hx in Hy. injection Hy as <-. exact K2.
        -- apply K3; [exact N|]. apply K1; [lia|exact Hy].
  - reflexivity.
  - split; [exact D|]. split; [repeat split|]. intros; lia.
  - exists m'. split; [exact E|]. split; [exact D'|]. split; [exact H'|].
    intros j t Hj. apply K; [|exact Hj]. cbn. apply nth_error_Some. congruence.
Qed.

Definition dimsx (x : dmxc) : Prop := length (dx_mat x) = 6%nat /\ Forall dims (dx_mat x).

Lemma dmx_entry_run cicp i x e rest : (i < 6)%nat -> dimsx x -> valid_dent e -> dent_fits e ->
  exists m, runA (dmx_entry cicp i x) (enc_dent e ++ rest) =
    Done ((0, (let y := s_dx_mat x (firstn i (dx_mat x) ++ m :: skipn (S i) (dx_mat x)) in
               if cicp =? e_lay e then s_dx_id y (e_id e) else y)), rest) /\
    dims m /\ holds_dent e m.
Proof.
  intros Hi (X1 & X2) (V1 & V2 & V3) F.
  destruct (nth_error_Some_ex (dx_mat x) i ltac:(lia)) as [m0 Hm].
  assert (D := nth_error_Forall _ _ _ _ X2 Hm). cbv beta in D.
  assert (D0 := D). destruct D0 as (D1 & D2 & D3 & D4 & D5 & D6).
  unfold dmx_entry, enc_dent. rewrite <- app_assoc. rewrite (runA_rdb 7 7) by lia.
  unfold dent_fits in F. destruct (e_mtx e) as [ts|] eqn:ET.
  - destruct V3 as [V3 V4]. rewrite <- !app_assoc. rewrite (runA_rdb 2 2) by lia.
    rewrite (runA_aget (dx_mat x) (Z.of_nat i) m0) by (try lia; rewrite Nat2Z.id; exact Hm).
    cbv zeta. change (1 =? 1) with true. cbv iota.
    destruct (Z.eqb_spec (e_id e) 0); [lia|]. destruct (Z.eqb_spec (e_id e) 127); [lia|]. cbn [orb].
    rewrite bind_assoc, (runA_rdb 6 6) by lia.
    change (read_escape 1 3 0) with (read_escape (Z.of_nat 1) (Z.of_nat 3) (Z.of_nat 0)).
    rewrite bind_assoc, read_escape_enc by (try lia; unfold esc_max; cbn; lia).
    destruct (Z.ltb_spec 8 (Z.of_nat (length ts) - 1 + 1)); [lia|].
    rewrite runA_bind. replace (Z.to_nat (Z.of_nat (length ts) - 1 + 1)) with (length ts) by lia.
    edestruct (dmx_ones_run ts) as (m' & E & D' & H' & K);
      [|  | exact V4 | exact F | rewrite E]; [lia|repeat split; assumption|].
    destruct H' as (a1 & a2 & a3 & a4). cbn in a1, a2, a3, a4.
    rewrite runA_aset by lia. rewrite Nat2Z.id, a3. cbn [negb Z.eqb].
    destruct (Z.ltb_spec 20 (e_lay e)); [lia|].
    exists m'. split; [reflexivity|]. split; [exact D'|].
    unfold holds_dent. rewrite ET. split; [exact a1|]. split; [exact a3|]. split; [exact a2|]. split; [|exact K].
    rewrite a4. lia.
  - rewrite <- !app_assoc. rewrite (runA_rdb 2 2) by lia.
    rewrite (runA_aget (dx_mat x) (Z.of_nat i) m0) by (try lia; rewrite Nat2Z.id; exact Hm).
    cbv zeta. change (0 =? 1) with false. change (0 =? 0) with true. cbv iota.
    destruct (Z.eqb_spec (e_id e) 0); [lia|]. destruct (Z.eqb_spec (e_id e) 127); [lia|]. cbn [orb].
    rewrite bind_assoc, (runA_rdb 6 6) by lia. cbn [bind].
    rewrite runA_aset by lia. rewrite Nat2Z.id. cbn [negb Z.eqb].
    match goal with |- context [firstn i (dx_mat x) ++ ?m :: _] => exists m end.
    cbn [dm_lay s_dm_lay s_dm_type s_dm_id].
    destruct (Z.ltb_spec 20 (e_lay e)); [lia|].
    split; [reflexivity|]. split; [repeat split; assumption|].
    unfold holds_dent. rewrite ET. repeat split.
Qed.

Lemma dims_dmat0 : dims dmat0.
Proof. repeat split; try reflexivity; repeat constructor. Qed.
Lemma dimsx_dmxc0 : dimsx dmxc0.
Proof. split; [reflexivity|]. apply Forall_forall. intros m H. apply repeat_spec in H. subst. apply dims_dmat0. Qed.

Lemma firstn_snoc_err {A} (l : list A) i x : nth_error l i = Some x -> firstn (S i) l = firstn i l ++ [x].
Proof.
  revert i. induction l as [|a l IH]; intros [|i] H; try discriminate; cbn in *.
  - congruence.
  - f_equal. apply IH, H.
Qed.

Lemma dmx_config_run cicp l rest : (length l <= 6)%nat -> Forall valid_dent l -> Forall dent_fits l ->
  exists x, runA (dmx_config cicp dmxc0) (enc_dmx l ++ rest) = Done ((0, x), rest) /\
    dx_type x = 1 /\ dx_cnt x = Z.of_nat (length l) /\ dx_id x = chosen cicp l /\
    forall i e, nth_error l i = Some e -> exists m, nth_error (dx_mat x) i = Some m /\ holds_dent e m.
Proof.
  intros L V F. unfold dmx_config, enc_dmx. rewrite <- !app_assoc. rewrite (runA_rdb 2 2) by lia.
  cbv zeta. change (1 =? 3) with false. change ((1 =? 0) || (1 =? 2)) with false. change ((1 =? 1) || (1 =? 2)) with true.
  cbv iota. cbn [bind negb Z.eqb]. rewrite (runA_rdb 5 5) by lia.
  destruct (Z.ltb_spec 6 (Z.of_nat (length l))); [lia|]. rewrite Nat2Z.id.
  set (x0 := s_dx_cnt _ _).
  destruct (forE_tab (dmx_entry cicp) enc_dent
    (fun i x => dimsx x /\ dx_type x = 1 /\ dx_cnt x = Z.of_nat (length l) /\ dx_id x = chosen cicp (firstn i l) /\
       forall j e, (j < i)%nat -> nth_error l j = Some e -> exists m, nth_error (dx_mat x) j = Some m /\ holds_dent e m) l)
    with (ys := l) (i := 0%nat) (t := x0) (rest := rest) as (x & E & D & T & C & I & K).
  - intros i t e r He (D1 & T1 & C1 & I1 & K1).
    assert (Hi : (i < length l)%nat) by (apply nth_error_Some; congruence).
    destruct (dmx_entry_run cicp i t e r) as (m & E & D2 & H2); auto.
    + lia.
    + apply (nth_error_Forall _ _ _ _ V He).
    + apply (nth_error_Forall _ _ _ _ F He).
    + eexists. split; [exact E|]. cbv zeta.
      assert (DX : forall y, dx_mat y = firstn i (dx_mat t) ++ m :: skipn (S i) (dx_mat t) -> dimsx y).
      { intros y Ey. destruct D1 as [D11 D12]. split; rewrite Ey; [rewrite aset_len; lia|apply Forall_aset; auto; lia]. }
      assert (ID : chosen cicp (firstn (S i) l) = if cicp =? e_lay e then e_id e else chosen cicp (firstn i l)).
      { rewrite (firstn_snoc_err _ _ _ He). unfold chosen. rewrite fold_left_app. reflexivity. }
      assert (KK : forall y, dx_mat y = firstn i (dx_mat t) ++ m :: skipn (S i) (dx_mat t) ->
        forall j e, (j < S i)%nat -> nth_error l j = Some e -> exists m, nth_error (dx_mat y) j = Some m /\ holds_dent e m).
      { intros y Ey j e' Hj He'. rewrite Ey. destruct D1 as [D11 D12]. destruct (Nat.eq_dec j i) as [->|N].
        - rewrite He in He'. injection He' as <-. exists m. split; [apply nth_aset_eq; lia|exact H2].
        - rewrite nth_aset_neq by lia. apply K1; [lia|exact He']. }
      rewrite ID. destruct (cicp =? e_lay e); (split; [apply DX; reflexivity|]); (split; [exact T1|]);
        (split; [exact C1|]); (split; [first [reflexivity|exact I1]|]); apply KK; reflexivity.
  - reflexivity.
  - split; [apply dimsx_dmxc0|]. split; [reflexivity|]. split; [reflexivity|]. split; [reflexivity|]. intros; lia.
  - exists x. split; [exact E|]. split; [exact T|]. split; [exact C|]. split.
    + rewrite I. cbn [Nat.add]. rewrite firstn_all. reflexivity.
    + intros i e He. apply K; [|exact He]. cbn. apply nth_error_Some. congruence.
Qed.

(** The first matrix of the first entry being too long already overruns. *)
Lemma dmx_config_over cicp id lay t ts l rest : (length l < 6)%nat -> (length ts < 8)%nat ->
  0 < id < 127 -> 0 <= lay < 64 -> valid_mtx t -> (2048 < length (t_bits t))%nat ->
  runA (dmx_config cicp dmxc0) (enc_dmx (mkDent id lay (Some (t :: ts)) :: l) ++ rest) = UB UOob.
Proof.
  intros L1 L2 Hid Hlay V O. unfold dmx_config, enc_dmx. rewrite <- !app_assoc. rewrite (runA_rdb 2 2) by lia.
  cbv zeta. change (1 =? 3) with false. change ((1 =? 0) || (1 =? 2)) with false. change ((1 =? 1) || (1 =? 2)) with true.
  cbv iota. cbn [bind negb Z.eqb]. rewrite (runA_rdb 5 5) by (cbn [length]; lia).
  destruct (Z.ltb_spec 6 (Z.of_nat (length (mkDent id lay (Some (t :: ts)) :: l)))); [cbn [length] in *; lia|]. rewrite Nat2Z.id.
  cbn [length forE map concat]. rewrite <- app_assoc, runA_bind. set (x0 := s_dx_cnt _ _).
  assert (runA (dmx_entry cicp 0 x0) (enc_dent (mkDent id lay (Some (t :: ts))) ++ concat (map enc_dent l) ++ rest) = UB UOob) as ->; [|reflexivity].
  unfold dmx_entry, enc_dent. cbn [e_id e_lay e_mtx]. rewrite <- !app_assoc. rewrite (runA_rdb 7 7) by lia. rewrite (runA_rdb 2 2) by lia.
  rewrite (runA_aget (dx_mat x0) (Z.of_nat 0) dmat0) by (try reflexivity; cbn; lia).
  cbv zeta. change (1 =? 1) with true. cbv iota.
  destruct (Z.eqb_spec id 0); [lia|]. destruct (Z.eqb_spec id 127); [lia|]. cbn [orb].
  rewrite bind_assoc, (runA_rdb 6 6) by lia.
  change (read_escape 1 3 0) with (read_escape (Z.of_nat 1) (Z.of_nat 3) (Z.of_nat 0)).
  assert (EM : 0 <= Z.of_nat (length (t :: ts)) - 1 <= esc_max 1 3 0).
  { change (esc_max 1 3 0) with 8. cbn [length]. lia. }
  rewrite bind_assoc, read_escape_enc by (try lia; exact EM). clear EM.
  destruct (Z.ltb_spec 8 (Z.of_nat (length (t :: ts)) - 1 + 1)); [cbn [length] in *; lia|].
  replace (Z.to_nat (Z.of_nat (length (t :: ts)) - 1 + 1)) with (S (length ts)) by (cbn [length]; lia).
  cbn [forE map concat]. rewrite <- app_assoc, runA_bind, runA_bind.
  rewrite dmx_one_over; auto; [lia|]. apply dims_dmat0.
Qed.

(** ** Only a matrix of more than 2048 bits overruns *)
Lemma exec_fill_same w : forall n i (b : list Z) s, (i + n <= length b)%nat ->
  match exec (forP n i (fun i b => v <- rd w ;; aset b (Z.of_nat i) v) b) s,
        exec (forP n i (fun _ _ => rd w ;;; Ret tt) tt) s with
  | Done (b', s1), Done (_, s2) => s1 = s2 /\ length b' = length b
  | Jmp c, Jmp c' => c = c'
  | UB r, UB r' => r = r'
  | _, _ => False
  end.
Proof.
  induction n as [|n IH]; intros i b s H; cbn [forP]; [split; reflexivity|].
  rewrite !exec_bind. destruct (exec (rd w) s) as [[v s1]|c|r]; auto.
  unfold aset. replace ((0 <=? Z.of_nat i) && (Z.of_nat i <? Z.of_nat (length b))) with true.
  2:{ symmetry. apply andb_true_intro. split; lia. }
  rewrite Nat2Z.id. cbn [exec].
  set (b' := firstn i b ++ v :: skipn (S i) b).
  assert (L : length b' = length b) by (apply aset_len; lia).
  specialize (IH (S i) b' s1 ltac:(lia)). rewrite L in IH. exact IH.
Qed.

Lemma dmx_one_ub l m s r : (l < 8)%nat -> dims m -> wf s -> exec (dmx_one l m) s = UB r ->
  exists n len s1, exec mtx_header s = Done ((n, len), s1) /\ 0 <= n < 16 /\ 2048 < len.
Proof.
  intros Hl (D1 & D2 & D3 & D4 & D5 & D6) W E.
  unfold dmx_one in E. cbv zeta in E. unfold mtx_header.
  rewrite exec_bind in E. rewrite exec_bind.
  assert (X := wp_exec (read_escape 1 4 4) (fun v => 0 <= v) s ltac:(apply wp_esc; auto; lia) W).
  destruct (exec (read_escape 1 4 4) s) as [[n s1]|c|r0]; try discriminate; [|contradiction].
  destruct X as (Hn & W1 & _). destruct (Z.leb_spec 16 n); [discriminate E|].
  destruct (nth_error_Some_ex (dm_grp m) l ltac:(lia)) as [g Hg].
  destruct (nth_error_Some_ex (dm_bytes m) l ltac:(lia)) as [b Hb].
  assert (Lg := nth_error_Forall _ _ _ _ D3 Hg). assert (Lb := nth_error_Forall _ _ _ _ D6 Hb). cbv beta in Lg, Lb.
  assert (AS : forall {A B} (l0 : list A) v (k : list A -> prog B) st, length l0 = 8%nat ->
    exec (bind (aset l0 (Z.of_nat l) v) k) st = exec (k (firstn l l0 ++ v :: skipn (S l) l0)) st).
  { intros A B l0 v k st H0. unfold aset.
    replace ((0 <=? Z.of_nat l) && (Z.of_nat l <? Z.of_nat (length l0))) with true.
    2:{ symmetry. apply andb_true_intro. split; lia. }
    rewrite Nat2Z.id. reflexivity. }
  assert (AG : forall {A B} (l0 : list A) v (k : A -> prog B) st, nth_error l0 l = Some v ->
    exec (bind (aget l0 (Z.of_nat l)) k) st = exec (k v) st).
  { intros A B l0 v k st H0. assert (l < length l0)%nat by (apply nth_error_Some; congruence). unfold aget.
    rewrite Nat2Z.id, H0. destruct (Z.leb_spec 0 (Z.of_nat l)); [reflexivity|lia]. }
  rewrite AS, (AG _ _ _ g) in E by auto. rewrite exec_bind in E. rewrite exec_bind.
  assert (X := exec_fill_same 5 (Z.to_nat (n + 1)) 0 g s1 ltac:(lia)).
  assert (Y := wp_exec (forP (Z.to_nat (n + 1)) 0 (fun i b => v <- rd 5 ;; aset b (Z.of_nat i) v) g) (fun g' => length g' = 16%nat) s1
    ltac:(apply wp_fill_loop; [lia|intros; apply wp_rd; [lia|auto]|intros; congruence]) W1).
  destruct (exec (forP (Z.to_nat (n + 1)) 0 (fun i b => v <- rd 5 ;; aset b (Z.of_nat i) v) g) s1) as [[g1 s2]|c|r0];
    try discriminate; [|contradiction].
  destruct (exec (forP (Z.to_nat (n + 1)) 0 (fun _ _ => rd 5 ;;; Ret tt) tt) s1) as [[[] s2']|c|r0]; try contradiction.
  destruct X as [<- _]. destruct Y as (_ & W2 & _).
  rewrite AS in E by auto. rewrite exec_bind in E. rewrite exec_bind.
  assert (X := wp_exec (read_escape 8 8 12) (fun v => 0 <= v) s2 ltac:(apply wp_esc; auto; lia) W2).
  destruct (exec (read_escape 8 8 12) s2) as [[len s3]|c|r0]; try discriminate; [|contradiction].
  destruct X as (Hlen & W3 & _). exists n, len, s3. split; [reflexivity|]. split; [lia|].
  destruct (Z.le_gt_cases len 2048) as [H2|H2]; [exfalso|exact H2].
  rewrite AS, (AG _ _ _ b) in E by auto.
  assert (Hq : 0 <= len / 8 <= 256) by (split; [apply Z.div_pos; lia|]; apply Z.div_le_upper_bound; lia).
  assert (Hm := Z.mod_pos_bound len 8 ltac:(lia)). assert (DM := Z.div_mod len 8 ltac:(lia)).
  match type of E with exec ?p _ = _ =>
    assert (X : wp p (fun _ => True)); [|exact (wp_safe _ _ _ _ X W3 E)] end.
  apply wp_bindi. apply wp_fill_loop; [lia|intros; apply wp_rd; [lia|auto]|]. intros b1 Hb1. rewrite Lb in Hb1.
  apply wp_bindi, (wp_mono _ (fun b2 => True)).
  - intros b2 _. apply wp_bindi. apply wp_aset; [lia|]. exact I.
  - destruct (Z.eqb_spec (len mod 8) 0); [exact I|]. apply wp_bindi, wp_rd; [lia|]. intros v Hv.
    apply wp_aset; [lia|]. exact I.
Qed.
