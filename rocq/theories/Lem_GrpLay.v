(** * Lem_GrpLay: signal groups with their own layouts *)

From Coq Require Import ZArith List Lia Bool.
From Verif Require Import Bits BitBuf BitWrite Prog Asi Escape Wp Wlp Loops Frame Cicp Hoa Mhas Config Leaf Spec_Config
  Spec_Asi Lem_MhasProps Lem_Config Lem_ConfigSafe Lem_Hoa Lem_HoaMat Lem_ConfigMem Lem_Dmx Lem_Scan Lem_AsiRT
  Lem_ConfigRT Spec_Flex Lem_Flex Spec_ConfigFull Lem_ConfigFull Lem_ConfigElem Lem_ConfigAll Lem_ConfigTop GrpLay Spec_GrpLay.
Import ListNotations.
Open Scope Z_scope.

Lemma num_ls_get0 i : 0 <= i <= 20 -> nth_error num_ls_tbl (Z.to_nat i) = Some (num_ls i).
Proof. intros H. unfold num_ls. apply nth_error_nth'. change (length num_ls_tbl) with 21%nat. lia. Qed.
Lemma num_ls_nonneg i : 0 <= num_ls i.
Proof.
  unfold num_ls. destruct (nth_in_or_default (Z.to_nat i) num_ls_tbl 0) as [I|E]; [|lia].
  assert (F : Forall (fun v => 0 <= v) num_ls_tbl) by (repeat constructor; lia).
  exact (proj1 (Forall_forall _ _) F _ I).
Qed.

(** ** One layout *)
Lemma group_run y r nch refi rest : lay_ok y -> unused y -> l_idx y = 0 -> 0 <= refi <= 20 -> own_ok refi nch r ->
  exists y', runA (group_layout y nch refi) (enc_reflay r ++ rest) = Done ((0, y'), rest) /\ holds_reflay r y'.
Proof.
  intros LO U Z0 R V.
  destruct r as [i|vs|fine xs]; cbn [own_ok] in V.
  3:{ destruct V as (V1 & V2 & V3).
    destruct (group_flex_run fine xs y nch refi rest LO U V1 V2 V3 R) as (y' & E & A & B & D & F).
    { right. rewrite Z0. apply num_ls_nonneg. }
    exists y'. split; [exact E|]. cbn. auto. }
  all: destruct LO as [O1 O2 O3]; unfold group_layout; cbv zeta; cbn [enc_reflay holds_reflay] in *; rewrite <- !app_assoc.
  - destruct V as [V1 V2]. rewrite (runA_rdb 2 2) by lia. change (negb (0 =? 0)) with false. cbv iota.
    rewrite !bind_assoc. rewrite (runA_rdb 6 6) by lia.
    destruct (Z.ltb_spec 20 i); [lia|]. cbn [bind]. change (negb (0 =? 0)) with false. cbv iota. cbn [l_idx s_l_idx].
    rewrite (runA_aget num_ls_tbl i (num_ls i)) by (try lia; apply num_ls_get0; lia).
    rewrite (runA_aget num_ls_tbl refi (num_ls refi)) by (try lia; apply num_ls_get0; lia).
    replace (negb (num_ls i =? nch) && (num_ls refi <? num_ls i)) with false.
    { eexists. split; [reflexivity|]. cbn. auto. }
    symmetry. apply andb_false_iff. destruct V2 as [->|V2]; [left; rewrite Z.eqb_refl; reflexivity|right; lia].
  - destruct V as [V1 V2]. rewrite (runA_rdb 2 2) by lia. change (negb (1 =? 0)) with true. cbv iota.
    rewrite !bind_assoc.
    rewrite (read_escape_enc 5 8 16) by (try (cbn; lia); change (esc_max 5 8 16) with 65821; lia).
    replace (Z.of_nat (length vs) - 1 + 1) with (Z.of_nat (length vs)) by lia.
    destruct (Z.ltb_spec 24 (Z.of_nat (length vs))); [lia|]. change (1 =? 2) with false. change (1 =? 1) with true. cbv iota.
    cbn [l_num s_l_num]. rewrite runA_bind.
    destruct (spk_run (s_l_num (s_l_type y 1) (Z.of_nat (length vs))) vs rest) as (l' & E & [A B C D F]); [lia|exact V2|exact O1|].
    rewrite E. change (negb (0 =? 0)) with false. cbv iota. cbn in B, C, D.
    rewrite D, Z0. rewrite (runA_aget num_ls_tbl 0 (num_ls 0)) by (try lia; apply num_ls_get0; lia).
    rewrite (runA_aget num_ls_tbl refi (num_ls refi)) by (try lia; apply num_ls_get0; lia).
    replace (num_ls refi <? num_ls 0) with false by (symmetry; apply Z.ltb_ge; exact (num_ls_nonneg refi)).
    rewrite andb_false_r. exists l'. split; [reflexivity|]. rewrite firstn_all in F. auto.
Qed.

(** ** One group *)
Lemma set_that {A} (l : list A) i j v : (i < length l)%nat -> i <> j -> nth_error (firstn i l ++ v :: skipn (S i) l) j = nth_error l j.
Proof.
  intros H N. destruct (Nat.lt_ge_cases j i) as [L|L].
  - rewrite nth_error_app1 by (rewrite firstn_length; lia). apply nth_firstn_lt. lia.
  - rewrite nth_error_app2 by (rewrite firstn_length; lia). rewrite firstn_length, Nat.min_l by lia.
    replace (j - i)%nat with (S (j - i - 1)) by lia. cbn [nth_error]. rewrite nth_skipn. f_equal. lia.
Qed.
Lemma chan_app a b : chan_groups (a ++ b) = (chan_groups a + chan_groups b)%nat.
Proof. induction a as [|x a IH]; cbn [app chan_groups]; [reflexivity|]. rewrite IH. lia. Qed.
Lemma chan_le a : (chan_groups a <= length a)%nat.
Proof. induction a as [|x a IH]; cbn [length chan_groups]; [lia|]. destruct (sg_type x =? 0); lia. Qed.

(** Groups [0..i) have been read. *)
Definition held (gs : list sgroup) (i : nat) (g : sigs) : Prop :=
  forall j x, (j < i)%nat -> nth_error gs j = Some x -> sg_type x = 0 ->
    match sg_own x with
    | None => nth_error (q_differs g) j = Some 0
    | Some r => nth_error (q_differs g) j = Some 1 /\
        exists l, nth_error (q_lay g) (chan_groups (firstn j gs)) = Some l /\ holds_reflay r l
    end.
Record own_inv (u0 : ucfg) (gs : list sgroup) (i : nat) (t : ucfg * Z) : Prop := {
  ow_base : grps_inv u0 (map plain gs) i (fst t);
  ow_cn : snd t = Z.of_nat (chan_groups (firstn i gs));
  ow_len : length (q_lay (u_sig (fst t))) = 32%nat;
  ow_fresh : forall j l, (chan_groups (firstn i gs) <= j)%nat -> nth_error (q_lay (u_sig (fst t))) j = Some l ->
    lay_ok l /\ unused l /\ l_idx l = 0;
  ow_held : held gs i (u_sig (fst t));
  ow_info : q_info (u_sig (fst t)) = q_info (u_sig u0) }.

Lemma held_step gs i g g' x : held gs i g -> nth_error gs i = Some x ->
  (forall j, (j < i)%nat -> nth_error (q_differs g') j = nth_error (q_differs g) j) ->
  (forall j, (j < chan_groups (firstn i gs))%nat -> nth_error (q_lay g') j = nth_error (q_lay g) j) ->
  (sg_type x = 0 -> match sg_own x with
    | None => nth_error (q_differs g') i = Some 0
    | Some r => nth_error (q_differs g') i = Some 1 /\
        exists l, nth_error (q_lay g') (chan_groups (firstn i gs)) = Some l /\ holds_reflay r l
    end) -> held gs (S i) g'.
Proof.
  intros H Hx D L N j y Hj Hy T. destruct (Nat.eq_dec j i) as [->|Ne].
  - rewrite Hx in Hy. injection Hy as <-. apply N. exact T.
  - specialize (H j y ltac:(lia) Hy T).
    assert (LT : sg_own y = None \/ (chan_groups (firstn j gs) < chan_groups (firstn i gs))%nat).
    { right. replace (firstn i gs) with (firstn (S j) gs ++ skipn (S j) (firstn i gs)).
      2:{ replace (firstn (S j) gs) with (firstn (S j) (firstn i gs)) by (rewrite firstn_firstn; f_equal; lia). apply firstn_skipn. }
      rewrite chan_app, (firstn_snoc_err gs j y Hy), chan_app. cbn [chan_groups]. rewrite T. cbn. lia. }
    destruct (sg_own y).
    + destruct H as (H1 & l & H2 & H3). destruct LT as [LT|LT]; [discriminate|]. rewrite D by lia. split; [exact H1|].
      exists l. rewrite L by exact LT. auto.
    + rewrite D by lia. exact H.
Qed.

Lemma sgroup_run u0 gs i t g rest : valid_sgroups (u_rdc u0) (l_idx (u_ref u0)) gs -> 0 <= l_idx (u_ref u0) <= 20 ->
  nth_error gs i = Some g -> own_inv u0 gs i t ->
  exists t', runA (sig_group i t) (enc_sgroup g ++ rest) = Done ((0, t'), rest) /\ own_inv u0 gs (S i) t'.
Proof.
  intros (L & G & T0 & T1 & T3 & _ & OW) RI Hg [[KU KD KN lt ln ld Ty Ns C O H N Gc Go Gh Nt] CN LL FR HE QI].
  destruct t as [u cn]. cbn [fst snd] in *. subst cn.
  unfold signals_of in *.
  assert (Hi : (i < length gs)%nat) by (apply nth_error_Some; congruence).
  assert (Hp : nth_error (map plain gs) i = Some (plain g)) by (rewrite nth_error_map, Hg; reflexivity).
  assert (GG : good_groups (map plain gs)).
  { apply Forall_forall. intros x Hx. apply in_map_iff in Hx. destruct Hx as (y & <- & Hy).
    exact (proj1 (Forall_forall _ _) G y Hy). }
  pose proof (nth_error_Forall _ _ _ _ G Hg) as [HT HP]. cbv beta in HT, HP.
  assert (SN := firstn_snoc_err _ i _ Hp). assert (SG := firstn_snoc_err _ i _ Hg).
  assert (B : forall ty, total ty (map plain gs) = total ty (firstn i (map plain gs)) + (if sg_type g =? ty then sg_n g else 0) + total ty (skipn (S i) (map plain gs))).
  { intros ty. change (sg_type g) with (fst (plain g)). change (sg_n g) with (snd (plain g)).
    rewrite <- total_snoc, <- SN, <- total_app, firstn_skipn. reflexivity. }
  assert (G2 : forall ty, 0 <= total ty (skipn (S i) (map plain gs))).
  { intros ty. apply total_ge. apply Forall_forall. intros x Hx. apply (proj1 (Forall_forall _ _) GG).
    rewrite <- (firstn_skipn (S i)). apply in_or_app. auto. }
  assert (G1 : forall ty, 0 <= total ty (firstn i (map plain gs))).
  { intros ty. apply total_ge. apply Forall_forall. intros x Hx. apply (proj1 (Forall_forall _ _) GG).
    rewrite <- (firstn_skipn i). apply in_or_app. auto. }
  assert (S24 : sg_n g <= 24).
  { destruct HT as [E|[E|E]]; [specialize (B 0)|specialize (B 1)|specialize (B 3)]; rewrite E in B; cbn [Z.eqb Pos.eqb] in B;
      [specialize (G2 0); specialize (G1 0)|specialize (G2 1); specialize (G1 1)|specialize (G2 3); specialize (G1 3)]; lia. }
  unfold sig_group, enc_sgroup. cbv zeta. rewrite <- !app_assoc. rewrite (runA_rdb 3 3) by lia.
  rewrite runA_aset by lia. rewrite Nat2Z.id.
  rewrite (read_escape_enc 5 8 16) by (try (cbn; lia); change (esc_max 5 8 16) with 65821; lia).
  replace (sg_n g - 1 + 1) with (sg_n g) by lia.
  rewrite runA_aset by lia. rewrite Nat2Z.id.
  assert (E1 : firstn (S i) (firstn i (q_type (u_sig u)) ++ sg_type g :: skipn (S i) (q_type (u_sig u))) = map fst (firstn (S i) (map plain gs))).
  { rewrite firstn_aset by lia. rewrite Ty, SN, map_app. reflexivity. }
  assert (E2 : firstn (S i) (firstn i (q_nsig (u_sig u)) ++ sg_n g :: skipn (S i) (q_nsig (u_sig u))) = map snd (firstn (S i) (map plain gs))).
  { rewrite firstn_aset by lia. rewrite Ns, SN, map_app. reflexivity. }
  assert (TS : forall ty, total ty (firstn (S i) (map plain gs)) = total ty (firstn i (map plain gs)) + (if sg_type g =? ty then sg_n g else 0)).
  { intros ty. rewrite SN. apply total_snoc. }
  assert (GS : forall ty, groups_of ty (map fst (firstn (S i) (map plain gs))) = groups_of ty (map fst (firstn i (map plain gs))) + (if sg_type g =? ty then 1 else 0)).
  { intros ty. rewrite SN, map_app. cbn [map]. apply groups_of_snoc'. }
  assert (CS : chan_groups (firstn (S i) gs) = (chan_groups (firstn i gs) + (if (sg_type g =? 0)%Z then 1 else 0))%nat).
  { rewrite SG, chan_app. cbn [chan_groups]. lia. }
  assert (C16 : (chan_groups (firstn i gs) <= 15)%nat).
  { pose proof (chan_le (firstn i gs)) as X. rewrite firstn_length in X. lia. }
  destruct HT as [E|[E|E]]; rewrite E in *.
  - change (0 =? 3) with false. change (0 =? 2) with false. change (0 =? 1) with false. change (0 =? 0) with true in *. cbv iota in *.
    specialize (B 0). cbn [Z.eqb] in B. specialize (G2 0). specialize (G1 0).
    cbn [q_ch s_q_ch s_q_gch s_q_nsig s_q_type u_nout s_u_nout s_u_sig].
    destruct (Z.ltb_spec 24 (q_ch (u_sig u) + sg_n g)); [lia|].
    destruct (Z.ltb_spec 24 (u_nout u + sg_n g)); [lia|]. cbn [orb].
    destruct (sg_own g) as [r|] eqn:EO.
    + rewrite <- !app_assoc, (runA_rdb 1 1) by lia. rewrite runA_aset by (cbn; lia). rewrite Nat2Z.id. change (1 =? 1) with true. cbv iota.
      cbn [q_lay s_q_differs s_q_ch s_q_gch s_q_nsig s_q_type q_ch u_ref s_u_sig s_u_nout].
      destruct (nth_error_Some_ex (q_lay (u_sig u)) (chan_groups (firstn i gs)) ltac:(lia)) as [l Hl].
      rewrite (runA_aget (q_lay (u_sig u)) _ l) by (try lia; rewrite Nat2Z.id; exact Hl).
      destruct (FR _ l (le_n _) Hl) as (F1 & F2 & F3).
      assert (RR : u_ref u = u_ref u0) by (unfold uproj2 in KU; inversion KU; congruence).
      rewrite runA_bind, RR.
      assert (OK := OW i g r Hg E EO). rewrite <- firstn_map, TS in OK. cbn [Z.eqb] in OK. rewrite <- C in OK.
      destruct (group_run l r _ _ rest F1 F2 F3 RI OK) as (y' & EY & HY). rewrite EY.
      cbv beta iota. rewrite runA_aset by lia. rewrite Nat2Z.id. cbn [runA].
      eexists. split; [reflexivity|]. constructor; cbn [fst snd].
      * constructor; cbn -[firstn skipn app total groups_of map]; try (rewrite aset_len; lia); auto;
          rewrite ?TS, ?GS; cbn [Z.eqb Pos.eqb]; lia.
      * rewrite CS. lia.
      * cbn -[firstn skipn app]. rewrite aset_len; lia.
      * intros j y Hj Hy. cbn -[firstn skipn app] in Hy. rewrite set_that in Hy by lia. apply (FR j y); [lia|exact Hy].
      * apply (held_step gs i (u_sig u) _ g HE Hg).
        { intros j Hj. cbn -[firstn skipn app]. apply set_that; lia. }
        { intros j Hj. cbn -[firstn skipn app]. apply set_that; lia. }
        intros _. rewrite EO. cbn -[firstn skipn app]. split; [apply set_this; lia|].
        exists y'. split; [apply set_this; lia|exact HY].
      * exact QI.
    + rewrite (runA_rdb 1 1) by lia. rewrite runA_aset by (cbn; lia). rewrite Nat2Z.id. change (0 =? 1) with false. cbv iota. cbn [runA].
      eexists. split; [reflexivity|]. constructor; cbn [fst snd].
      * constructor; cbn -[firstn skipn app total groups_of map]; try (rewrite aset_len; lia); auto;
          rewrite ?TS, ?GS; cbn [Z.eqb Pos.eqb]; lia.
      * rewrite CS. lia.
      * cbn -[firstn skipn app]. lia.
      * intros j y Hj Hy. apply (FR j y); [lia|exact Hy].
      * apply (held_step gs i (u_sig u) _ g HE Hg).
        { intros j Hj. cbn -[firstn skipn app]. apply set_that; lia. }
        { intros j Hj. reflexivity. }
        intros _. rewrite EO. cbn -[firstn skipn app]. apply set_this; lia.
      * exact QI.
  - change (1 =? 3) with false. change (1 =? 2) with false. change (1 =? 1) with true. cbv iota.
    destruct (Z.ltb_spec 24 (sg_n g)); [lia|]. cbn [runA]. change (1 =? 0) with false in *. cbv iota in *. cbn [app].
    eexists. split; [reflexivity|]. constructor; cbn [fst snd].
    + constructor; cbn -[firstn skipn app total groups_of map]; try (rewrite aset_len; lia); auto;
      rewrite ?TS, ?GS; cbn [Z.eqb Pos.eqb]; lia.
    + rewrite CS. lia.
    + exact LL.
    + intros j y Hj Hy. apply (FR j y); [lia|exact Hy].
    + apply (held_step gs i (u_sig u) _ g HE Hg); try reflexivity. rewrite E. discriminate.
    + exact QI.
  - change (3 =? 3) with true. cbv iota.
    destruct (Z.ltb_spec 24 (sg_n g)); [lia|]. cbn [runA]. change (3 =? 0) with false in *. cbv iota in *. cbn [app].
    eexists. split; [reflexivity|]. destruct KD as [h0 KD]. constructor; cbn [fst snd].
    + constructor; cbn -[firstn skipn app total groups_of map]; try (rewrite aset_len; lia); auto;
      rewrite ?TS, ?GS; cbn [Z.eqb Pos.eqb]; try lia. rewrite KD. eexists. reflexivity.
    + rewrite CS. lia.
    + exact LL.
    + intros j y Hj Hy. apply (FR j y); [lia|exact Hy].
    + apply (held_step gs i (u_sig u) _ g HE Hg); try reflexivity. rewrite E. discriminate.
    + exact QI.
Qed.

(** ** All groups *)
Lemma sgroups_run u user gs rest : valid_sgroups (u_rdc u) (l_idx (u_ref u)) gs -> 0 <= l_idx (u_ref u) <= 20 ->
  sig_ok (u_sig u) -> fresh_layouts (u_sig u) -> l_type (u_ref u) <> 3 ->
  exists u', runA (signals u user) (enc_sgroups gs ++ rest) = Done ((0, u'), rest) /\ holds_sgroups gs (u_sig u') /\
    u_ref u' = u_ref u /\ q_info (u_sig u') = q_info (u_sig u).
Proof.
  intros V RI [S1 S2 S3 S4 S5 S6 S7] FL R. assert (V' := V). destruct V' as (L & _ & _ & _ & _ & D & _).
  unfold signals, enc_sgroups. cbv zeta. rewrite <- app_assoc.
  rewrite (runA_rdb 5 5) by lia. replace (Z.of_nat (length gs) - 1 + 1) with (Z.of_nat (length gs)) by lia.
  destruct (Z.ltb_spec 16 (Z.of_nat (length gs))); [lia|].
  cbn [u_ref s_u_nout s_u_sig]. destruct (Z.eqb_spec (l_type (u_ref u)) 3); [congruence|]. cbn [andb].
  rewrite runA_bind, Nat2Z.id.
  set (u1 := s_u_nout _ 0). set (u0 := s_u_sig u (s_q_num (u_sig u) (Z.of_nat (length gs)))).
  destruct (forE_tab sig_group enc_sgroup
     (own_inv u0 gs) gs) with (ys := gs) (i := 0%nat) (t := (u1, 0)) (rest := rest)
    as ([u2 cn] & E & I).
  - intros i t x r Hx HI. exact (sgroup_run u0 gs i t x r V RI Hx HI).
  - reflexivity.
  - constructor; cbn [fst snd].
    + constructor; cbn; auto; try lia. exists (d_hoa (u_dec u)). destruct (u_dec u); reflexivity.
    + reflexivity.
    + exact S6.
    + intros j l _ Hl. cbn in Hl. split; [exact (nth_error_Forall _ _ _ _ S7 Hl)|].
      destruct (nth_error_Forall _ _ _ _ FL Hl) as [A1 A2]. auto.
    + intros j x Hj. lia.
    + reflexivity.
  - rewrite E. cbv beta iota. change (negb (0 =? 0)) with false. cbv iota. cbn [Nat.add fst snd] in I.
    destruct I as [[KU KD KN lt ln ld Ty Ns C O HH N Gc Go Gh Nt] CN LL FR HE IN]. cbn [fst snd] in *. change (q_info (u_sig u2) = q_info (u_sig u)) in IN.
    rewrite Ty. replace (length gs) with (length (map plain gs)) in * by apply map_length. rewrite firstn_all in *.
    assert (X : (1 <? Z.of_nat (length (map plain gs))) && (u_rdc u2 =? 0)
       && negb (forallb (fun t => t =? nth 0 (map fst (map plain gs)) 0) (map fst (map plain gs))) = false).
    { destruct D as [D|[t D]].
      - unfold uproj2 in KU. cbn in KU. assert (RD : u_rdc u2 = u_rdc u) by (inversion KU; congruence). rewrite RD, D. cbn. now rewrite !andb_false_r.
      - rewrite all_same_types; [cbn; now rewrite !andb_false_r|]. exists t. apply Forall_forall. intros x Hx. apply in_map_iff in Hx.
        destruct Hx as (y & <- & Hy). exact (proj1 (Forall_forall _ _) D y Hy). }
    rewrite X. cbn [runA]. eexists. split; [reflexivity|].
    assert (KK : forall u', u_ref u' = u_ref u2 ->
       (q_num (u_sig u'), q_type (u_sig u'), q_nsig (u_sig u'), q_differs (u_sig u'), q_lay (u_sig u'), q_info (u_sig u')) =
       (q_num (u_sig u2), q_type (u_sig u2), q_nsig (u_sig u2), q_differs (u_sig u2), q_lay (u_sig u2), q_info (u_sig u2)) ->
       holds_sgroups gs (u_sig u') /\ u_ref u' = u_ref u /\ q_info (u_sig u') = q_info (u_sig u)).
    { intros u' A1 B. inversion B as [[B1 B2 B3 B4 B5 B6]]. cbn in KN.
      split; [|split; [rewrite A1; unfold uproj2 in KU; cbn in KU; inversion KU; congruence|congruence]].
      unfold holds_sgroups. rewrite B1, B2, B3, B4, B5, KN. rewrite map_length in *.
      split; [reflexivity|]. split; [rewrite Ty, map_map; reflexivity|]. split; [rewrite Ns, map_map; reflexivity|].
      intros i x Hx T. apply (HE i x); [apply nth_error_Some; congruence|exact Hx|exact T]. }
    apply KK; destruct (0 <? q_ghoa _), (0 <? q_gobj _), (0 <? q_gch _); reflexivity.
Qed.

Lemma sgroups_exec u user gs s rest : valid_sgroups (u_rdc u) (l_idx (u_ref u)) gs -> lay_ok (u_ref u) ->
  sig_ok (u_sig u) -> fresh_layouts (u_sig u) -> l_type (u_ref u) <> 3 -> wf s -> rest_bits s = enc_sgroups gs ++ rest ->
  exists u' s', exec (signals u user) s = Done ((0, u'), s') /\ rest_bits s' = rest /\ holds_sgroups gs (u_sig u') /\
    u_ref u' = u_ref u /\ q_info (u_sig u') = q_info (u_sig u) /\ sig_ok (u_sig u').
Proof.
  intros V RI S FL R W E. destruct (sgroups_run u user gs rest V (lo_idx _ RI) S FL R) as (u' & RUN & H1 & H2 & H3).
  assert (P := wp_runA _ _ (wp_signals u user S RI) (enc_sgroups gs ++ rest)). rewrite RUN in P. cbn [fst snd] in P.
  destruct (P eq_refl) as (P1 & _).
  rewrite <- E in RUN. destruct (exec_of_run _ _ _ _ W RUN) as (s' & E' & _ & E2).
  exists u', s'. auto 10.
Qed.

(** ** The loudspeakers at the input of the converter *)
Lemma set_facts c : 0 <= c <= 20 ->
  nth_error ls_set_tbl (Z.to_nat c) = Some (ls_set c) /\ Z.of_nat (length (ls_set c)) = num_ls c /\ num_ls c <= 24.
Proof.
  intros H. assert (F : Forall (fun c => nth_error ls_set_tbl (Z.to_nat c) = Some (ls_set c) /\
     Z.of_nat (length (ls_set c)) = num_ls c /\ num_ls c <= 24) (map Z.of_nat (seq 0 21))).
  { repeat constructor; vm_compute; congruence. }
  rewrite Forall_forall in F. apply F. apply in_map_iff. exists (Z.to_nat c). split; [lia|]. apply in_seq. lia.
Qed.
Lemma add_ok acc c : 0 <= c <= 20 -> Z.of_nat (length acc) + 24 <= 384 -> add_names acc c = Done (acc ++ ls_set c).
Proof.
  intros H L. destruct (set_facts c H) as (A & B & C). unfold add_names. rewrite num_ls_get0 by exact H. rewrite A.
  destruct (Z.ltb_spec (Z.of_nat (length (ls_set c))) (num_ls c)); [lia|].
  destruct (Z.ltb_spec 384 (Z.of_nat (length acc) + num_ls c)); [lia|]. cbn [orb].
  rewrite <- B, Nat2Z.id, firstn_all. reflexivity.
Qed.

Lemma inputs_safe g ref : length (q_fixed g) = 32%nat -> length (q_lay g) = 32%nat -> length (q_differs g) = 32%nat ->
  Forall lay_ok (q_lay g) -> 0 <= ref <= 20 -> forall k i acc, (k + i <= 32)%nat ->
  Z.of_nat (length acc) + 24 * Z.of_nat k <= 384 ->
  exists e more, inputs k i g ref acc = Done (e, acc ++ more) /\ (e = 0 \/ e = E_CICP_SPKR) /\ (1 <= ref -> ref <> 8 -> e = 0).
Proof.
  intros L1 L2 L3 LO R. induction k as [|k IH]; intros i acc K LA; cbn [inputs].
  - exists 0, []. rewrite app_nil_r. auto.
  - destruct (nth_error_Some_ex (q_fixed g) i ltac:(lia)) as [f Hf]. destruct (nth_error_Some_ex (q_lay g) i ltac:(lia)) as [l Hl].
    destruct (nth_error_Some_ex (q_differs g) i ltac:(lia)) as [d Hd]. rewrite Hf, Hl, Hd.
    assert (REC : forall c, 0 <= c <= 20 -> exists e more, inputs k (S i) g ref (acc ++ ls_set c) = Done (e, acc ++ more) /\ (e = 0 \/ e = E_CICP_SPKR) /\ (1 <= ref -> ref <> 8 -> e = 0)).
    { intros c HC. destruct (set_facts c HC) as (_ & B & C).
      destruct (IH (S i) (acc ++ ls_set c)) as (e & m & E & Q); [lia|rewrite app_length; lia|].
      exists e, (ls_set c ++ m). rewrite app_assoc. auto. }
    destruct (f =? 1); [|apply IH; lia]. destruct (d =? 1).
    + assert (LI := lo_idx _ (nth_error_Forall _ _ _ _ LO Hl)). rewrite add_ok by lia. apply REC. exact LI.
    + destruct ((ref =? 0) || (ref =? 8) || (20 <? ref)) eqn:B.
      * exists E_CICP_SPKR, []. rewrite app_nil_r. split; [reflexivity|]. split; [auto|]. intros. lia.
      * rewrite add_ok by lia. apply REC. exact R.
Qed.

Lemma group_default_ok g : sig_ok g -> 0 <= q_num g <= 16 ->
  sig_ok (group_default g) /\ q_lay (group_default g) = q_lay g /\ q_differs (group_default g) = q_differs g /\
  q_num (group_default g) = q_num g.
Proof.
  intros S H. unfold group_default. destruct (negb (q_info g =? 1)); [|auto].
  destruct S as [S1 S2 S3 S4 S5 S6 S7]. split; [|auto]. constructor; cbn; auto.
  rewrite app_length, repeat_length, skipn_length, S5. lia.
Qed.
Lemma converter_safe u : sig_ok (u_sig u) -> lay_ok (u_ref u) -> 0 <= q_num (u_sig u) <= 16 ->
  exists e l, converter_inputs u = Done (e, l) /\ (e = 0 \/ e = E_CICP_SPKR).
Proof.
  intros S L H. destruct (group_default_ok _ S H) as ([S1 S2 S3 S4 S5 S6 S7] & D1 & D2 & D3).
  unfold converter_inputs. cbv zeta. rewrite D3.
  destruct (inputs_safe (group_default (u_sig u)) (l_idx (u_ref u)) S5 S6 S3 S7 (lo_idx _ L) (Z.to_nat (q_num (u_sig u))) 0 []) as (e & m & E & Q & _);
    [lia|cbn [length]; lia|]. exists e, m. auto.
Qed.

Lemma inputs_chan g ref : 1 <= ref <= 20 -> ref <> 8 -> forall cs k i acc,
  Z.of_nat (length acc) + 24 * Z.of_nat (length cs) <= 384 ->
  (forall j x, nth_error cs j = Some x -> nth_error (q_fixed g) (i + j) = Some 1 /\
     exists l, nth_error (q_lay g) (i + j) = Some l /\ 0 <= l_idx l <= 20 /\
       ((sg_own x = None /\ nth_error (q_differs g) (i + j) = Some 0) \/
        (sg_own x = Some (RNamed (l_idx l)) /\ nth_error (q_differs g) (i + j) = Some 1))) ->
  inputs (length cs + k) i g ref acc = inputs k (i + length cs) g ref (acc ++ concat (map (fun g => ls_set (own_name ref g)) cs)).
Proof.
  intros R R8. induction cs as [|x cs IH]; intros k i acc L H.
  - cbn [length concat map Nat.add]. rewrite app_nil_r, Nat.add_0_r. reflexivity.
  - cbn [length Nat.add inputs concat map]. destruct (H 0%nat x eq_refl) as (F & l & Hl & LI & D).
    rewrite Nat.add_0_r in *. rewrite F, Hl. change (1 =? 1) with true. cbv iota.
    assert (REC : inputs (length cs + k) (S i) g ref (acc ++ ls_set (own_name ref x)) =
      inputs k (i + S (length cs)) g ref (acc ++ ls_set (own_name ref x) ++ concat (map (fun g => ls_set (own_name ref g)) cs))).
    { assert (OR : 0 <= own_name ref x <= 20) by (unfold own_name; destruct D as [[-> _]|[-> _]]; lia).
      destruct (set_facts _ OR) as (_ & B & C). cbn [length] in L.
      rewrite IH; [rewrite <- app_assoc; f_equal; lia|rewrite app_length; lia|].
      intros j y Hy. specialize (H (S j) y Hy). replace (S i + j)%nat with (i + S j)%nat by lia. exact H. }
    cbn [length] in L. destruct D as [[D1 D2]|[D1 D2]]; rewrite D2; unfold own_name in REC |- *; rewrite D1 in REC |- *.
    + change (0 =? 1) with false. cbv iota. replace ((ref =? 0) || (ref =? 8) || (20 <? ref)) with false by lia.
      rewrite add_ok by lia. exact REC.
    + change (1 =? 1) with true. cbv iota. rewrite add_ok by lia. exact REC.
Qed.

Lemma chans_first cs i : Forall (fun g => sg_type g = 0) cs -> (i <= length cs)%nat -> chan_groups (firstn i cs) = i.
Proof.
  intros F. revert i. induction F as [|x cs H F IH]; intros i L; [cbn in L; replace i with 0%nat by lia; reflexivity|].
  destruct i as [|i]; [reflexivity|]. cbn [firstn chan_groups length] in *. rewrite H. cbn. rewrite IH by lia. reflexivity.
Qed.
Lemma loud_chans ref cs os : Forall (fun g => sg_type g = 0) cs -> Forall (fun g => sg_type g <> 0) os ->
  loudspeakers ref (cs ++ os) = concat (map (fun g => ls_set (own_name ref g)) cs).
Proof.
  intros F G. unfold loudspeakers. f_equal. f_equal. induction F as [|x cs H F IH].
  - cbn [app]. induction G as [|x os H G IH]; [reflexivity|]. cbn [filter]. destruct (Z.eqb_spec (sg_type x) 0); [congruence|exact IH].
  - cbn [app filter]. rewrite H. cbn. rewrite IH. reflexivity.
Qed.

Lemma inputs_ok u cs os : sig_ok (u_sig u) -> q_info (u_sig u) <> 1 -> lay_ok (u_ref u) ->
  l_idx (u_ref u) <> 0 -> l_idx (u_ref u) <> 8 ->
  holds_sgroups (cs ++ os) (u_sig u) -> (length (cs ++ os) <= 16)%nat -> Forall (fun g => sg_type g = 0) cs -> Forall (fun g => sg_type g <> 0) os ->
  Forall named cs ->
  exists more, converter_inputs u = Done (0, loudspeakers (l_idx (u_ref u)) (cs ++ os) ++ more) /\ (os = [] -> more = []).
Proof.
  intros S QI L R0 R8 (HN & _ & _ & HH) LE FC FO FN. assert (RI := lo_idx _ L).
  destruct (group_default_ok _ S ltac:(rewrite HN; lia)) as ([S1 S2 S3 S4 S5 S6 S7] & D1 & D2 & D3).
  rewrite loud_chans by assumption. unfold converter_inputs. cbv zeta. rewrite D3, HN, Nat2Z.id, app_length. rewrite app_length in LE.
  set (g := group_default (u_sig u)) in *.
  rewrite inputs_chan; [|lia|exact R8|cbn [length]; lia|].
  - cbn [Nat.add app].
    destruct (inputs_safe g (l_idx (u_ref u)) S5 S6 S3 S7 RI (length os) (length cs)
      (concat (map (fun g0 => ls_set (own_name (l_idx (u_ref u)) g0)) cs))) as (e & m & E & _ & Q).
    { lia. }
    { assert (B : forall xs, Forall (fun g => sg_type g = 0) xs -> Forall named xs -> (forall x i, In x xs -> sg_own x = Some (RNamed i) -> 0 <= i <= 20) ->
        Z.of_nat (length (concat (map (fun g0 => ls_set (own_name (l_idx (u_ref u)) g0)) xs))) <= 24 * Z.of_nat (length xs)).
      { clear - RI. induction xs as [|x xs IH]; intros A B C; [cbn; lia|]. cbn [map concat length]. rewrite app_length.
        assert (OR : 0 <= own_name (l_idx (u_ref u)) x <= 20).
        { unfold own_name. destruct (sg_own x) as [[i| |]|] eqn:EO; try lia. exact (C x i (or_introl eq_refl) EO). }
        destruct (set_facts _ OR) as (_ & B1 & B2). specialize (IH (Forall_inv_tail A) (Forall_inv_tail B)).
        specialize (IH ltac:(intros y i Hy; exact (C y i (or_intror Hy)))). lia. }
      specialize (B cs FC FN). assert (B' := B ltac:(
        intros x i Hx EO; apply In_nth_error in Hx; destruct Hx as [j Hj];
        assert (Hj' : nth_error (cs ++ os) j = Some x) by (rewrite nth_error_app1; [exact Hj|apply nth_error_Some; congruence]);
        specialize (HH j x Hj' (nth_error_Forall _ _ _ _ FC Hj)); rewrite EO in HH; destruct HH as (_ & l & Hl & _ & <-);
        rewrite <- D1 in Hl; exact (lo_idx _ (nth_error_Forall _ _ _ _ S7 Hl)))). lia. }
    rewrite E, Q by lia. exists m. split; [reflexivity|]. intros ->. cbn [length inputs] in E. injection E as _ E.
    apply (f_equal (@length Z)) in E. rewrite app_length in E. destruct m; [reflexivity|cbn in E; lia].
  - intros j x Hx. assert (Hj : (j < length cs)%nat) by (apply nth_error_Some; congruence). cbn [Nat.add].
    split.
    { unfold g, group_default. destruct (Z.eqb_spec (q_info (u_sig u)) 1); [congruence|]. cbn [negb q_fixed s_q_fixed].
      rewrite nth_error_app1 by (rewrite repeat_length, HN, app_length; lia). apply nth_error_repeat'. rewrite HN, app_length. lia. }
    assert (Hj' : nth_error (cs ++ os) j = Some x) by (rewrite nth_error_app1; assumption).
    specialize (HH j x Hj' (nth_error_Forall _ _ _ _ FC Hx)). assert (NM := nth_error_Forall _ _ _ _ FN Hx). unfold named in NM.
    rewrite firstn_app, (proj2 (Nat.sub_0_le j (length cs)) ltac:(lia)) in HH. cbn [firstn] in HH. rewrite app_nil_r, chans_first in HH by (try assumption; lia).
    rewrite D1, D2. destruct (sg_own x) as [[i| |]|]; try contradiction.
    + destruct HH as (H1 & l & Hl & H2 & H3). exists l. split; [exact Hl|]. rewrite <- D1 in Hl.
      split; [exact (lo_idx _ (nth_error_Forall _ _ _ _ S7 Hl))|]. right. rewrite H3. auto.
    + destruct (nth_error_Some_ex (q_lay g) j ltac:(lia)) as [l Hl]. exists l. split; [rewrite <- D1; exact Hl|].
      split; [exact (lo_idx _ (nth_error_Forall _ _ _ _ S7 Hl))|]. left. auto.
Qed.
