(** * Lem_OamDyn: dynamic object metadata frames (absolute and differential updates) *)

From Coq Require Import ZArith List Lia Bool SpecFloat.
From Verif Require Import Bits BitBuf Prog Wp Loops Leaf Config Lem_Dmx F32 Oam Spec_Oam Lem_OamRT Lem_OamRT2 Lem_OamFrame.
Import ListNotations.
Open Scope Z_scope.
Open Scope prog_scope.

(** The integer fields of one object. *)
Definition row (w : raws) (k : nat) : list (option Z) :=
  [nth_error (r_az w) k; nth_error (r_el w) k; nth_error (r_rad w) k; nth_error (r_gain w) k;
   nth_error (r_sw w) k; nth_error (r_sh w) k; nth_error (r_sd w) k; nth_error (r_pri w) k].

Lemma nth_set1 {A} (l : list A) i v : (i < length l)%nat -> nth_error (set1 l i v) i = Some v.
Proof. intros H. unfold set1. apply nth_aset_eq. exact H. Qed.
Lemma nth_set1_neq {A} (l : list A) i k v : (i < length l)%nat -> k <> i -> nth_error (set1 l i v) k = nth_error l k.
Proof. intros H N. unfold set1. apply nth_aset_neq; auto. Qed.
Lemma len_set1 {A} (l : list A) i v : (i < length l)%nat -> length (set1 l i v) = length l.
Proof. intros H. unfold set1. apply aset_len. exact H. Qed.

(** ** The tail of a frame in the first slot *)
Lemma tail_run pw c uni dyn w n st S nn sub (has : list Z) x :
  oc_uni c = flag uni -> (n <= 24)%nat -> sized S st -> wlen w 96 -> 0 <= oc_fl c -> S + oc_fl c <= 2 ^ 31 ->
  exists st', (d <- descale pw c 0 (Z.of_nat n) w (o_dsc st) ;;
   d <- limit c (Z.of_nat n) d ;;
   smp <- forP (Z.to_nat (Z.of_nat n)) 0 (fun i l => acc l (Z.of_nat i) (oc_fl c)) (o_smp st) ;;
   Ret (mkO nn sub (o_pres st) has smp w d x)) = Ret st' /\
   o_raw st' = w /\ sized (S + oc_fl c) st' /\ o_n st' = nn /\ o_has st' = has /\
   (forall i v, (i < n)%nat -> nth_error (o_smp st) i = Some v -> nth_error (o_smp st') i = Some (v + oc_fl c)) /\
   (forall i o, (i < n)%nat -> legal_obj o -> object_at uni dyn w i o -> placed_at pw uni dyn (o_dsc st') i o).
Proof.
  intros Eu Hn (S1 & S2 & S3 & S4 & S5) HW Hfl HS.
  destruct (descale_all pw c w (o_dsc st) 0 n 96) as (d & E1 & D96 & HD); auto; try lia.
  change (Z.of_nat 0) with 0 in E1. rewrite E1. cbn [bind].
  destruct (limit_all c n d 96) as (d' & -> & D96' & HD'); auto; try lia. cbn [bind].
  rewrite Nat2Z.id.
  destruct (sample_run S (oc_fl c) n (o_smp st)) as (sm & -> & L1 & F1 & F2); auto; try lia. cbn [bind].
  eexists. split; [reflexivity|]. cbn [o_raw o_n o_dsc o_has o_smp]. split; [reflexivity|]. split; [|split; [reflexivity|split; [reflexivity|split; [exact F2|]]]].
  - unfold sized. cbn [o_pres o_raw o_dsc o_smp]. split; [exact S1|]. split; [exact HW|]. split; [exact D96'|].
    split; [congruence|exact F1].
  - intros i o Hi (O1 & O2 & O3 & O4 & O5 & O6 & O7 & O8) (V1 & V2 & V3 & V4 & V5 & V6 & V7).
    assert (G := HD i Hi). assert (G' := HD' i Hi). clear HD HD'. cbn [Nat.add] in G. unfold placed_at.
    split; [|split; [|split; [|split; [|split; [|split]]]]].
    + rewrite <- az_scale by auto. apply G', (G (b_az o)), V1.
    + rewrite <- el_scale by auto. apply G', (G (b_el o)), V2.
    + apply G', (G (b_rad o)), V3.
    + apply G', (G (b_gain o)), V4.
    + rewrite <- sw_scale by auto. apply G', (G (b_sw o)), V5.
    + intros ->. destruct (V6 eq_refl) as (V8 & V9). split.
      * rewrite <- sh_scale by auto. apply G'; [exact Eu|]. apply (G (b_sh o)); auto.
      * apply G'; [exact Eu|]. apply (G (b_sd o)); auto.
    + intros ->. rewrite <- pri_scale by auto. apply G', (G (b_pri o)), V7. reflexivity.
Qed.

(** ** The loop over the objects *)
Definition after {A} (step : A -> list (option Z) -> list (option Z)) (u : option A) (r : list (option Z)) : list (option Z) :=
  match u with None => r | Some a => step a r end.

Lemma dyn_loop {A} (one : raws -> Z -> prog raws) (enc : A -> list bool) (ok : A -> Prop)
          (step : A -> list (option Z) -> list (option Z)) (good : list (option Z) -> Prop) :
  (forall a w i rest, ok a -> wlen w 96 -> (i < 96)%nat -> good (row w i) ->
    exists w', runA (one w (Z.of_nat i)) (enc a ++ rest) = Done (w', rest) /\ wlen w' 96 /\
      row w' i = step a (row w i) /\ forall k, k <> i -> row w' k = row w k) ->
  forall us j has w rest,
    Forall (fun u => match u with None => True | Some a => ok a end) us ->
    (j + length us <= 96)%nat -> length has = 96%nat -> wlen w 96 -> (forall i, (j <= i < 96)%nat -> good (row w i)) ->
    exists has' w',
      runA (forP (length us) j (fun i '(has, w) =>
        p <- rd 1 ;;
        has <- aset has 0 p ;;
        if p =? 0 then Ret (has, w)
        else w <- one w (0 + Z.of_nat i) ;; Ret (has, w)) (has, w))
        (concat (map (fun u => match u with None => [false] | Some a => true :: enc a end) us) ++ rest)
      = Done ((has', w'), rest) /\ length has' = 96%nat /\ wlen w' 96 /\
      (forall i u, nth_error us i = Some u -> row w' (j + i) = after step u (row w (j + i))) /\
      (forall k, (k < j \/ j + length us <= k)%nat -> row w' k = row w k).
Proof.
  intros ONE. induction us as [|u us IH]; intros j has w rest HF HL HH HW HG; cbn [length forP map concat].
  - exists has, w. split; [reflexivity|]. split; [exact HH|]. split; [exact HW|]. split; [|auto].
    intros i u E. destruct i; discriminate.
  - inversion HF as [|? ? H1 H2]; subst. cbn [length] in HL. rewrite <- app_assoc.
    assert (H0 : forall v, aset has 0 v = Ret (set1 has 0 v)).
    { intros v. apply (aset_one has 0). lia. }
    assert (L0 : forall v, length (set1 has 0 v) = 96%nat) by (intros; rewrite len_set1; lia).
    destruct u as [a|].
    + destruct (ONE a w j (concat (map (fun u => match u with None => [false] | Some a => true :: enc a end) us) ++ rest))
        as (w1 & E1 & W1 & R1 & R2); auto; try lia. { apply HG. lia. }
      rewrite <- app_comm_cons. rewrite bind_assoc, flag_run. rewrite H0. cbn [bind]. change (1 =? 0) with false. cbv iota.
      rewrite bind_assoc. rewrite Z.add_0_l. rewrite runA_bind, E1. cbn [bind].
      destruct (IH (S j) (set1 has 0 1) w1 rest) as (has' & w' & E & LH & W & R3 & R4); auto; try lia.
      { intros i Hi. rewrite R2 by lia. apply HG. lia. }
      rewrite E. exists has', w'. split; [reflexivity|]. split; [exact LH|]. split; [exact W|]. split.
      * intros [|i] u Eu; cbn [nth_error] in Eu.
        -- injection Eu as <-. rewrite Nat.add_0_r. rewrite R4 by (left; lia). exact R1.
        -- replace (j + S i)%nat with (S j + i)%nat by lia. rewrite (R3 i u Eu). rewrite R2 by lia. reflexivity.
      * intros k Hk. rewrite R4 by lia. apply R2. lia.
    + change ([false] ++ ?x) with (false :: x). rewrite bind_assoc.
      rewrite flag_run. rewrite H0. cbn [bind]. change (0 =? 0) with true. cbv iota. cbn [bind].
      destruct (IH (S j) (set1 has 0 0) w rest) as (has' & w' & E & LH & W & R3 & R4); auto; try lia.
      { intros i Hi. apply HG. lia. }
      rewrite E. exists has', w'. split; [reflexivity|]. split; [exact LH|]. split; [exact W|]. split.
      * intros [|i] u Eu; cbn [nth_error] in Eu.
        -- injection Eu as <-. rewrite Nat.add_0_r. rewrite R4 by (left; lia). reflexivity.
        -- replace (j + S i)%nat with (S j + i)%nat by lia. exact (R3 i u Eu).
      * intros k Hk. apply R4. lia.
Qed.

(** ** Absolute updates *)
Definition no_fix (x : fixs) : Prop :=
  x_az x = 0 /\ x_el x = 0 /\ x_rad x = 0 /\ x_gain x = 0 /\ x_sp x = 0.

(** The row after an absolute update of an object without height and depth spread. *)
Definition abs_row (o : obj) (r : list (option Z)) : list (option Z) :=
  match r with
  | [_; _; _; _; _; sh; sd; pr] => [Some (b_az o); Some (b_el o); Some (b_rad o); Some (b_gain o); Some (b_sw o); sh; sd; pr]
  | r => r
  end.

Lemma abs_one c x o w i rest : oc_uni c = 1 -> oc_dyn c = 0 -> no_fix x -> legal_obj o -> wlen w 96 -> (i < 96)%nat ->
  exists w', runA (single_abs c x w (Z.of_nat i)) (enc_absolute true false o ++ rest) = Done (w', rest) /\ wlen w' 96 /\
    row w' i = abs_row o (row w i) /\ forall k, k <> i -> row w' k = row w k.
Proof.
  intros Eu Ed (F1 & F2 & F3 & F4 & F5) (O1 & O2 & O3 & O4 & O5 & O6 & O7 & O8)
    ((La & Le & Lr & Lg) & (Lw & Lh & Ld & Lp)) Hi.
  unfold single_abs, enc_absolute. rewrite F1, F2, F3, F4, F5, Eu, Ed. cbn [Z.eqb Pos.eqb negb].
  rewrite <- !app_assoc. cbn [enc_spread spread_of].
  rewrite bind_assoc, (rd_signed_run 8) by (try change (2 ^ (8 - 1)) with 128; lia). rewrite aset_one by lia. cbn [bind].
  rewrite bind_assoc, (rd_signed_run 6) by (try change (2 ^ (6 - 1)) with 32; lia). rewrite aset_one by lia. cbn [bind].
  rewrite bind_assoc, (runA_rdb 4 4) by (auto; lia). rewrite aset_one by lia. cbn [bind].
  rewrite bind_assoc, (rd_signed_run 7) by (try change (2 ^ (7 - 1)) with 64; lia). rewrite aset_one by lia. cbn [bind].
  rewrite bind_assoc, (runA_rdb 7 7) by (auto; lia). rewrite aset_one by lia. cbn [bind app runA].
  eexists. split; [reflexivity|]. split; [|split].
  - unfold wlen. cbn [r_az r_el r_rad r_gain r_sw r_sh r_sd r_pri]. rewrite !len_set1 by lia. auto.
  - unfold row, abs_row. cbn [r_az r_el r_rad r_gain r_sw r_sh r_sd r_pri]. rewrite !nth_set1 by lia. reflexivity.
  - intros k Hk. unfold row. cbn [r_az r_el r_rad r_gain r_sw r_sh r_sd r_pri]. rewrite !nth_set1_neq by (auto; lia). reflexivity.
Qed.

(** ** Differential updates *)
Definition oplus (a : option Z) (d : option Z) : option Z := option_map (fun v => plus v d) a.
Definition diff_row (uni dyn : bool) (t : delta) (r : list (option Z)) : list (option Z) :=
  match r with
  | [az; el; rad; gain; sw; sh; sd; pr] =>
    [oplus az (t_az t); oplus el (t_el t); oplus rad (t_rad t); oplus gain (t_gain t); oplus sw (t_sw t);
     (if uni then sh else oplus sh (t_sh t)); (if uni then sd else oplus sd (t_sd t));
     (if dyn then oplus pr (t_pri t) else pr)]
  | r => r
  end.

(** Fields far from the limits of int. *)
Definition roomy (r : list (option Z)) : Prop :=
  Forall (fun o => match o with None => True | Some v => - 2 ^ 30 <= v <= 2 ^ 30 end) r.

Lemma pow_small n : 1 <= n <= 9 -> 2 ^ (n - 1) <= 256.
Proof. intros H. change 256 with (2 ^ 8). apply Z.pow_le_mono_r; lia. Qed.

Lemma diff_run {B} n d l i v (k : list Z -> prog B) rest :
  1 <= n <= 9 -> fits_diff n d -> (i < length l)%nat -> nth_error l i = Some v -> - 2 ^ 30 <= v <= 2 ^ 30 ->
  exists l', runA (bind (diff n l (Z.of_nat i)) k) (enc_diff n d ++ rest) = runA (k l') rest /\
    length l' = length l /\ nth_error l' i = Some (plus v d) /\ forall j, j <> i -> nth_error l' j = nth_error l j.
Proof.
  intros Hn Hd Hi Hv Hr. unfold diff, enc_diff. destruct d as [d|]; cbn [fits_diff plus] in *.
  - exists (set1 l i (v + d)). split; [|split; [apply len_set1; auto|split; [apply nth_set1; auto|intros; apply nth_set1_neq; auto]]].
    rewrite <- app_comm_cons, bind_assoc, flag_run. change (1 =? 0) with false. cbv iota.
    rewrite bind_assoc, rd_signed_run by (auto; lia). unfold acc.
    pose proof (aget_at l i 0 v) as EA. rewrite Nat.add_0_r in EA. change (Z.of_nat 0) with 0 in EA. rewrite Z.add_0_r in EA.
    rewrite EA by exact Hv. cbn [bind]. pose proof (pow_small n Hn). unfold addi.
    replace ((- 2 ^ 31 <=? v + d) && (v + d <? 2 ^ 31)) with true
      by (symmetry; apply andb_true_intro; split; [apply Z.leb_le|apply Z.ltb_lt]; lia).
    cbn [bind]. rewrite aset_one by auto. reflexivity.
  - exists l. split; [|auto].
    change ([false] ++ rest) with (false :: rest). rewrite bind_assoc, flag_run. reflexivity.
Qed.

Lemma diff_one c uni dyn x t w i rest : oc_uni c = flag uni -> oc_dyn c = flag dyn -> no_fix x -> legal_delta t ->
  wlen w 96 -> (i < 96)%nat -> roomy (row w i) ->
  exists w', runA (single_diff c x w (Z.of_nat i)) (enc_delta uni dyn t ++ rest) = Done (w', rest) /\ wlen w' 96 /\
    row w' i = diff_row uni dyn t (row w i) /\ forall k, k <> i -> row w' k = row w k.
Proof.
  intros Eu Ed (F1 & F2 & F3 & F4 & F5) (T0 & T1 & T2 & T3 & T4 & T5 & T6 & T7 & T8)
    ((La & Le & Lr & Lg) & (Lw & Lh & Ld & Lp)) Hi HR.
  assert (EX : forall (l : list Z), length l = 96%nat -> exists v, nth_error l i = Some v).
  { intros l Hl. destruct (nth_error l i) eqn:E; [eauto|]. apply nth_error_None in E. lia. }
  destruct (EX _ La) as (va & Va). destruct (EX _ Le) as (ve & Ve). destruct (EX _ Lr) as (vr & Vr).
  destruct (EX _ Lg) as (vg & Vg). destruct (EX _ Lw) as (vw & Vw). destruct (EX _ Lh) as (vh & Vh).
  destruct (EX _ Ld) as (vd & Vd). destruct (EX _ Lp) as (vp & Vp).
  unfold roomy, row in HR. rewrite Va, Ve, Vr, Vg, Vw, Vh, Vd, Vp in HR.
  inversion_clear HR as [|? ? Q1 HR1]. inversion_clear HR1 as [|? ? Q2 HR2]. inversion_clear HR2 as [|? ? Q3 HR3].
  inversion_clear HR3 as [|? ? Q4 HR4]. inversion_clear HR4 as [|? ? Q5 HR5]. inversion_clear HR5 as [|? ? Q6 HR6].
  inversion_clear HR6 as [|? ? Q7 HR7]. inversion_clear HR7 as [|? ? Q8 HR8].
  unfold single_diff, enc_delta. rewrite F1, F2, F3, F4, F5, Eu, Ed.
  change (0 =? 0) with true. cbv iota zeta. rewrite <- !app_assoc.
  rewrite (runA_rdb 3 3) by (auto; lia). replace (t_nb t - 2 + 2) with (t_nb t) by lia.
  set (nb := t_nb t) in *.
  assert (M7 : 1 <= Z.min 7 nb <= 9) by lia. assert (M5 : 1 <= Z.min 5 nb <= 9) by lia.
  assert (M8 : 1 <= Z.min 8 nb <= 9) by lia. assert (M6 : 1 <= Z.min 6 nb <= 9) by lia.
  assert (M4 : 1 <= Z.min 4 nb <= 9) by lia. assert (M9 : 1 <= nb <= 9) by lia.
  assert (DR : forall B n d l v (k : list Z -> prog B) rest, 1 <= n <= 9 -> fits_diff n d -> length l = 96%nat -> nth_error l i = Some v ->
     - 2 ^ 30 <= v <= 2 ^ 30 -> exists l', runA (bind (diff n l (Z.of_nat i)) k) (enc_diff n d ++ rest) = runA (k l') rest /\
    length l' = 96%nat /\ nth_error l' i = oplus (Some v) d /\ forall j, j <> i -> nth_error l' j = nth_error l j).
  { intros. destruct (diff_run n d l i v k rest0) as (l' & A1 & A2 & A3 & A4); auto; try lia.
    exists l'. repeat split; auto; congruence. }
  edestruct DR as (az & -> & Xa & Ya & Za); [exact M9|exact T1|exact La|exact Va|exact Q1|].
  edestruct DR as (el & -> & Xe & Ye & Ze); [exact M7|exact T2|exact Le|exact Ve|exact Q2|].
  edestruct DR as (rad & -> & Xr & Yr & Zr); [exact M5|exact T3|exact Lr|exact Vr|exact Q3|].
  edestruct DR as (gn & -> & Xg & Yg & Zg); [exact M8|exact T4|exact Lg|exact Vg|exact Q4|].
  assert (SP : exists sw sh sd, (forall B (k : list Z * list Z * list Z -> prog B) rest,
    runA (bind (if flag uni =? 0 then
         sw <- diff (Z.min 8 nb) (r_sw w) (Z.of_nat i) ;;
         sh <- diff (Z.min 6 nb) (r_sh w) (Z.of_nat i) ;;
         sd <- diff (Z.min 5 nb) (r_sd w) (Z.of_nat i) ;; Ret (sw, sh, sd)
       else sw <- diff (Z.min 8 nb) (r_sw w) (Z.of_nat i) ;; Ret (sw, r_sh w, r_sd w)) k)
     (enc_diff (Z.min 8 nb) (t_sw t) ++ (if uni then [] else enc_diff (Z.min 6 nb) (t_sh t) ++ enc_diff (Z.min 5 nb) (t_sd t)) ++ rest)
     = runA (k (sw, sh, sd)) rest) /\
    (length sw = 96%nat /\ nth_error sw i = oplus (Some vw) (t_sw t) /\ forall j, j <> i -> nth_error sw j = nth_error (r_sw w) j) /\
    (length sh = 96%nat /\ nth_error sh i = (if uni then Some vh else oplus (Some vh) (t_sh t)) /\ forall j, j <> i -> nth_error sh j = nth_error (r_sh w) j) /\
    (length sd = 96%nat /\ nth_error sd i = (if uni then Some vd else oplus (Some vd) (t_sd t)) /\ forall j, j <> i -> nth_error sd j = nth_error (r_sd w) j)).
  { assert (DQ : forall n d l v, 1 <= n <= 9 -> fits_diff n d -> length l = 96%nat -> nth_error l i = Some v ->
     - 2 ^ 30 <= v <= 2 ^ 30 -> exists l', (forall B (k : list Z -> prog B) rest, runA (bind (diff n l (Z.of_nat i)) k) (enc_diff n d ++ rest) = runA (k l') rest) /\
      (length l' = 96%nat /\ nth_error l' i = oplus (Some v) d /\ forall j, j <> i -> nth_error l' j = nth_error l j)).
    { clear -Hi. intros n d l v Hn Hd Hl Hv Hb. destruct d as [d|].
      - exists (set1 l i (v + d)). split.
        + intros. destruct (diff_run n (Some d) l i v k rest) as (l' & A1 & _); auto; try lia.
          unfold diff, enc_diff in *. rewrite <- app_comm_cons, bind_assoc, flag_run. change (1 =? 0) with false. cbv iota.
          cbn [fits_diff] in Hd. rewrite bind_assoc, rd_signed_run by (auto; lia). unfold acc.
          pose proof (aget_at l i 0 v) as EA. rewrite Nat.add_0_r in EA. change (Z.of_nat 0) with 0 in EA. rewrite Z.add_0_r in EA.
          rewrite EA by exact Hv. cbn [bind]. pose proof (pow_small n Hn). unfold addi.
          replace ((- 2 ^ 31 <=? v + d) && (v + d <? 2 ^ 31)) with true
            by (symmetry; apply andb_true_intro; split; [apply Z.leb_le|apply Z.ltb_lt]; lia).
          cbn [bind]. rewrite aset_one by lia. reflexivity.
        + rewrite len_set1, nth_set1 by lia. split; [exact Hl|]. split; [reflexivity|]. intros. apply nth_set1_neq; auto; lia.
      - exists l. split; [|auto]. intros. unfold diff, enc_diff.
        change ([false] ++ rest) with (false :: rest). rewrite bind_assoc, flag_run. reflexivity. }
    destruct (DQ _ _ _ _ M8 T5 Lw Vw Q5) as (sw & Ew & Hw).
    destruct uni; cbn [flag Z.eqb].
    - exists sw, (r_sh w), (r_sd w). split; [|auto 10]. intros. cbn [app]. rewrite bind_assoc, Ew. reflexivity.
    - destruct (DQ _ _ _ _ M6 T6 Lh Vh Q6) as (sh & Eh & Hh). destruct (DQ _ _ _ _ M5 T7 Ld Vd Q7) as (sd & Es & Hd).
      exists sw, sh, sd. split; [|auto]. intros. rewrite <- !app_assoc. rewrite !bind_assoc, Ew, bind_assoc, Eh, bind_assoc, Es. reflexivity. }
  destruct SP as (sw & sh & sd & ES & (Xw & Yw & Zw) & (Xh & Yh & Zh) & (Xd & Yd & Zd)).
  rewrite ES. cbv beta iota.
  destruct dyn; cbn [flag Z.eqb negb].
  - edestruct DR as (pr & -> & Xp & Yp & Zp); [exact M4|exact T8|exact Lp|exact Vp|exact Q8|].
    cbn [runA]. eexists. split; [reflexivity|]. split; [|split].
    + unfold wlen. cbn [r_az r_el r_rad r_gain r_sw r_sh r_sd r_pri]. auto 10.
    + unfold row, diff_row. cbn [r_az r_el r_rad r_gain r_sw r_sh r_sd r_pri].
      rewrite Va, Ve, Vr, Vg, Vw, Vh, Vd, Vp, Ya, Ye, Yr, Yg, Yw, Yh, Yd, Yp. reflexivity.
    + intros k Hk. unfold row. cbn [r_az r_el r_rad r_gain r_sw r_sh r_sd r_pri].
      rewrite Za, Ze, Zr, Zg, Zw, Zh, Zd, Zp by exact Hk. reflexivity.
  - cbn [bind app runA]. eexists. split; [reflexivity|]. split; [|split].
    + unfold wlen. cbn [r_az r_el r_rad r_gain r_sw r_sh r_sd r_pri]. auto 10.
    + unfold row, diff_row. cbn [r_az r_el r_rad r_gain r_sw r_sh r_sd r_pri].
      rewrite Va, Ve, Vr, Vg, Vw, Vh, Vd, Vp, Ya, Ye, Yr, Yg, Yw, Yh, Yd. reflexivity.
    + intros k Hk. unfold row. cbn [r_az r_el r_rad r_gain r_sw r_sh r_sd r_pri].
      rewrite Za, Ze, Zr, Zg, Zw, Zh, Zd by exact Hk. reflexivity.
Qed.

(** ** Payloads with one dynamic frame *)
Lemma payload_dynamic {A} pw c uni dyn (ab : bool) (enc : A -> list bool) (ok : A -> Prop)
  (step : A -> list (option Z) -> list (option Z)) (good : list (option Z) -> Prop) us st S rest :
  (forall a w i rest, ok a -> wlen w 96 -> (i < 96)%nat -> good (row w i) ->
    exists w', runA (if (if ab then 1 else 0) =? 0 then single_diff c (o_fix st) w (Z.of_nat i)
                     else single_abs c (o_fix st) w (Z.of_nat i)) (enc a ++ rest) = Done (w', rest) /\ wlen w' 96 /\
      row w' i = step a (row w i) /\ forall k, k <> i -> row w' k = row w k) ->
  oc_ld c <> 0 -> oc_fl c = 1024 -> oc_uni c = flag uni ->
  o_n st = Z.of_nat (length us) -> (length us <= 24)%nat -> sized S st -> S + 1024 <= 2 ^ 31 -> length (o_has st) = 96%nat ->
  Forall (fun u => match u with None => True | Some a => ok a end) us ->
  (forall i, (i < 96)%nat -> good (row (o_raw st) i)) ->
  exists st', runA (oam_payload pw c 1024 st) (false :: enc_dynamic ab enc us ++ rest) = Done ((0, st'), rest) /\
    (forall i u, nth_error us i = Some u -> row (o_raw st') i = after step u (row (o_raw st) i)) /\
    (forall i o, (i < length us)%nat -> legal_obj o -> object_at uni dyn (o_raw st') i o -> placed_at pw uni dyn (o_dsc st') i o) /\
    (sized (S + 1024) st' /\ length (o_has st') = 96%nat /\ o_n st' = o_n st /\
     forall i v, (i < length us)%nat -> nth_error (o_smp st) i = Some v -> nth_error (o_smp st') i = Some (v + 1024)).
Proof.
  intros ONE El Ef Eu En Hn HS HB HH HF HG. unfold oam_payload.
  cbn [avail bind runA]. rewrite Ef. change (1024 =? 256) with false. change (1024 =? 512) with false.
  change (1024 =? 1024) with true. change (1024 <? 1024) with false. cbn [orb negb]. cbv iota.
  replace (Z.of_nat (length (false :: enc_dynamic ab enc us ++ rest)) <=? 0) with false
    by (symmetry; apply Z.leb_gt; cbn [length]; lia).
  unfold obj_md_dec. replace (oc_ld c =? 0) with false by (symmetry; apply Z.eqb_neq; exact El). cbn [negb].
  unfold low_delay_dec. cbn [s_sub o_n o_sub o_pres o_has o_smp o_raw o_dsc o_fix]. cbv zeta. change ((1 - 1) * o_n st) with 0.
  rewrite En. rewrite bind_assoc, flag_run. change (0 =? 0) with true. cbv iota.
  unfold enc_dynamic. rewrite <- app_comm_cons. unfold dyn_dec. rewrite !bind_assoc, flag_run. rewrite Nat2Z.id.
  assert (W := HS). destruct W as (W1 & W2 & W3).
  destruct (dyn_loop (fun w i => if (if ab then 1 else 0) =? 0 then single_diff c (o_fix st) w i else single_abs c (o_fix st) w i)
     enc ok step good ONE us 0 (o_has st) (o_raw st) rest) as (has' & w' & E & LH & W' & R1 & R2); auto; try lia.
  { intros i Hi. apply HG. lia. }
  rewrite runA_bind, E. cbn [bind].
  destruct (tail_run pw c uni dyn w' (length us) st S (Z.of_nat (length us)) 1 has' (o_fix st))
    as (st' & E' & T1 & T2 & T3 & T4 & T5 & T6); auto; try lia.
  rewrite Nat2Z.id in E'. rewrite Ef in T2, T5.
  exists st'. split.
  - match goal with |- runA ?p rest = _ => enough (X : p = Ret (0, st')) by (rewrite X; reflexivity) end.
    transitivity (bind (Ret st') (fun s => Ret (0, s))); [|reflexivity]. rewrite <- E'. reflexivity.
  - split; [|split; [rewrite T1; exact T6|]].
    + intros i u Eu'. rewrite T1. exact (R1 i u Eu').
    + split; [exact T2|]. split; [congruence|]. split; [congruence|]. exact T5.
Qed.

(** An absolute frame, for configurations with uniform spread and without priorities. *)
Lemma payload_absolute pw c us st rest :
  oc_ld c <> 0 -> oc_fl c = 1024 -> oc_uni c = 1 -> oc_dyn c = 0 -> no_fix (o_fix st) ->
  o_n st = Z.of_nat (length us) -> (length us <= 24)%nat -> sized (2 ^ 31 - 1024) st -> length (o_has st) = 96%nat ->
  Forall (fun u => match u with None => True | Some o => legal_obj o end) us ->
  exists st', runA (oam_payload pw c 1024 st) (false :: enc_dynamic true (enc_absolute true false) us ++ rest) = Done ((0, st'), rest) /\
    (forall i o, nth_error us i = Some (Some o) ->
       object_at true false (o_raw st') i o /\ placed_at pw true false (o_dsc st') i o) /\
    (forall i, nth_error us i = Some None -> row (o_raw st') i = row (o_raw st) i).
Proof.
  intros El Ef Eu Ed HX En Hn HS HH HF.
  destruct (payload_dynamic pw c true false true (enc_absolute true false) legal_obj abs_row (fun _ => True) us st (2 ^ 31 - 1024) rest)
    as (st' & E & R & P & _); auto; try lia.
  { intros a w i r Ha Hw Hi _. change (1 =? 0) with false. cbv iota. apply abs_one; auto. }
  exists st'. split; [exact E|]. split.
  - intros i o Eo. assert (Hi : (i < length us)%nat) by (apply nth_error_Some; congruence).
    assert (LO : legal_obj o). { apply nth_error_In in Eo. rewrite Forall_forall in HF. exact (HF _ Eo). }
    assert (OA : object_at true false (o_raw st') i o).
    { specialize (R i _ Eo). cbn [after] in R. unfold row, abs_row in R. injection R as R1 R2 R3 R4 R5 _ _ _.
      unfold object_at. repeat (split; [assumption|]). split; discriminate. }
    split; [exact OA|]. apply P; auto.
  - intros i Ei. apply (R i None Ei).
Qed.

(** A differential frame. *)
Definition moved (uni dyn : bool) (t : delta) (o : obj) : obj :=
  mkObj (plus (b_az o) (t_az t)) (plus (b_el o) (t_el t)) (plus (b_rad o) (t_rad t)) (plus (b_gain o) (t_gain t))
    (plus (b_sw o) (t_sw t)) (if uni then b_sh o else plus (b_sh o) (t_sh t))
    (if uni then b_sd o else plus (b_sd o) (t_sd t)) (if dyn then plus (b_pri o) (t_pri t) else b_pri o).

Lemma payload_diff pw c uni dyn us st rest :
  oc_ld c <> 0 -> oc_fl c = 1024 -> oc_uni c = flag uni -> oc_dyn c = flag dyn -> no_fix (o_fix st) ->
  o_n st = Z.of_nat (length us) -> (length us <= 24)%nat -> sized (2 ^ 31 - 1024) st -> length (o_has st) = 96%nat ->
  Forall (fun u => match u with None => True | Some t => legal_delta t end) us ->
  (forall i, (i < 96)%nat -> roomy (row (o_raw st) i)) ->
  exists st', runA (oam_payload pw c 1024 st) (false :: enc_dynamic false (enc_delta uni dyn) us ++ rest) = Done ((0, st'), rest) /\
    (forall i t o, nth_error us i = Some (Some t) -> object_at uni dyn (o_raw st) i o ->
       object_at uni dyn (o_raw st') i (moved uni dyn t o) /\
       (legal_obj (moved uni dyn t o) -> placed_at pw uni dyn (o_dsc st') i (moved uni dyn t o))) /\
    (forall i, nth_error us i = Some None -> row (o_raw st') i = row (o_raw st) i).
Proof.
  intros El Ef Eu Ed HX En Hn HS HH HF HR.
  destruct (payload_dynamic pw c uni dyn false (enc_delta uni dyn) legal_delta (diff_row uni dyn) roomy us st (2 ^ 31 - 1024) rest)
    as (st' & E & R & P & _); auto; try lia.
  { intros a w i r Ha Hw Hi Hr. change (0 =? 0) with true. cbv iota. apply diff_one; auto. }
  exists st'. split; [exact E|]. split.
  - intros i t o Et Ho. assert (Hi : (i < length us)%nat) by (apply nth_error_Some; congruence).
    assert (OA : object_at uni dyn (o_raw st') i (moved uni dyn t o)).
    { specialize (R i _ Et). cbn [after] in R. unfold row, diff_row in R. injection R as R1 R2 R3 R4 R5 R6 R7 R8.
      destruct Ho as (V1 & V2 & V3 & V4 & V5 & V6 & V7).
      rewrite V1 in R1. rewrite V2 in R2. rewrite V3 in R3. rewrite V4 in R4. rewrite V5 in R5.
      unfold object_at, moved. cbn [b_az b_el b_rad b_gain b_sw b_sh b_sd b_pri].
      split; [exact R1|]. split; [exact R2|]. split; [exact R3|]. split; [exact R4|]. split; [exact R5|]. split.
      - intros ->. destruct (V6 eq_refl) as (V8 & V9). rewrite V8 in R6. rewrite V9 in R7. auto.
      - intros ->. rewrite (V7 eq_refl) in R8. exact R8. }
    split; [exact OA|]. intros LO. apply P; auto.
  - intros i Ei. apply (R i None Ei).
Qed.
