(** * Lem_ConfigFull: round trip of the extension elements' configurations *)

From Coq Require Import ZArith List Lia Bool.
From Verif Require Import Bits BitBuf BitWrite Prog Asi Escape Wp Wlp Loops Frame Cicp Hoa Mhas Config Leaf Spec_Config
  Spec_Asi Lem_MhasProps Lem_Config Lem_ConfigSafe Lem_Hoa Lem_HoaMat Lem_ConfigMem Lem_Dmx Lem_Scan Lem_AsiRT
  Lem_ConfigRT Spec_ConfigFull.
Import ListNotations.
Open Scope Z_scope.

(** A run of flags into a table. *)
Lemma flags_run l (t : list Z) rest : (length l <= length t)%nat ->
  runA (forP (length l) 0 (fun i t => v <- rd 1 ;; aset t (Z.of_nat i) v) t) (flags l ++ rest)
  = Done (map b2z l ++ skipn (length l) t, rest).
Proof.
  intros L. unfold flags.
  rewrite (forP_fill (fun i t => v <- rd 1 ;; aset t (Z.of_nat i) v) flag b2z (fun _ => True) (length t)); auto.
  - intros i arr x r Hi HL _. rewrite runA_flag. unfold aset. rewrite Nat2Z.id.
    replace ((0 <=? Z.of_nat i) && (Z.of_nat i <? Z.of_nat (length arr))) with true; [reflexivity|].
    symmetry. apply andb_true_intro. split; lia.
  - apply Forall_forall. auto.
Qed.

Lemma firstn_map_app {A} (l t : list A) n : length l = n -> firstn n (l ++ t) = l.
Proof. intros <-. rewrite firstn_app, firstn_all, Nat.sub_diag. cbn. apply app_nil_r. Qed.

Lemma skipn_add {A} (l : list A) a b : skipn (a + b) l = skipn b (skipn a l).
Proof. revert l. induction a as [|a IH]; intros l; [reflexivity|]. destruct l as [|x l]; cbn; [now rewrite skipn_nil|]. apply IH. Qed.

Lemma rel_run l : forall i (t : list Z) a rest, (i + length l <= length t)%nat ->
  runA (forP (length l) i (fun i '(l, a) =>
              v <- rd 1 ;; l' <- aset l (Z.of_nat i) v ;; Ret (l', Z.lor a v)) (t, b2z a)) (flags l ++ rest)
  = Done ((firstn i t ++ map b2z l ++ skipn (i + length l) t, b2z (a || existsb (fun b => b) l)), rest).
Proof.
  induction l as [|b l IH]; intros i t a rest L; cbn [length forP].
  - cbn. rewrite Nat.add_0_r, firstn_skipn, orb_false_r. reflexivity.
  - cbn [length] in L. change (flags (b :: l)) with (flag b ++ flags l). rewrite <- app_assoc.
    rewrite runA_bind. rewrite runA_flag. rewrite runA_aset by lia. cbn [runA]. rewrite Nat2Z.id.
    replace (Z.lor (b2z a) (b2z b)) with (b2z (a || b)) by (destruct a, b; reflexivity).
    rewrite IH by (rewrite aset_len; lia). f_equal. f_equal. cbn [map existsb]. rewrite orb_assoc. f_equal.
    rewrite firstn_aset by lia. rewrite <- app_assoc. cbn [app]. f_equal. f_equal. f_equal.
    rewrite skipn_add. rewrite skipn_app, (skipn_all2 (firstn i t)) by (rewrite firstn_length; lia). cbn [app]. rewrite firstn_length.
    replace (S i - Nat.min i (length t))%nat with 1%nat by lia.
    change (skipn 1 (b2z b :: skipn (S i) t)) with (skipn (S i) t).
    rewrite <- skipn_add. f_equal. lia.
Qed.

Lemma obj_run c nobj o rest : length (oc_rel c) = 24%nat -> 0 <= nobj <= 24 -> valid_obj nobj o ->
  exists c', runA (obj_md_cfg c 1024 nobj) (enc_obj o ++ rest) = Done ((0, c'), rest) /\ holds_obj o c' /\ length (oc_rel c') = 24%nat.
Proof.
  intros L N (V1 & V2). unfold obj_md_cfg, enc_obj. cbv zeta. rewrite <- !app_assoc. rewrite runA_flag.
  set (c1 := s_oc_ccfl _ _).
  assert (K : forall fl r, fl = match ob_len o with None => 1024 | Some n => n end ->
    exists c', runA (
      sp <- rd 1 ;;
      c <- (if negb (sp =? 0) then
          ' (rel, any) <- forP (Z.to_nat nobj) 0 (fun i '(l, a) =>
              v <- rd 1 ;; l' <- aset l (Z.of_nat i) v ;; Ret (l', Z.lor a v)) (oc_rel (s_oc_fl c1 fl), 0) ;;
          Ret (s_oc_relp (s_oc_rel (s_oc_fl c1 fl) rel) any)
        else Ret (s_oc_fl c1 fl)) ;;
      dyn <- rd 1 ;;
      uni <- rd 1 ;;
      Ret (0, s_oc_uni (s_oc_dyn c dyn) uni)) (enc_opt flags (ob_rel o) ++ flag (ob_dyn o) ++ flag (ob_uni o) ++ r) = Done ((0, c'), r)
      /\ holds_obj o c' /\ length (oc_rel c') = 24%nat).
  { intros fl r E. unfold enc_opt. destruct (ob_rel o) as [l|] eqn:ER; rewrite <- ?app_assoc, runA_flag; cbn [b2z].
    - change (negb (1 =? 0)) with true. cbv iota. rewrite bind_assoc, runA_bind.
      replace (Z.to_nat nobj) with (length l) by lia.
      change (0 : Z) with (b2z false) at 1.
      rewrite (rel_run l 0 _ false) by (cbn; lia). cbn [bind firstn app]. cbv beta iota.
      rewrite runA_flag, runA_flag. cbn [runA]. eexists. split; [reflexivity|]. unfold holds_obj. rewrite ER.
      cbn -[skipn]. split; [|rewrite app_length, map_length, skipn_length; lia].
      repeat split; auto. apply firstn_map_app. apply map_length.
    - change (negb (0 =? 0)) with false. cbv iota. cbn [bind].
      rewrite runA_flag, runA_flag. cbn [runA]. eexists. split; [reflexivity|]. unfold holds_obj. rewrite ER.
      cbn. repeat split; auto. }
  destruct (ob_len o) as [n|] eqn:EL; rewrite <- ?app_assoc.
  - rewrite runA_flag. cbn [b2z]. change (negb (0 =? 0)) with false. cbv iota.
    rewrite bind_assoc, (runA_rdb 6 6) by (try lia; destruct V1 as [->|[->| ->]]; cbn; lia).
    assert (E : (n / 64 - 1 + 1) * 64 = n) by (destruct V1 as [->|[->| ->]]; reflexivity). rewrite E.
    assert (E2 : (n <=? 1024) && ((n =? 256) || (n =? 512) || (n =? 1024)) = true) by (destruct V1 as [->|[->| ->]]; reflexivity).
    rewrite E2. cbn [bind]. change (negb (0 =? 0)) with false. cbv iota. apply (K n rest). reflexivity.
  - rewrite runA_flag. cbn [b2z]. change (negb (1 =? 0)) with true. cbv iota. cbn [bind].
    change (negb (0 =? 0)) with false. cbv iota. apply (K 1024 rest). reflexivity.
Qed.

Lemma prod_run p0 no nc p rest : length (pr_obj p0) = 32%nat -> length (pr_head p0) = 32%nat -> no <= 32 -> nc <= 32 ->
  valid_prod no nc p ->
  exists p', runA (prod_config p0 no nc) (enc_prod p ++ rest) = Done (p', rest) /\ holds_prod p p' /\
    length (pr_obj p') = 32%nat /\ length (pr_head p') = 32%nat.
Proof.
  intros L1 L2 N1 N2 (V1 & V2 & V3). unfold prod_config, enc_prod. rewrite <- !app_assoc.
  assert (K : forall h d, h = b2z (match pd_dist p with None => false | _ => true end) -> d = match pd_dist p with None => 57 | Some d => d end ->
    exists p', runA (o <- forP (Z.to_nat no) 0 (fun i l => v <- rd 1 ;; aset l (Z.of_nat i) v) (pr_obj p0) ;;
       c <- forP (Z.to_nat nc) 0 (fun i l => v <- rd 1 ;; aset l (Z.of_nat i) v) (pr_head p0) ;;
       Ret (mkPr h d o c)) (flags (pd_obj p) ++ flags (pd_head p) ++ rest) = Done (p', rest) /\ holds_prod p p' /\
    length (pr_obj p') = 32%nat /\ length (pr_head p') = 32%nat).
  { intros h d Eh Ed. rewrite runA_bind. replace (Z.to_nat no) with (length (pd_obj p)) by lia.
    rewrite flags_run by lia. rewrite runA_bind. replace (Z.to_nat nc) with (length (pd_head p)) by lia.
    rewrite flags_run by lia. cbn [runA]. eexists. split; [reflexivity|]. unfold holds_prod. cbn -[skipn].
    rewrite !firstn_map_app by apply map_length. rewrite !app_length, !map_length, !skipn_length. repeat split; auto; lia. }
  unfold enc_opt. destruct (pd_dist p) as [d|] eqn:ED; rewrite <- ?app_assoc, runA_flag; cbn [b2z].
  - change (1 =? 0) with false. cbv iota. rewrite (runA_rdb 7 7) by (auto; lia). apply K; auto.
  - change (0 =? 0) with true. cbv iota. cbn [bind]. apply K; auto.
Qed.

(** ** Enhanced object metadata *)
Definition ebody (ce : Z) := (fun (i : nat) '(div, az, pre, nd, nd0, nn) =>
      h <- rd 1 ;;
      div' <- aset div (Z.of_nat i) h ;;
      ' (az', nd', nd0', nn') <-
        (if h =? 0 then Ret (az, nd, nd0, nn + 1)
         else a <- rd 6 ;; az' <- aset az (Z.of_nat i) a ;;
           Ret (az', nd + 1, (if 0 <? a then nd0 + 1 else nd0), nn)) ;;
      pre' <- (if ce =? 0 then v <- rd 1 ;; aset pre (Z.of_nat i) v else Ret pre) ;;
      Ret (div', az', pre', nd', nd0', nn')).

Lemma count_cons {A} (f : A -> bool) x l : count f (x :: l) = (if f x then 1 else 0) + count f l.
Proof. unfold count. cbn [filter]. destruct (f x); cbn [length]; lia. Qed.

Lemma ebody_run common xs : Forall (fun x => match fst x with None => True | Some a => fits 6 a end) xs ->
  forall i (div az pre : list Z) nd nd0 nn rest, length div = 24%nat -> length az = 24%nat -> length pre = 24%nat -> (i + length xs <= 24)%nat ->
  exists div' az' pre', runA (forP (length xs) i (ebody (b2z common)) (div, az, pre, nd, nd0, nn)) (concat (map (enc_enh_obj common) xs) ++ rest)
    = Done ((div', az', pre', nd + count has_div xs, nd0 + count wide_div xs, nn + count (fun x => negb (has_div x)) xs), rest) /\
    length div' = 24%nat /\ length az' = 24%nat /\ length pre' = 24%nat /\
    (forall j, (j < i)%nat -> nth_error div' j = nth_error div j /\ nth_error az' j = nth_error az j /\ nth_error pre' j = nth_error pre j) /\
    (forall j x, nth_error xs j = Some x -> nth_error div' (i + j) = Some (b2z (has_div x)) /\
       (forall a, fst x = Some a -> nth_error az' (i + j) = Some a) /\ 
       (common = false -> nth_error pre' (i + j) = Some (b2z (snd x)))) /\
    (common = true -> pre' = pre).
Proof.
  induction 1 as [|x xs Hx Hxs IH]; intros i div az pre nd nd0 nn rest L1 L2 L3 Hi; cbn [length forP map concat].
  - exists div, az, pre. unfold count. cbn [filter length]. rewrite !Z.add_0_r. repeat split; auto; destruct j; discriminate.
  - cbn [length] in Hi. rewrite runA_bind. destruct x as [o b]. unfold enc_enh_obj at 1. cbn [fst snd] in *. rewrite <- !app_assoc.
    unfold ebody at 1. unfold enc_opt.
    set (az1 := match o with Some a => firstn i az ++ a :: skipn (S i) az | None => az end).
    set (div1 := firstn i div ++ b2z (has_div (o, b)) :: skipn (S i) div).
    set (pre1 := if common then pre else firstn i pre ++ b2z b :: skipn (S i) pre).
    assert (K : forall nd' nd0' nn' r, nd' = nd + (if has_div (o, b) then 1 else 0) -> nd0' = nd0 + (if wide_div (o, b) then 1 else 0) ->
       nn' = nn + (if negb (has_div (o, b)) then 1 else 0) ->
       runA (pre' <- (if b2z common =? 0 then v <- rd 1 ;; aset pre (Z.of_nat i) v else Ret pre) ;;
             Ret (div1, az1, pre', nd', nd0', nn')) ((if common then [] else flag b) ++ r)
       = Done ((div1, az1, pre1, nd + (if has_div (o, b) then 1 else 0), nd0 + (if wide_div (o, b) then 1 else 0),
           nn + (if negb (has_div (o, b)) then 1 else 0)), r)).
    { intros nd' nd0' nn' r -> -> ->. unfold pre1. destruct common; cbn [b2z].
      - change (1 =? 0) with false. reflexivity.
      - change (0 =? 0) with true. cbv iota. rewrite bind_assoc, runA_flag, runA_aset by lia. rewrite Nat2Z.id. reflexivity. }
    assert (L1' : length div1 = 24%nat) by (unfold div1; rewrite aset_len; lia).
    assert (L2' : length az1 = 24%nat) by (unfold az1; destruct o; [rewrite aset_len|]; lia).
    assert (L3' : length pre1 = 24%nat) by (unfold pre1; destruct common; [|rewrite aset_len]; lia).
    assert (E : forall r, runA (let '(div, az, pre, nd, nd0, nn) := (div, az, pre, nd, nd0, nn) in
      h <- rd 1 ;;
      div' <- aset div (Z.of_nat i) h ;;
      ' (az', nd', nd0', nn') <-
        (if h =? 0 then Ret (az, nd, nd0, nn + 1)
         else a <- rd 6 ;; az' <- aset az (Z.of_nat i) a ;;
           Ret (az', nd + 1, (if 0 <? a then nd0 + 1 else nd0), nn)) ;;
      pre' <- (if b2z common =? 0 then v <- rd 1 ;; aset pre (Z.of_nat i) v else Ret pre) ;;
      Ret (div', az', pre', nd', nd0', nn')) (match o with None => flag false | Some a => flag true ++ bits_of 6 a end ++ (if common then [] else flag b) ++ r)
      = Done ((div1, az1, pre1, nd + (if has_div (o, b) then 1 else 0), nd0 + (if wide_div (o, b) then 1 else 0),
           nn + (if negb (has_div (o, b)) then 1 else 0)), r)).
    { intros r. destruct o as [a|]; rewrite <- ?app_assoc, runA_flag, runA_aset by lia; rewrite Nat2Z.id; cbn [b2z].
      - change (1 =? 0) with false. cbv iota. rewrite bind_assoc, (runA_rdb 6 6) by (auto; lia).
        rewrite bind_assoc, runA_aset by lia. rewrite Nat2Z.id. cbn [bind]. apply K; [reflexivity| |cbn; lia].
        unfold wide_div. cbn [fst]. destruct (0 <? a); lia.
      - change (0 =? 0) with true. cbv iota. cbn [bind]. apply K; cbn; lia. }
    rewrite E. destruct (IH (S i) div1 az1 pre1 (nd + (if has_div (o, b) then 1 else 0)) (nd0 + (if wide_div (o, b) then 1 else 0))
           (nn + (if negb (has_div (o, b)) then 1 else 0)) rest L1' L2' L3' ltac:(lia)) as (d2 & a2 & p2 & E2 & Q1 & Q2 & Q3 & Q4 & Q5 & Q6).
    exists d2, a2, p2. rewrite E2. rewrite !count_cons, !Z.add_assoc. split; [reflexivity|].
    repeat split; auto.
    + destruct (Q4 j ltac:(lia)) as (R & _). rewrite R. unfold div1. apply nth_aset_neq; lia.
    + destruct (Q4 j ltac:(lia)) as (_ & R & _). rewrite R. unfold az1. destruct o; [|reflexivity]. apply nth_aset_neq; lia.
    + destruct (Q4 j ltac:(lia)) as (_ & _ & R). rewrite R. unfold pre1. destruct common; [reflexivity|]. apply nth_aset_neq; lia.
    + destruct j as [|j]; cbn [nth_error] in H.
      * injection H as <-. rewrite Nat.add_0_r. destruct (Q4 i ltac:(lia)) as (R & _). rewrite R. unfold div1. apply nth_aset_eq; lia.
      * replace (i + S j)%nat with (S i + j)%nat by lia. apply Q5; auto.
    + destruct j as [|j]; cbn [nth_error] in H.
      * injection H as <-. cbn [fst]. intros a ->. rewrite Nat.add_0_r. destruct (Q4 i ltac:(lia)) as (_ & R & _). rewrite R. unfold az1. apply nth_aset_eq; lia.
      * replace (i + S j)%nat with (S i + j)%nat by lia. apply (Q5 _ _ H).
    + destruct j as [|j]; cbn [nth_error] in H.
      * injection H as <-. cbn [snd]. intros ->. rewrite Nat.add_0_r. destruct (Q4 i ltac:(lia)) as (_ & _ & R). rewrite R. unfold pre1. apply nth_aset_eq; lia.
      * replace (i + S j)%nat with (S i + j)%nat by lia. apply (Q5 _ _ H).
    + intros HC. rewrite (Q6 HC). unfold pre1. rewrite HC. reflexivity.
Qed.

Lemma nth_error_repeat' {A} (v : A) n i : (i < n)%nat -> nth_error (repeat v n) i = Some v.
Proof. revert i. induction n as [|n IH]; intros i H; [lia|]. destruct i; [reflexivity|]. cbn. apply IH. lia. Qed.

Lemma enh_run c nobj e rest : length (en_div c) = 24%nat -> length (en_az c) = 24%nat -> length (en_pre c) = 24%nat ->
  0 <= nobj <= 24 -> valid_enh nobj e ->
  exists c', runA (enh_md_config c nobj) (enc_enh e ++ rest) = Done ((0, c'), rest) /\ holds_enh e c' /\
    length (en_div c') = 24%nat /\ length (en_az c') = 24%nat /\ length (en_pre c') = 24%nat.
Proof.
  intros L1 L2 L3 N (V1 & V2 & V3 & V4 & V5). unfold enh_md_config, enc_enh. rewrite <- !app_assoc.
  set (K1 := forall df cd r, df = b2z (match eh_diff e with None => false | _ => true end) -> (forall b, eh_diff e = Some b -> cd = b2z b) -> r = rest ->
    exists c', runA (
  ex <- rd 1 ;;
  ' (ce, pre) <-
    (if ex =? 0 then Ret (0, en_pre c)
     else b <- rd 1 ;;
       if b =? 0 then Ret (b, en_pre c)
       else v <- rd 1 ;; Ret (b, repeat v (length (en_pre c)))) ;;
  cl <- rd 1 ;;
  th <- (if cl =? 0 then Ret (en_thr c) else rd 7) ;;
  ' (div, az, pre, nd, nd0, nn) <-
    forP (Z.to_nat nobj) 0 (ebody ce) (en_div c, en_az c, pre, 0, 0, 0) ;;
  let c' := mkEn df cd ex ce cl th div az pre nd in
  if 24 <? nd * 2 + nobj then Ret (E_OAM_NUM, c') else
  if 16 <? nn + 3 * nd0 then Ret (E_OAM_NUM, c') else Ret (0, c'))
   (enc_opt (enc_opt flag) (eh_exc e) ++ enc_opt (bits_of 7) (eh_close e) ++
     concat (map (enc_enh_obj (eh_common e)) (eh_objs e)) ++ r) = Done ((0, c'), r) /\ holds_enh e c' /\
    length (en_div c') = 24%nat /\ length (en_az c') = 24%nat /\ length (en_pre c') = 24%nat).
  assert (KK : K1).
  { unfold K1. intros df cd r Edf Ecd ->.
    assert (K2 : forall ex pre, ex = b2z (match eh_exc e with None => false | _ => true end) -> length pre = 24%nat ->
       (forall b, eh_exc e = Some (Some b) -> pre = repeat (b2z b) 24) ->
    exists c', runA (
  cl <- rd 1 ;;
  th <- (if cl =? 0 then Ret (en_thr c) else rd 7) ;;
  ' (div, az, pre, nd, nd0, nn) <-
    forP (Z.to_nat nobj) 0 (ebody (b2z (eh_common e))) (en_div c, en_az c, pre, 0, 0, 0) ;;
  let c' := mkEn df cd ex (b2z (eh_common e)) cl th div az pre nd in
  if 24 <? nd * 2 + nobj then Ret (E_OAM_NUM, c') else
  if 16 <? nn + 3 * nd0 then Ret (E_OAM_NUM, c') else Ret (0, c'))
   (enc_opt (bits_of 7) (eh_close e) ++
     concat (map (enc_enh_obj (eh_common e)) (eh_objs e)) ++ rest) = Done ((0, c'), rest) /\ holds_enh e c' /\
    length (en_div c') = 24%nat /\ length (en_az c') = 24%nat /\ length (en_pre c') = 24%nat).
    { intros ex pre Eex Lp Hp.
      destruct (ebody_run (eh_common e) (eh_objs e) V3 0 (en_div c) (en_az c) pre 0 0 0 rest L1 L2 Lp ltac:(lia))
        as (d2 & a2 & p2 & E2 & Q1 & Q2 & Q3 & _ & Q5 & Q6).
      assert (K3 : forall cl th, cl = b2z (match eh_close e with None => false | _ => true end) -> (forall t, eh_close e = Some t -> th = t) ->
         exists c', runA (
  ' (div, az, pre, nd, nd0, nn) <-
    forP (Z.to_nat nobj) 0 (ebody (b2z (eh_common e))) (en_div c, en_az c, pre, 0, 0, 0) ;;
  let c' := mkEn df cd ex (b2z (eh_common e)) cl th div az pre nd in
  if 24 <? nd * 2 + nobj then Ret (E_OAM_NUM, c') else
  if 16 <? nn + 3 * nd0 then Ret (E_OAM_NUM, c') else Ret (0, c'))
   (concat (map (enc_enh_obj (eh_common e)) (eh_objs e)) ++ rest) = Done ((0, c'), rest) /\ holds_enh e c' /\
    length (en_div c') = 24%nat /\ length (en_az c') = 24%nat /\ length (en_pre c') = 24%nat).
      { intros cl th Ecl Eth. rewrite runA_bind. replace (Z.to_nat nobj) with (length (eh_objs e)) by lia. rewrite E2.
        cbv beta iota zeta.
        destruct (Z.ltb_spec 24 ((0 + count has_div (eh_objs e)) * 2 + nobj)); [lia|].
        destruct (Z.ltb_spec 16 (0 + count (fun x => negb (has_div x)) (eh_objs e) + 3 * (0 + count wide_div (eh_objs e)))); [lia|].
        cbn [runA]. eexists. split; [reflexivity|]. unfold holds_enh. cbn [en_diff en_cdiff en_exc en_cexc en_close en_thr en_ndiv en_div en_az en_pre].
        split; [|auto]. repeat (split; [assumption || reflexivity|]).
        intros i x Hx. destruct (Q5 i x Hx) as (R1 & R2 & R3). cbn [Nat.add] in *. split; [exact R1|]. split; [exact R2|].
        unfold eh_common in *. destruct (eh_exc e) as [[b|]|] eqn:EE; [|auto|auto].
        rewrite Q6 by reflexivity. rewrite (Hp b eq_refl). apply nth_error_repeat'.
        assert (i < length (eh_objs e))%nat by (apply nth_error_Some; congruence). lia. }
      unfold enc_opt. destruct (eh_close e) as [t|] eqn:ET; rewrite <- ?app_assoc, runA_flag; cbn [b2z].
      - change (1 =? 0) with false. cbv iota. rewrite (runA_rdb 7 7) by (auto; lia). apply K3; [reflexivity|congruence].
      - change (0 =? 0) with true. cbv iota. cbn [bind]. apply K3; [reflexivity|congruence]. }
    unfold enc_opt at 1 2. unfold eh_common in *. destruct (eh_exc e) as [[b|]|] eqn:EE; rewrite <- ?app_assoc, runA_flag; cbn [b2z].
    - change (1 =? 0) with false. cbv iota. rewrite bind_assoc, runA_flag. cbn [b2z]. change (1 =? 0) with false. cbv iota.
      rewrite bind_assoc, runA_flag. cbn [bind]. apply K2; [reflexivity| |].
      + rewrite repeat_length. exact L3.
      + intros b' X. injection X as <-. rewrite L3. reflexivity.
    - change (1 =? 0) with false. cbv iota. rewrite bind_assoc, runA_flag. cbn [b2z]. change (0 =? 0) with true. cbv iota. cbn [bind].
      apply K2; [reflexivity|exact L3|discriminate].
    - change (0 =? 0) with true. cbv iota. cbn [bind]. apply K2; [reflexivity|exact L3|discriminate]. }
  unfold enc_opt at 1. unfold K1 in KK. destruct (eh_diff e) as [b|] eqn:EDf; rewrite <- ?app_assoc, runA_flag; cbn [b2z].
  - change (1 =? 0) with false. cbv iota. rewrite runA_flag. apply KK; [reflexivity|congruence|reflexivity].
  - change (0 =? 0) with true. cbv iota. cbn [bind]. apply KK; [reflexivity|congruence|reflexivity].
Qed.

(** ** HOA *)
Lemma pred_ids_ret o : 0 <= o <= 6 -> exists i, pred_ids 64 1 (clog2 ((o + 1) * (o + 1))) ((o + 1) * (o + 1)) = Ret i.
Proof.
  intros H. assert (X : o = 0 \/ o = 1 \/ o = 2 \/ o = 3 \/ o = 4 \/ o = 5 \/ o = 6) by lia.
  decompose [or] X; subst o; eexists; vm_compute; reflexivity.
Qed.

Lemma hoa_esc_run {B} v (k : Z -> prog B) rest : 0 <= v <= 38 ->
  runA (bind hoa_esc k) (enc_hoa_esc v ++ rest) = runA (k v) rest.
Proof.
  intros H. unfold hoa_esc, enc_hoa_esc. destruct (Z.ltb_spec v 7).
  - rewrite bind_assoc, (runA_rdb 3 3) by lia. destruct (Z.eqb_spec v 7); [lia|]. reflexivity.
  - rewrite <- app_assoc, bind_assoc, (runA_rdb 3 3) by lia. change (7 =? 7) with true. cbv iota.
    rewrite bind_assoc, (runA_rdb 5 5) by (try lia; change (2 ^ 5) with 32; lia). cbn [bind]. replace (7 + (v - 7)) with v by lia. reflexivity.
Qed.

Lemma widths_small o m : 0 <= o <= 6 -> -1 <= m <= o ->
  clog2 (o - m + 1) = Z.log2_up (o - m + 1) /\ 0 <= Z.log2_up (o - m + 1) <= 3 /\
  clog2 (clog2 (coefs o + 1)) = Z.log2_up (Z.log2_up (coefs o + 1)) /\ 0 <= Z.log2_up (Z.log2_up (coefs o + 1)) <= 3.
Proof.
  intros Ho Hm. rewrite clog2_up by lia. split; [reflexivity|]. split.
  { split; [apply Z.log2_up_nonneg|]. change 3 with (Z.log2_up 8). apply Z.log2_up_le_mono. lia. }
  unfold coefs.
  assert (X : o = 0 \/ o = 1 \/ o = 2 \/ o = 3 \/ o = 4 \/ o = 5 \/ o = 6) by lia.
  decompose [or] X; subst o; vm_compute; intuition congruence.
Qed.

Lemma hoa_run h ntc c rest : h_ntc h = ntc -> h_ccfl h = 1024 -> 0 < ntc <= 24 -> valid_hoa ntc c ->
  exists h', runA (fill_config h) (enc_hoa c ++ rest) = Done (Ok h', rest) /\ holds_hoa ntc c h' /\ h_ntc h' = ntc /\ h_ccfl h' = 1024.
Proof.
  intros EN EC N (V1 & V2 & V3 & V4 & V5 & V6 & V7 & V8 & V9 & V10 & V11 & V12 & V13).
  unfold fill_config, enc_hoa. cbv zeta. rewrite <- !app_assoc.
  destruct (widths_small (hc_order c) (hc_minamb c) V1 V3) as (W1 & W2 & W3 & W4).
  rewrite hoa_esc_run by lia. destruct (Z.ltb_spec 6 (hc_order c)); [lia|].
  rewrite runA_flag. rewrite EC, EN. change (negb (1024 =? 1024)) with false. cbv iota.
  set (co := (hc_order c + 1) * (hc_order c + 1)).
  assert (SQ : Z.min (Z.sqrt ntc - 1) (hc_order c) <? hc_minamb c = false).
  { apply Z.ltb_ge. unfold coefs in V4. apply Z.min_glb; [|lia].
    assert (hc_minamb c + 1 <= Z.sqrt ntc); [|lia]. apply Z.sqrt_le_square; lia. }
  match goal with |- context [runA (bind (rd 1) ?k) (enc_opt ?f (hc_nfc c) ++ ?r)] => set (K := k); set (R := r); set (ff := f) end.
  set (nf := b2z (match hc_nfc c with None => false | _ => true end)).
  set (rf := match hc_nfc c with None => [0; 0; 0; 0] | Some (a, b, c, d) => [a; b; c; d] end).
  assert (E0 : forall r, runA (bind (rd 1) K) (enc_opt ff (hc_nfc c) ++ r) =
     runA (v <- hoa_esc ;;
  let minamb := v - 1 in
  if Z.min (Z.sqrt ntc - 1) (hc_order c) <? minamb then Ret (Er E_HOA_MIN_AMB) else
  let minco := (minamb + 1) * (minamb + 1) in
  let addl := Z.max 0 (ntc - minco) in
  single <- rd 1 ;;
  cit <- rd 3 ;;
  sim <- rd 1 ;;
  cvv <- rd 2 ;;
  if 3 <=? cvv then Ret (Er E_HOA_VEC_LEN) else
  mgc <- rd 3 ;;
  fli <- rd 2 ;;
  if 3 <=? fli then Ret (Er E_HOA_FLI) else
  sit <- aget spat_tbl cit ;;
  ' (dob, dord, maxord) <-
    (if hc_order c <=? minamb then Ret (h_dob h, h_do h, hc_order c)
     else let dob := clog2 (hc_order c - minamb + 1) in
          d <- rd dob ;; Ret (dob, d, d + minamb)) ;;
  let maxco := (maxord + 1) * (maxord + 1) in
  let maxadd := maxco - minco in
  if maxadd <? 0 then Ret (Er E_HOA_RENDER_MATRIX) else
  let vqb := clog2 (clog2 (co + 1)) in
  nvv <- rd vqb ;;
  if 7 <? nvv then Ret (Er E_HOA_VQ_BITS) else
  psd <- (if minamb =? 1 then rd 1 else Ret (h_psd h)) ;;
  if (minamb =? 1) && negb (psd =? 0) then Ret (Er E_HOA_LC) else
  pds <- rd 2 ;;
  bps <- rd 4 ;;
  psi <- rd 2 ;;
  if 0 <? psi then Ret (Er E_HOA_SUBBAND) else
  pst <- rd 2 ;;
  if 0 <? pst then Ret (Er E_HOA_SUBBAND) else
  let aab := clog2 maxadd in
  let apb := clog2 co in
  i <- pred_ids 64 1 apb co ;;
  let napb := clog2 (if i - 1 <? 1 then 1 else i - 1) in
  let gcb := clog2 (clog2 (3 * co / 2) + mgc + 1) in
  let off := if (cvv =? 1) || (cvv =? 2) then (minamb + 1) * (minamb + 1) + 1 else 1 in
  Ret (Ok (mkHoa ntc 1024 (hc_order c) co (b2z (hc_screen c)) nf rf minamb minco addl single cit
             sim cvv mgc fli maxord dob dord maxco maxadd vqb nvv psd (pds + 1) (bps + 1) psi
             pst 1024 sit aab apb napb gcb off (co - off + 1) (clog2 co)))) r).
  { intros r. unfold nf, rf, enc_opt, ff. destruct (hc_nfc c) as [[[[a b] c0] d]|].
    - destruct V2 as (F1 & F2 & F3 & F4). rewrite <- !app_assoc, runA_flag. unfold K. cbn [b2z]. change (1 =? 0) with false. cbv iota.
      rewrite bind_assoc, (runA_rdb 8 8) by (auto; lia). rewrite bind_assoc, (runA_rdb 8 8) by (auto; lia).
      rewrite bind_assoc, (runA_rdb 8 8) by (auto; lia). rewrite bind_assoc, (runA_rdb 8 8) by (auto; lia). cbn [bind]. reflexivity.
    - rewrite runA_flag. unfold K. cbn [b2z]. change (0 =? 0) with true. cbv iota. cbn [bind]. reflexivity. }
  rewrite E0. clear E0. unfold R. clear K R.
  rewrite hoa_esc_run by lia. cbv zeta. replace (hc_minamb c + 1 - 1) with (hc_minamb c) by lia. rewrite SQ.
  rewrite runA_flag. rewrite (runA_rdb 3 3) by lia. rewrite runA_flag. rewrite (runA_rdb 2 2) by lia.
  destruct (Z.leb_spec 3 (hc_coded c)); [lia|]. rewrite (runA_rdb 3 3) by lia. rewrite (runA_rdb 2 2) by lia.
  destruct (Z.leb_spec 3 (hc_flen c)); [lia|].
  rewrite (runA_aget spat_tbl (hc_interp c) (nth (Z.to_nat (hc_interp c)) [0; 64; 128; 256; 384; 512; 768; 1024] 0));
    [|lia|apply nth_error_nth'; cbn [length spat_tbl]; lia].
  match goal with |- context [runA (bind _ ?k) ((if hc_minamb c <? hc_order c then _ else _) ++ ?r)] => set (K := k); set (R := r) end.
  assert (E1 : exists dob dord, forall r, runA (bind (if hc_order c <=? hc_minamb c then Ret (h_dob h, h_do h, hc_order c)
     else d <- rd (clog2 (hc_order c - hc_minamb c + 1)) ;; Ret (clog2 (hc_order c - hc_minamb c + 1), d, d + hc_minamb c)) K)
     ((if hc_minamb c <? hc_order c then bits_of (Z.to_nat (diff_width c)) (hc_diff c) else []) ++ r) =
     runA (K (dob, dord, max_order c)) r).
  { unfold max_order. destruct (Z.leb_spec (hc_order c) (hc_minamb c)); destruct (Z.ltb_spec (hc_minamb c) (hc_order c)); try lia.
    - eexists _, _. intros r. reflexivity.
    - specialize (V9 H3). unfold diff_width in *. rewrite W1. eexists _, _. intros r. rewrite bind_assoc.
      rewrite (runA_rdb _ (Z.to_nat (Z.log2_up (hc_order c - hc_minamb c + 1)))) by lia. cbn [bind].
      rewrite (Z.add_comm (hc_diff c)). reflexivity. }
  destruct E1 as (dob & dord & E1). rewrite E1. unfold K, R. clear E1 K R. cbv beta iota.
  assert (MO : hc_minamb c <= max_order c <= 13).
  { unfold max_order. destruct (Z.ltb_spec (hc_minamb c) (hc_order c)); [|lia]. specialize (V9 H2). unfold diff_width in V9.
    assert (2 ^ Z.log2_up (hc_order c - hc_minamb c + 1) <= 2 ^ 3) by (apply Z.pow_le_mono_r; lia). lia. }
  destruct (Z.ltb_spec ((max_order c + 1) * (max_order c + 1) - (hc_minamb c + 1) * (hc_minamb c + 1)) 0); [nia|].
  unfold vq_width in *. change (clog2 (clog2 (co + 1))) with (clog2 (clog2 (coefs (hc_order c) + 1))). rewrite W3.
  rewrite (runA_rdb _ (Z.to_nat (Z.log2_up (Z.log2_up (coefs (hc_order c) + 1))))) by lia.
  destruct (Z.ltb_spec 7 (hc_vq c)); [lia|].
  match goal with |- context [runA (bind _ ?k) ((if hc_minamb c =? 1 then _ else _) ++ ?r)] => set (K := k); set (R := r) end.
  assert (E2 : exists psd, (hc_minamb c =? 1) && negb (psd =? 0) = false /\ forall r, runA (bind (if hc_minamb c =? 1 then rd 1 else Ret (h_psd h)) K)
     ((if hc_minamb c =? 1 then flag false else []) ++ r) = runA (K psd) r).
  { destruct (hc_minamb c =? 1).
    - exists 0. split; [reflexivity|]. intros r. rewrite runA_flag. reflexivity.
    - eexists. split; [reflexivity|]. intros r. reflexivity. }
  destruct E2 as (psd & E2 & E3). rewrite E3. unfold K, R. clear E3 K R. rewrite E2.
  rewrite (runA_rdb 2 2) by lia. rewrite (runA_rdb 4 4) by (try lia; change (2 ^ 4) with 16; lia). rewrite (runA_rdb 2 2) by lia.
  change (0 <? 0) with false. cbv iota. rewrite (runA_rdb 2 2) by lia. change (0 <? 0) with false. cbv iota.
  destruct (pred_ids_ret (hc_order c) V1) as [i Ei]. unfold co. rewrite Ei. cbn [bind runA].
  eexists. split; [reflexivity|]. unfold holds_hoa. cbn [h_order h_coef h_screen h_nfc h_ref h_minamb h_minco h_addl h_single h_cit h_sit h_sim h_cvv
    h_mgc h_fli h_maxord h_maxco h_maxadd h_nvv h_pds h_bps h_aab h_apb h_gcb h_vvl h_ntc h_ccfl]. unfold nf, rf.
  split; [|auto]. unfold coefs in *. repeat (split; [reflexivity || lia|]).
  assert (B1 : (max_order c + 1) * (max_order c + 1) - (hc_minamb c + 1) * (hc_minamb c + 1) <= 2 ^ 31) by (change (2 ^ 31) with 2147483648; nia).
  assert (B2 : 0 <= (hc_order c + 1) * (hc_order c + 1) <= 49) by nia.
  split; [apply clog2_up, B1|]. split; [apply clog2_up; change (2 ^ 31) with 2147483648; lia|]. split.
  - set (x := (hc_order c + 1) * (hc_order c + 1)) in *. clearbody x. clear - B2 V7.
    assert (3 * x / 2 <= 128) by (apply Z.div_le_upper_bound; lia).
    rewrite (clog2_up (3 * x / 2)) by (change (2 ^ 31) with 2147483648; lia). apply clog2_up.
    assert (Z.log2_up (3 * x / 2) <= Z.log2_up 128) by (apply Z.log2_up_le_mono; lia).
    change (Z.log2_up 128) with 7 in H0. change (2 ^ 31) with 2147483648. lia.
  - destruct (Z.eqb_spec (hc_coded c) 1), (Z.eqb_spec (hc_coded c) 2), (Z.eqb_spec (hc_coded c) 0); cbn [orb]; lia.
Qed.
