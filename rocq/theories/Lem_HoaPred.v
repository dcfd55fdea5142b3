(** * Lem_HoaPred: the prediction of directional signals is read back *)

From Coq Require Import ZArith List Lia Bool.
From Verif Require Import Bits BitBuf Prog Wp Asi Hoa Lem_Hoa Lem_ConfigProps HoaFrm Spec_HoaFrm Lem_HoaFrm HoaVec Spec_HoaVec Lem_HoaVec Spec_HoaPred.
Import ListNotations.
Open Scope Z_scope.

Lemma aset_run {A} (r : list A) j x bits : (j < length r)%nat -> runA (aset r (Z.of_nat j) x) bits = Done (put r j x, bits).
Proof.
  intros H. unfold aset. replace ((0 <=? Z.of_nat j) && (Z.of_nat j <? Z.of_nat (length r))) with true.
  - rewrite Nat2Z.id. reflexivity.
  - symmetry. apply andb_true_intro. split; [apply Z.leb_le|apply Z.ltb_lt]; lia.
Qed.

Lemma aset_runz {A} (r : list A) j x bits : 0 <= j < Z.of_nat (length r) -> runA (aset r j x) bits = Done (put r (Z.to_nat j) x, bits).
Proof. intros H. rewrite <- (aset_run r (Z.to_nat j) x bits) by lia. rewrite Z2Nat.id by lia. reflexivity. Qed.

Lemma flags_run : forall fl i a k rest, length a = 49%nat -> (i + length fl <= 49)%nat ->
  exists a', runA (forP (length fl) i (fun i '(a, k) => b <- rd 1 ;; a <- aset a (Z.of_nat i) b ;; Ret (a, if b =? 0 then k else k + 1)) (a, k))
     (fl ++ rest) = Done ((a', k + Z.of_nat (length (filter id fl))), rest) /\ length a' = 49%nat /\
   (forall j, (j < length fl)%nat -> nth (i + j) a' 0 = Z.b2z (nth j fl false)) /\ (forall j, (j < i)%nat -> nth j a' 0 = nth j a 0).
Proof.
  induction fl as [|b fl IH]; intros i a k rest La Hi.
  - exists a. cbn. rewrite Z.add_0_r. split; [reflexivity|]. split; [exact La|]. split; [lia|reflexivity].
  - cbn [length] in Hi. cbn [length forP app]. rewrite runA_bind, rb1, runA_aset by lia. rewrite Nat2Z.id. cbn [runA].
    change (firstn i a ++ Z.b2z b :: skipn (S i) a) with (put a i (Z.b2z b)).
    destruct (IH (S i) (put a i (Z.b2z b)) (if Z.b2z b =? 0 then k else k + 1) rest) as (a' & E & L & V & O).
    { rewrite put_len; lia. } { lia. }
    exists a'. rewrite E. split; [|split; [exact L|split]].
    + do 3 f_equal. destruct b; cbn [filter id Z.b2z length Z.eqb]; lia.
    + intros [|j] Hj.
      * rewrite Nat.add_0_r, O, put_nth by lia. rewrite Nat.eqb_refl. reflexivity.
      * cbn [length] in Hj. replace (i + S j)%nat with (S i + j)%nat by lia. rewrite V by lia. reflexivity.
    + intros j Hj. rewrite O, put_nth by lia. destruct (Nat.eqb_spec i j); [lia|reflexivity].
Qed.

Lemma list_run w : 0 <= w <= 24 -> forall l i a rest, length a = 49%nat -> (forall x, In x l -> 0 <= x < 2 ^ w /\ x < 49) ->
  exists a', runA (forP (length l) i (fun _ a => b <- rd w ;; aset a b 1) a) (concat (map (wbits w) l) ++ rest) = Done (a', rest) /\
    length a' = 49%nat /\ forall j, nth j a' 0 = if existsb (Z.eqb (Z.of_nat j)) l then 1 else nth j a 0.
Proof.
  intros Hw. induction l as [|x l IH]; intros i a rest La Hl.
  - exists a. split; [reflexivity|]. auto.
  - destruct (Hl x (or_introl eq_refl)) as (B1 & B2). cbn [length forP map concat]. rewrite runA_bind, <- app_assoc, rw by lia.
    rewrite aset_runz by lia.
    destruct (IH (S i) (put a (Z.to_nat x) 1) rest) as (a' & E & L & V).
    { rewrite put_len; lia. } { intros y Hy. apply Hl. right. exact Hy. }
    exists a'. split; [exact E|]. split; [exact L|]. intros j. rewrite V, put_nth by lia. cbn [existsb].
    destruct (Nat.eqb_spec (Z.to_nat x) j) as [<-|N].
    + replace (Z.of_nat (Z.to_nat x) =? x) with true by (symmetry; apply Z.eqb_eq; lia). cbn [orb].
      destruct (existsb _ l); reflexivity.
    + replace (Z.of_nat j =? x) with false by (symmetry; apply Z.eqb_neq; lia). reflexivity.
Qed.

Definition chan_of (dirs : list Z) (k : Z) : Z := if k =? 0 then 0 else nth (Z.to_nat (k - 1)) dirs 0.
Lemma ids_run w nd dirs : 0 <= w <= 24 -> nd < 2 ^ w -> nd <= Z.of_nat (length dirs) ->
  forall l i t k rest, length t = 512%nat -> (i + length l <= 512)%nat -> (forall e, In e l -> 0 <= fst e <= nd) ->
  exists t', runA (forP (length l) i (fun i '(t, k) => b <- rd w ;;
    if 0 <? b then c <- aget dirs (b - 1) ;; t <- aset t (Z.of_nat i) c ;; Ret (t, k + 1)
    else t <- aset t (Z.of_nat i) b ;; Ret (t, k)) (t, k)) (concat (map (fun e : Z * Z => wbits w (fst e)) l) ++ rest)
   = Done ((t', k + Z.of_nat (length (filter (fun e => negb (fst e =? 0)) l))), rest) /\ length t' = 512%nat /\
   (forall j, (j < length l)%nat -> nth (i + j) t' 0 = chan_of dirs (fst (nth j l (0, 0)))) /\ (forall j, (j < i)%nat -> nth j t' 0 = nth j t 0).
Proof.
  intros Hw Hnd Hd. induction l as [|(x, g) l IH]; intros i t k rest Lt Hi Hl.
  - exists t. cbn. rewrite Z.add_0_r. split; [reflexivity|]. split; [exact Lt|]. split; [lia|reflexivity].
  - cbn [length] in Hi. pose proof (Hl _ (or_introl eq_refl)) as B. cbn [fst] in B.
    cbn [length forP map concat fst]. rewrite runA_bind, <- app_assoc, rw by lia.
    assert (S1 : forall bits, runA (if 0 <? x then c <- aget dirs (x - 1) ;; t <- aset t (Z.of_nat i) c ;; Ret (t, k + 1)
      else t <- aset t (Z.of_nat i) x ;; Ret (t, k)) bits = Done ((put t i (chan_of dirs x), if x =? 0 then k else k + 1), bits)).
    { intros bits. unfold chan_of. destruct (Z.ltb_spec 0 x).
      - destruct (Z.eqb_spec x 0); [lia|]. rewrite (runA_aget _ _ (nth (Z.to_nat (x - 1)) dirs 0)) by (try lia; apply nth_e; lia).
        rewrite runA_aset by lia. rewrite Nat2Z.id. reflexivity.
      - replace x with 0 by lia. rewrite runA_aset by lia. rewrite Nat2Z.id. reflexivity. }
    rewrite S1. destruct (IH (S i) (put t i (chan_of dirs x)) (if x =? 0 then k else k + 1) rest) as (t' & E & L & V & O).
    { rewrite put_len; lia. } { lia. } { intros e He. apply Hl. right. exact He. }
    exists t'. rewrite E. split; [|split; [exact L|split]].
    + do 3 f_equal. cbn [filter fst]. destruct (x =? 0); cbn [negb length]; lia.
    + intros [|j] Hj.
      * rewrite Nat.add_0_r, O, put_nth by lia. rewrite Nat.eqb_refl. reflexivity.
      * cbn [length] in Hj. replace (i + S j)%nat with (S i + j)%nat by lia. rewrite V by lia. reflexivity.
    + intros j Hj. rewrite O, put_nth by lia. destruct (Nat.eqb_spec i j); [lia|reflexivity].
Qed.

Lemma gains_run w ids : 0 <= w <= 24 -> length ids = 512%nat ->
  forall l i t rest, length t = 512%nat -> (i + length l <= 512)%nat -> (forall j, (i <= j < i + length l)%nat -> 0 < nth j ids 0) ->
  (forall e, In e l -> 0 <= snd e < 2 ^ w) ->
  exists t', runA (forP (length l) i (fun i t => d <- aget ids (Z.of_nat i) ;;
    if 0 <? d then v <- rd w ;; aset t (Z.of_nat i) v else Ret t) t) (concat (map (fun e : Z * Z => wbits w (snd e)) l) ++ rest) = Done (t', rest) /\
   length t' = 512%nat /\ (forall j, (j < length l)%nat -> nth (i + j) t' 0 = snd (nth j l (0, 0))) /\ (forall j, (j < i)%nat -> nth j t' 0 = nth j t 0).
Proof.
  intros Hw Li. induction l as [|(x, g) l IH]; intros i t rest Lt Hi Hp Hl.
  - exists t. split; [reflexivity|]. split; [exact Lt|]. split; [cbn; lia|reflexivity].
  - cbn [length] in Hi, Hp. pose proof (Hl _ (or_introl eq_refl)) as B. cbn [snd] in B.
    cbn [length forP map concat snd]. rewrite runA_bind, <- app_assoc.
    rewrite (runA_aget _ _ (nth i ids 0)) by (rewrite ?Nat2Z.id; try lia; apply nth_e; lia).
    destruct (Z.ltb_spec 0 (nth i ids 0)) as [_|C]; [|specialize (Hp i ltac:(lia)); lia].
    rewrite rw by lia. rewrite aset_run by lia.
    destruct (IH (S i) (put t i g) rest) as (t' & E & L & V & O).
    { rewrite put_len; lia. } { lia. } { intros j Hj. apply Hp. lia. } { intros e He. apply Hl. right. exact He. }
    exists t'. split; [exact E|]. split; [exact L|]. split.
    + intros [|j] Hj.
      * rewrite Nat.add_0_r, O, put_nth by lia. rewrite Nat.eqb_refl. reflexivity.
      * cbn [length] in Hj. replace (i + S j)%nat with (S i + j)%nat by lia. rewrite V by lia. reflexivity.
    + intros j Hj. rewrite O, put_nth by lia. destruct (Nat.eqb_spec i j); [lia|reflexivity].
Qed.

Lemma clear_run : forall n i a bits, length a = 49%nat -> (i + n <= 49)%nat ->
  exists a', runA (forP n i (fun i a => aset a (Z.of_nat i) 0) a) bits = Done (a', bits) /\ length a' = 49%nat /\
    forall j, nth j a' 0 = if (Nat.leb i j && Nat.ltb j (i + n))%bool then 0 else nth j a 0.
Proof.
  induction n as [|n IH]; intros i a bits La Hi.
  - exists a. split; [reflexivity|]. split; [exact La|]. intros j.
    destruct (Nat.leb_spec i j), (Nat.ltb_spec j (i + 0)); cbn; try reflexivity; lia.
  - cbn [forP]. rewrite runA_bind, aset_run by lia.
    destruct (IH (S i) (put a i 0) bits) as (a' & E & L & V); [rewrite put_len; lia|lia|].
    exists a'. split; [exact E|]. split; [exact L|]. intros j. rewrite V, put_nth by lia.
    destruct (Nat.eqb_spec i j), (Nat.leb_spec (S i) j), (Nat.ltb_spec j (S i + n)), (Nat.leb_spec i j), (Nat.ltb_spec j (i + S n)); cbn; try reflexivity; lia.
Qed.

(** ** The use *)
Lemma skip2 {A} : forall a b (l : list A), skipn (a + b) l = skipn b (skipn a l).
Proof. induction a as [|a IH]; intros b l; [reflexivity|]. destruct l as [|x l]; cbn [plus skipn]; [destruct b; reflexivity|apply IH]. Qed.
Definition wanted1 (dirs : list Z) (e : Z * Z) : Z * Z :=
  if fst e =? 0 then (0, 0) else (nth (Z.to_nat (fst e - 1)) dirs 0, snd e).

Section use.
Variables (p : hpred) (dirs : list Z) (nd : Z) (A B : list (Z * Z)).
Hypothesis HA : forall e, In e A -> fst e <> 0.
Hypothesis HB : forall e, In e B -> fst e = 0.
Hypothesis Hpos : forall k, 1 <= k <= nd -> 0 < nth (Z.to_nat (k - 1)) dirs 0.
Hypothesis Hk : forall e, In e (A ++ B) -> 0 <= fst e <= nd.
Hypothesis Hids : forall j, (j < length (A ++ B))%nat -> nth j (p_ids p) 0 = chan_of dirs (fst (nth j (A ++ B) (0, 0))).
Hypothesis Hg : forall j, (j < length A)%nat -> nth j (p_gains p) 0 = snd (nth j A (0, 0)).

Lemma use_row_run : forall l a g rest, skipn a (A ++ B) = l ++ rest -> (a + length l <= length (A ++ B))%nat -> ((a <= length A)%nat -> g = a) ->
  exists g', use_row (length l) a g p = (map (wanted1 dirs) l, g') /\ ((a + length l <= length A)%nat -> g' = (a + length l)%nat).
Proof.
  induction l as [|e l IH]; intros a g rest Es Hl Hga.
  - exists g. split; [reflexivity|]. cbn [length]. rewrite Nat.add_0_r. exact Hga.
  - cbn [length] in Hl. cbn [length use_row map].
    assert (Ee : nth a (A ++ B) (0, 0) = e).
    { rewrite <- (firstn_skipn a (A ++ B)), app_nth2 by (rewrite firstn_length; lia).
      rewrite firstn_length, Nat.min_l, Nat.sub_diag, Es by lia. reflexivity. }
    assert (Es' : skipn (S a) (A ++ B) = l ++ rest).
    { replace (S a) with (a + 1)%nat by lia. rewrite skip2, Es. reflexivity. }
    rewrite Hids, Ee by lia. unfold chan_of, wanted1 at 1.
    assert (Hin : In e (A ++ B)) by (rewrite <- Ee; apply nth_In; lia).
    destruct (Z.eqb_spec (fst e) 0) as [E0|N0].
    + change (0 =? 0) with true. cbv iota. destruct (IH (S a) g rest Es') as (g' & E & G); [lia| |].
      * intros Ha. exfalso. rewrite app_nth1 in Ee by lia. apply (HA e); [|exact E0]. rewrite <- Ee. apply nth_In. lia.
      * rewrite E. exists g'. split; [reflexivity|]. intros H. replace (a + S (length l))%nat with (S a + length l)%nat by lia. apply G. lia.
    + assert (La : (a < length A)%nat).
      { destruct (Nat.lt_ge_cases a (length A)) as [C|C]; [exact C|]. exfalso. rewrite app_nth2 in Ee by lia. apply N0, HB.
        rewrite <- Ee. apply nth_In. rewrite app_length in Hl. lia. }
      pose proof (Hk e Hin) as K. pose proof (Hpos (fst e) ltac:(lia)) as P.
      destruct (Z.eqb_spec (nth (Z.to_nat (fst e - 1)) dirs 0) 0) as [C|_]; [lia|].
      rewrite (Hga ltac:(lia)). destruct (IH (S a) (S a) rest Es') as (g' & E & G); [lia|auto|].
      rewrite E. exists g'. rewrite app_nth1 in Ee by lia. rewrite Hg, Ee by lia. split; [reflexivity|].
      intros H. replace (a + S (length l))%nat with (S a + length l)%nat by lia. apply G. lia.
Qed.

Lemma use_all_run pds : forall P c a g rest, skipn a (A ++ B) = entries P ++ rest -> (a + length (entries P) <= length (A ++ B))%nat ->
  ((a <= length A)%nat -> g = a) ->
  (forall l, In (Some l) P -> length l = pds) ->
  (forall j x, nth_error P j = Some x -> (nth (c + j) (p_active p) 0 =? 0) = negb (is_on x)) ->
  use_all pds (length P) c a g p = map (option_map (map (wanted1 dirs))) P.
Proof.
  induction P as [|x P IH]; intros c a g rest Es Hl Hga Hp Hact; [reflexivity|].
  cbn [length use_all map]. pose proof (Hact O x eq_refl) as H0. rewrite Nat.add_0_r in H0. rewrite H0.
  assert (Hact' : forall j y, nth_error P j = Some y -> (nth (S c + j) (p_active p) 0 =? 0) = negb (is_on y)).
  { intros j y E. replace (S c + j)%nat with (c + S j)%nat by lia. apply Hact. exact E. }
  destruct x as [l|]; cbn [is_on negb].
  - unfold entries in Es, Hl. cbn [map concat] in Es, Hl. fold (entries P) in Es, Hl. rewrite app_length in Hl. rewrite <- app_assoc in Es.
    destruct (use_row_run l a g (entries P ++ rest) Es) as (g' & E & G); [lia|exact Hga|].
    pose proof (Hp l (or_introl eq_refl)) as Ll. rewrite Ll in E. rewrite E. cbn [option_map]. f_equal.
    apply IH with (rest := rest).
    + rewrite <- Ll, skip2, Es. rewrite skipn_app, skipn_all, Nat.sub_diag. reflexivity.
    + lia.
    + rewrite <- Ll. exact G.
    + intros l' Hin. apply Hp. right. exact Hin.
    + exact Hact'.
  - cbn [option_map]. f_equal. apply IH with (rest := rest); try assumption. intros l' Hin. apply Hp. right. exact Hin.
Qed.
End use.

Lemma on_count : forall P i, length (on_numbers i P) = length (filter id (map is_on P)).
Proof. induction P as [|x P IH]; intros i; [reflexivity|]. cbn [on_numbers map filter]. rewrite app_length, (IH (i + 1)). destruct x; reflexivity. Qed.
Lemma entries_count m : forall P, (forall l, In (Some l) P -> length l = m) -> length (entries P) = (length (filter id (map is_on P)) * m)%nat.
Proof.
  induction P as [|x P IH]; intros H; [reflexivity|]. unfold entries. cbn [map concat filter]. fold (entries P). rewrite app_length, IH.
  - destruct x as [l|]; cbn [is_on id length]; [|reflexivity]. rewrite (H l (or_introl eq_refl)). reflexivity.
  - intros l Hl. apply H. right. exact Hl.
Qed.
Lemma on_range : forall P i x, In x (on_numbers i P) -> i <= x < i + Z.of_nat (length P).
Proof.
  induction P as [|y P IH]; intros i x; [intros []|]. cbn [on_numbers]. rewrite in_app_iff. cbn [length]. intros [H|H].
  - destruct (is_on y); cbn in H; [destruct H as [<-|[]]; lia|contradiction].
  - apply IH in H. lia.
Qed.
Lemma on_mem : forall P i j, (j < length P)%nat -> existsb (Z.eqb (i + Z.of_nat j)) (on_numbers i P) = is_on (nth j P None).
Proof.
  induction P as [|y P IH]; intros i j Hj; [cbn in Hj; lia|]. cbn [on_numbers]. rewrite existsb_app.
  assert (Out : forall k, k <= i -> existsb (Z.eqb k) (on_numbers (i + 1) P) = false).
  { intros k Hk. apply not_true_is_false. intros C. apply existsb_exists in C. destruct C as (x & Hx & E).
    apply on_range in Hx. apply Z.eqb_eq in E. lia. }
  destruct j as [|j].
  - rewrite Out by lia. cbn [nth]. rewrite Z.add_0_r. destruct (is_on y); cbn; [rewrite Z.eqb_refl|]; reflexivity.
  - cbn [length] in Hj. replace (i + Z.of_nat (S j)) with (i + 1 + Z.of_nat j) by lia. rewrite IH by lia. cbn [nth].
    destruct (is_on y); cbn; [|reflexivity]. destruct (Z.eqb_spec (i + 1 + Z.of_nat j) i); [lia|reflexivity].
Qed.
Lemma filter_le {A} (f : A -> bool) l : (length (filter f l) <= length l)%nat.
Proof. induction l as [|x l IH]; cbn; [lia|]. destruct (f x); cbn; lia. Qed.

Lemma pred_run h nd dirs bynum P p rest :
  pconf_ok h -> pstate_ok p -> 1 <= nd <= 49 -> length dirs = 49%nat ->
  (forall k, 1 <= k <= nd -> 0 < nth (Z.to_nat (k - 1)) dirs 0) ->
  pred_ok h nd bynum P -> used_first P ->
  exists p', runA (hoa_pred h nd dirs p) (pred_bits h nd bynum P ++ rest) = Done (p', rest) /\ pstate_ok p' /\
    use_pred h p' = pred_wanted dirs P.
Proof.
  intros (C1 & C2 & C3 & C4 & C5 & C6) (L1 & L2 & L3) Hnd Ld Hpos (P1 & P2 & P3 & P4) (A & B & EP & HA & HB).
  set (n := length (filter id (map is_on P))).
  assert (Nn : (n <= 49)%nat) by (unfold n; pose proof (filter_le id (map is_on P)) as X; rewrite map_length in X; lia).
  pose proof (entries_count _ P P2) as Ne. fold n in Ne.
  assert (Ne' : (length (entries P) <= 196)%nat) by (rewrite Ne; nia).
  unfold hoa_pred, pred_bits. rewrite C4. change (1 =? 1) with true. destruct (Z.ltb_spec 0 nd) as [_|]; [|lia]. cbn [andb].
  cbn [app]. rewrite rb1. cbn [Z.b2z]. change (1 =? 0) with false. cbv iota. rewrite rb1.
  set (R2 := concat (map (fun e => if fst e =? 0 then [] else wbits (h_bps h) (snd e)) (entries P)) ++ rest).
  set (R1 := concat (map (fun e => wbits (Z.log2_up (nd + 1)) (fst e)) (entries P)) ++ R2).
  set (H0 := if bynum then wbits (h_napb h) (Z.of_nat (length (on_numbers 0 P)) - 1) ++ concat (map (wbits (h_apb h)) (on_numbers 0 P)) else map is_on P).
  match goal with |- context [runA _ ?x] => replace x with (H0 ++ R1) by (unfold R1, R2; rewrite <- !app_assoc; reflexivity) end.
  match goal with |- context [runA (bind (forP ?m 0 ?b ?a) _) ?bits] => destruct (clear_run m 0 a bits L1) as (a0 & Ea & La & Va); [lia|] end.
  rewrite runA_bind, Ea. cbv beta iota.
  assert (Za : forall j, (j < length P)%nat -> nth j a0 0 = 0).
  { intros j Hj. rewrite Va. destruct (Nat.leb_spec 0 j), (Nat.ltb_spec j (0 + Z.to_nat (h_coef h))); cbn; lia. }
  assert (ACT : exists a, runA (if Z.b2z bynum =? 0 then act_flags (Z.to_nat (h_coef h)) a0
       else n0 <- rd (h_napb h) ;; a <- act_list (Z.to_nat (n0 + 1)) (h_apb h) a0 ;; Ret (a, n0 + 1)) (H0 ++ R1) = Done ((a, Z.of_nat n), R1) /\
     length a = 49%nat /\ forall j x, nth_error P j = Some x -> (nth j a 0 =? 0) = negb (is_on x)).
  { unfold H0. destruct bynum; cbn [Z.b2z].
    - change (1 =? 0) with false. cbv iota. specialize (P3 eq_refl). rewrite <- app_assoc, rw by lia.
      replace (Z.of_nat (length (on_numbers 0 P)) - 1 + 1) with (Z.of_nat (length (on_numbers 0 P))) by lia. rewrite Nat2Z.id.
      unfold act_list. assert (C5' : 0 <= h_apb h <= 24).
      { rewrite C5. split; [apply Z.log2_up_nonneg|]. apply Z.le_trans with (Z.log2_up 49); [apply Z.log2_up_le_mono; lia|vm_compute; discriminate]. }
      assert (Cp : h_coef h <= 2 ^ h_apb h).
      { rewrite C5. destruct (Z.leb_spec (h_coef h) 1) as [X|X]; [|apply Z.log2_up_spec; exact X].
        pose proof (Z.log2_up_nonneg (h_coef h)). assert (0 < 2 ^ Z.log2_up (h_coef h)) by (apply Z.pow_pos_nonneg; lia). lia. }
      destruct (list_run (h_apb h) C5' (on_numbers 0 P) 0 a0 R1 La) as (a & E & L & V).
      { intros x Hx. apply on_range in Hx. lia. }
      exists a. rewrite runA_bind, E. cbn [runA]. rewrite on_count. fold n. split; [reflexivity|]. split; [exact L|].
      intros j x Ex. assert (Hj : (j < length P)%nat) by (apply nth_error_Some; rewrite Ex; discriminate).
      rewrite V. pose proof (on_mem P 0 j Hj) as M. rewrite Z.add_0_l in M. rewrite M. rewrite (nth_error_nth _ _ _ Ex).
      destruct (is_on x); [reflexivity|]. rewrite Za by lia. reflexivity.
    - change (0 =? 0) with true. cbv iota. unfold act_flags. rewrite <- P1. rewrite <- (map_length is_on P).
      destruct (flags_run (map is_on P) 0 a0 0 R1 La) as (a & E & L & V & _). { rewrite map_length. lia. }
      exists a. rewrite E. split; [reflexivity|]. split; [exact L|]. intros j x Ex.
      assert (Hj : (j < length P)%nat) by (apply nth_error_Some; rewrite Ex; discriminate).
      specialize (V j). rewrite map_length in V. cbn [plus] in V. rewrite V by lia.
      replace (nth j (map is_on P) false) with (is_on x); [destruct (is_on x); reflexivity|].
      symmetry. apply nth_error_nth. apply map_nth_error. exact Ex. }
  destruct ACT as (a & EA & LA & VA). rewrite runA_bind, EA. cbv beta iota.
  replace (Z.to_nat (Z.of_nat n * h_pds h)) with (length (entries P)) by (rewrite Ne; lia).
  rewrite clog2_up by lia.
  assert (W : 0 <= Z.log2_up (nd + 1) <= 24 /\ nd < 2 ^ Z.log2_up (nd + 1)).
  { split; [split; [apply Z.log2_up_nonneg|]|].
    - apply Z.le_trans with (Z.log2_up 50); [apply Z.log2_up_le_mono; lia|vm_compute; discriminate].
    - pose proof (Z.log2_up_spec (nd + 1)). lia. }
  unfold sig_ids, R1.
  destruct (ids_run (Z.log2_up (nd + 1)) nd dirs (proj1 W) (proj2 W) ltac:(lia) (entries P) 0 (p_ids p) 0 R2 L2) as (ids & E2 & LI & VI & _).
  { lia. } { intros (x, g) He. exact (proj1 (P4 x g He)). }
  cbn [plus] in VI. rewrite runA_bind, E2. cbv beta iota.
  assert (FA : filter (fun e : Z * Z => negb (fst e =? 0)) (entries P) = A).
  { rewrite EP, filter_app.
    assert (X : forall l, (forall e : Z * Z, In e l -> fst e <> 0) -> filter (fun e => negb (fst e =? 0)) l = l).
    { induction l as [|e l IH]; intros H; [reflexivity|]. cbn [filter]. destruct (Z.eqb_spec (fst e) 0) as [C|_]; [destruct (H e (or_introl eq_refl) C)|].
      cbn [negb]. rewrite IH; [reflexivity|]. intros e' H'. apply H. right. exact H'. }
    assert (Y : forall l, (forall e : Z * Z, In e l -> fst e = 0) -> filter (fun e => negb (fst e =? 0)) l = []).
    { induction l as [|e l IH]; intros H; [reflexivity|]. cbn [filter]. rewrite (H e (or_introl eq_refl)). apply IH. intros e' H'. apply H. right. exact H'. }
    rewrite X, Y, app_nil_r by assumption. reflexivity. }
  rewrite FA. replace (Z.to_nat (0 + Z.of_nat (length A))) with (length A) by lia.
  assert (GB : concat (map (fun e => if fst e =? 0 then [] else wbits (h_bps h) (snd e)) (entries P)) = concat (map (fun e => wbits (h_bps h) (snd e)) A)).
  { rewrite EP, map_app, concat_app.
    assert (X : forall l, (forall e : Z * Z, In e l -> fst e <> 0) -> concat (map (fun e => if fst e =? 0 then [] else wbits (h_bps h) (snd e)) l) = concat (map (fun e => wbits (h_bps h) (snd e)) l)).
    { induction l as [|e l IH]; intros H; [reflexivity|]. cbn [map concat]. destruct (Z.eqb_spec (fst e) 0) as [C|_]; [destruct (H e (or_introl eq_refl) C)|].
      rewrite IH; [reflexivity|]. intros e' H'. apply H. right. exact H'. }
    assert (Y : forall l, (forall e : Z * Z, In e l -> fst e = 0) -> concat (map (fun e => if fst e =? 0 then [] else wbits (h_bps h) (snd e)) l) = []).
    { induction l as [|e l IH]; intros H; [reflexivity|]. cbn [map concat]. rewrite (H e (or_introl eq_refl)). apply IH. intros e' H'. apply H. right. exact H'. }
    rewrite X, Y, app_nil_r by assumption. reflexivity. }
  assert (LAB : (length A <= length (entries P))%nat) by (rewrite EP, app_length; lia).
  unfold sig_gains, R2. rewrite GB.
  destruct (gains_run (h_bps h) ids ltac:(lia) LI A 0 (p_gains p) rest L3) as (gs & E3 & LG & VG & _).
  { lia. }
  { intros j Hj. rewrite (VI j) by lia. rewrite EP, app_nth1 by lia. unfold chan_of.
    assert (Hin : In (nth j A (0, 0)) A) by (apply nth_In; lia).
    destruct (Z.eqb_spec (fst (nth j A (0, 0))) 0) as [C|C]; [destruct (HA _ Hin C)|]. apply Hpos.
    assert (K : In (nth j A (0, 0)) (entries P)) by (rewrite EP; apply in_or_app; auto).
    destruct (nth j A (0, 0)) as (x, g) eqn:En. destruct (P4 x g K). cbn [fst] in *. lia. }
  { intros (x, g) He. apply (P4 x g). rewrite EP. apply in_or_app. auto. }
  rewrite runA_bind, E3. eexists. split; [reflexivity|]. split; [repeat split; assumption|].
  unfold use_pred. cbn [p_on]. change (1 =? 0) with false. cbv iota. rewrite <- P1.
  unfold pred_wanted. change (fun e : Z * Z => if fst e =? 0 then (0, 0) else (nth (Z.to_nat (fst e - 1)) dirs 0, snd e)) with (wanted1 dirs).
  apply (use_all_run (mkHp 1 a ids gs) dirs nd A B) with (rest := []); try assumption.
  - intros (x, g) He. rewrite <- EP in He. exact (proj1 (P4 x g He)).
  - rewrite <- EP. intros j Hj. cbn [p_ids]. apply VI. exact Hj.
  - rewrite <- EP, app_nil_r. reflexivity.
  - rewrite <- EP. lia.
  - lia.
Qed.

Lemma wp_fill_pred h0 : 0 <= h_ntc h0 ->
  wp (fill_config h0) (fun r => match r with Ok h => 1 <= h_pds h <= 4 /\ 1 <= h_bps h <= 16 | Er _ => True end).
Proof.
  intros Hntc. unfold fill_config.
  apply wp_bindi, wp_hoa_esc. intros order Ho.
  destruct (Z.ltb_spec 6 order); [exact I|]. cbv zeta.
  apply wp_bindi. wp1. apply wp_bindi. wp1. apply wp_bindi.
  apply (wp_mono _ (fun _ => True)); [|destruct (v0 =? 0); wps; exact I]. intros ref _.
  apply wp_bindi, wp_hoa_esc. intros va Hva.
  destruct (Z.ltb_spec (Z.min (Z.sqrt (h_ntc h0) - 1) order) (va - 1)) as [|Hamb]; [exact I|].
  do 4 (apply wp_bindi; wp1). rename v1 into single, v2 into cit, v3 into sim, v4 into cvv.
  destruct (Z.leb_spec 3 cvv); [exact I|]. do 2 (apply wp_bindi; wp1). rename v1 into mgc, v2 into fli.
  destruct (Z.leb_spec 3 fli); [exact I|]. destruct (negb (h_ccfl h0 =? 1024)); [exact I|].
  apply wp_bindi, wp_aget; [cbn; lia|]. intros sit Hsit.
  assert (Hc : 1 <= (order + 1) * (order + 1) <= 49) by nia.
  apply wp_bindi. apply (wp_mono _ (fun _ => True)).
  2:{ destruct (Z.leb_spec order (va - 1)); [exact I|].
      assert (L := clog2_le (order - (va - 1) + 1) 3 ltac:(lia) ltac:(change (2 ^ 3) with 8; lia)).
      apply wp_bindi, wp_rd; [lia|]. intros d Hd. exact I. }
  intros [[dob dord] maxord] _.
  destruct (Z.ltb_spec ((maxord + 1) * (maxord + 1) - (va - 1 + 1) * (va - 1 + 1)) 0); [exact I|].
  set (coef := (order + 1) * (order + 1)) in *.
  assert (L1 := clog2_le (coef + 1) 6 ltac:(lia) ltac:(change (2 ^ 6) with 64; lia)).
  assert (L2 := clog2_le (clog2 (coef + 1)) 3 ltac:(lia) ltac:(change (2 ^ 3) with 8; lia)).
  apply wp_bindi, wp_rd; [lia|]. intros nvv Hnvv.
  destruct (7 <? nvv); [exact I|].
  apply wp_bindi. apply (wp_mono _ (fun _ => True)); [|destruct (va - 1 =? 1); wps; exact I]. intros psd _.
  destruct (_ && _); [exact I|]. do 3 (apply wp_bindi; wp1).
  destruct (0 <? v3); [exact I|]. apply wp_bindi. wp1. destruct (0 <? v4); [exact I|].
  assert (L3 := clog2_le coef 6 ltac:(lia) ltac:(change (2 ^ 6) with 64; lia)).
  apply wp_bindi, wp_pred_ids.
  all: try lia.
  { destruct (Z.eq_dec coef 1); [right; lia|]. left. split; [|lia].
    destruct (clog2_spec coef) as (P1 & P2 & P3); [change (2 ^ 31) with 2147483648; lia|].
    destruct (Z.eq_dec (clog2 coef) 0) as [E|]; [rewrite E in P2; change (2 ^ 0) with 1 in P2; lia|lia]. }
  intros i _ _ _. apply wp_ret. cbn [h_pds h_bps]. lia.
Qed.

Lemma accepted_pred h0 s h s' : 0 <= h_ntc h0 -> wf s -> exec (fill_config h0) s = Done (Ok h, s') -> h_single h = 1 -> pconf_ok h.
Proof.
  intros Hn W E S1. assert (X := wp_exec _ _ s (wp_fill_pred h0 Hn) W). rewrite E in X.
  assert (X0 : 1 <= h_pds h <= 4 /\ 1 <= h_bps h <= 16) by apply X.
  destruct (fill_config_exec h0 s h s' Hn W E) as [Ho Hc _ _ _ _ _ _ _ _ _ _ _ Hapb (i & Hi & Hnp & _ & Hk) _ _ _ _ _].
  assert (C : 1 <= h_coef h <= 49) by (rewrite Hc; nia).
  unfold pconf_ok. split; [lia|]. split; [apply X0|]. split; [apply X0|]. split; [exact S1|]. split; [exact Hapb|].
  rewrite Hnp. split; [apply Z.log2_up_nonneg|]. apply Z.le_trans with (Z.log2_up 64); [apply Z.log2_up_le_mono|vm_compute; discriminate].
  destruct (Z.leb_spec i 60); [lia|exfalso]. pose proof (Hk 50 ltac:(lia)) as K. change (Z.log2_up 50) with 6 in K.
  pose proof (Z.log2_up_nonneg (h_coef h)). rewrite Hapb in K.
  destruct (Z.eq_dec (h_coef h) 1) as [C1|C1]; [lia|]. assert (1 <= Z.log2_up (h_coef h)); [|lia].
  change 1 with (Z.log2_up 2). apply Z.log2_up_le_mono. lia.
Qed.
