(** * Lem_DrcCurve: the gain curve *)
From Coq Require Import ZArith List Lia Bool ZifyBool Sorted.
From Verif Require Import Bits BitBuf Prog Asi Loud DrcCfg DrcGain Spec_Drc Spec_DrcGain DrcCurve Spec_DrcCurve Lem_DrcGain Lem_DrcGainSafe Lem_DrcGainRT.
Import ListNotations.
Open Scope Z_scope.

Definition zn {A} (l : list A) (j : Z) : option A := nth_error l (Z.to_nat j).

Lemma cput_in l i c : 0 <= i < zlen l -> exists l', cput l i c = Done l' /\ zlen l' = zlen l /\
  forall j, 0 <= j -> zn l' j = if j =? i then Some c else zn l j.
Proof.
  intros H. unfold cput. unfold zlen in *. replace ((0 <=? i) && (i <? Z.of_nat (length l))) with true by lia.
  eexists. split; [reflexivity|]. split.
  - f_equal. apply (upd_length l (Z.to_nat i) c). lia.
  - intros j Hj. unfold zn. change (firstn (Z.to_nat i) l ++ c :: skipn (S (Z.to_nat i)) l) with (upd l (Z.to_nat i) c).
    rewrite upd_nth by lia. destruct (Z.eqb_spec j i) as [->|]; [rewrite Nat.eqb_refl; reflexivity|].
    destruct (Nat.eqb_spec (Z.to_nat j) (Z.to_nat i)); [lia|reflexivity].
Qed.

Lemma cput_out l i c : ~ (0 <= i < zlen l) -> cput l i c = UB UOob.
Proof. intros H. unfold cput, zlen in *. replace ((0 <=? i) && (i <? Z.of_nat (length l))) with false by lia. reflexivity. Qed.

Lemma fill_in base g1 g2 d : forall n k l, 0 <= base + k -> base + k + Z.of_nat n <= zlen l ->
  exists l', fill n base k g1 g2 d l = Done l' /\ zlen l' = zlen l /\
    forall j, 0 <= j -> zn l' j = if (base + k <=? j) && (j <? base + k + Z.of_nat n) then Some (Mix g1 g2 (j - base) d) else zn l j.
Proof.
  induction n as [|n IH]; intros k l H1 H2.
  - exists l. split; [reflexivity|]. split; [reflexivity|]. intros j Hj. replace ((base + k <=? j) && _) with false by lia. reflexivity.
  - cbn [fill]. destruct (cput_in l (base + k) (Mix g1 g2 k d)) as (l1 & -> & L1 & N1); [lia|]. cbn [obind].
    destruct (IH (k + 1) l1) as (l2 & -> & L2 & N2); [lia|lia|]. exists l2. split; [reflexivity|]. split; [lia|].
    intros j Hj. rewrite N2, N1 by lia. 
    destruct (Z.eqb_spec j (base + k)) as [->|].
    + replace ((base + (k + 1) <=? base + k) && _) with false by lia.
      replace ((base + k <=? base + k) && _) with true by lia. do 2 f_equal. lia.
    + replace ((base + (k + 1) <=? j) && (j <? base + (k + 1) + Z.of_nat n)) with ((base + k <=? j) && (j <? base + k + Z.of_nat (S n))) by lia. reflexivity.
Qed.

Lemma interpolate_in base g1 g2 d l : 0 < d -> 0 <= base -> base + d < zlen l ->
  exists l', interpolate base g1 g2 d l = Done (0, l') /\ zlen l' = zlen l /\
    forall j, 0 <= j -> zn l' j = if j =? base then Some (Lin g1) else if j =? base + d then Some (Lin g2)
      else if (base <? j) && (j <? base + d) then Some (Mix g1 g2 (j - base) d) else zn l j.
Proof.
  intros Hd Hb Hl. unfold interpolate. replace (d <=? 0) with false by lia.
  destruct (cput_in l base (Lin g1)) as (l1 & -> & L1 & N1); [lia|]. cbn [obind].
  destruct (cput_in l1 (base + d) (Lin g2)) as (l2 & -> & L2 & N2); [lia|]. cbn [obind].
  destruct (fill_in base g1 g2 d (Z.to_nat (d - 1)) 1 l2) as (l3 & -> & L3 & N3); [lia|lia|]. cbn [obind].
  exists l3. split; [reflexivity|]. split; [lia|]. intros j Hj. rewrite N3, N2, N1 by lia.
  destruct (Z.eqb_spec j base) as [->|].
  { replace ((base + 1 <=? base) && _) with false by lia. replace (base =? base + d) with false by lia. reflexivity. }
  destruct (Z.eqb_spec j (base + d)) as [->|].
  { replace ((base + 1 <=? base + d) && _) with false by lia. reflexivity. }
  replace ((base + 1 <=? j) && (j <? base + 1 + Z.of_nat (Z.to_nat (d - 1)))) with ((base <? j) && (j <? base + d)) by lia. reflexivity.
Qed.

Lemma interpolate_out base g1 g2 d l : 0 < d -> zlen l <= base + d -> interpolate base g1 g2 d l = UB UOob.
Proof.
  intros Hd Hl. unfold interpolate. replace (d <=? 0) with false by lia.
  destruct (Z.lt_ge_cases base (zlen l)); [destruct (Z.lt_ge_cases base 0)|].
  - rewrite cput_out by lia. reflexivity.
  - destruct (cput_in l base (Lin g1)) as (l1 & -> & L1 & N1); [lia|]. cbn [obind]. rewrite cput_out by lia. reflexivity.
  - rewrite cput_out by lia. reflexivity.
Qed.

(** ** The value of the curve *)
Fixpoint cv (a : Z * Z) (ns : list (Z * Z)) (T : Z) : cell :=
  match ns with
  | [] => Lin (fst a)
  | b :: r => if T <? snd b then (if T =? snd a then Lin (fst a) else Mix (fst a) (fst b) (T - snd a) (snd b - snd a))
              else cv b r T
  end.

Definition lastp (a : Z * Z) (ns : list (Z * Z)) : Z * Z := last ns a.

Lemma last_cons {A} (l : list A) a b : last (b :: l) a = last l b.
Proof. revert a b. induction l as [|c l IH]; intros a b; [reflexivity|]. change (last (b :: c :: l) a) with (last (c :: l) a). rewrite IH, IH. reflexivity. Qed.

Fixpoint rising (t : Z) (ns : list (Z * Z)) : Prop :=
  match ns with [] => True | b :: r => t < snd b /\ rising (snd b) r end.

Lemma rising_last : forall ns a, rising (snd a) ns -> snd a <= snd (lastp a ns).
Proof.
  induction ns as [|b r IH]; intros a H; [cbn; lia|]. destruct H as (H1 & H2). unfold lastp. rewrite last_cons.
  specialize (IH b H2). unfold lastp in IH. lia.
Qed.

Lemma segments_in F D : 0 < F -> 0 <= D -> forall ns lg pg pt l, zlen l = 2 * F + D -> - F <= pt -> rising pt ns -> (forall x, In x ns -> snd x < F) ->
  ns <> [] \/ lg = pg ->
  exists l', segments F D ns lg pg pt l = Done (0, lastp (pg, pt) ns, l') /\ zlen l' = zlen l /\
    forall t, - F - D <= t -> t < snd (lastp (pg, pt) ns) ->
      zn l' (D + F + t) = if t <? pt then zn l (D + F + t) else Some (cv (pg, pt) ns t).
Proof.
  intros HF HD. induction ns as [|[g t0] r IH]; intros lg pg pt l L Hp R U E.
  - destruct E as [E| ->]; [contradiction|]. exists l. split; [reflexivity|]. split; [reflexivity|].
    intros t H1 H2. cbn in H2. replace (t <? pt) with true by lia. reflexivity.
  - destruct R as (R1 & R2). cbn [snd] in R1, R2. assert (U0 : t0 < F) by (apply (U (g, t0)); left; reflexivity).
    cbn [segments].
    destruct (interpolate_in (D + F + pt) pg g (t0 - pt) l) as (l1 & -> & L1 & N1); [lia|lia|lia|]. cbn [obind]. change (negb (0 =? 0)) with false. cbn match.
    destruct (IH g g t0 l1) as (l2 & -> & L2 & N2); auto; [lia|lia|intros x Hx; apply U; right; exact Hx|].
    exists l2. unfold lastp. rewrite last_cons. split; [reflexivity|]. split; [lia|]. intros t Ht Ht2. unfold lastp in N2. rewrite N2 by (auto; lia).
    cbn [cv fst snd]. destruct (Z.ltb_spec t t0).
    + rewrite N1 by lia. destruct (Z.ltb_spec t pt).
      * replace (D + F + t =? D + F + pt) with false by lia. replace (D + F + t =? D + F + pt + (t0 - pt)) with false by lia.
        replace ((D + F + pt <? D + F + t) && _) with false by lia. reflexivity.
      * destruct (Z.eqb_spec t pt) as [->|]; [rewrite Z.eqb_refl; reflexivity|].
        replace (D + F + t =? D + F + pt) with false by lia. replace (D + F + t =? D + F + pt + (t0 - pt)) with false by lia.
        replace ((D + F + pt <? D + F + t) && _) with true by lia. do 2 f_equal. lia.
    + destruct (Z.ltb_spec t pt); [lia|]. reflexivity.
Qed.

Lemma segments_safe F D : 0 < F -> 0 <= D -> forall ns lg pg pt l, zlen l = 2 * F + D -> - F <= pt -> (forall x, In x ns -> snd x < F) ->
  exists e n l', segments F D ns lg pg pt l = Done (e, n, l') /\ zlen l' = zlen l /\ (e = 0 -> snd n = snd (lastp (pg, pt) ns)).
Proof.
  intros HF HD. induction ns as [|[g t0] r IH]; intros lg pg pt l L Hp U.
  - exists 0, (lg, pt), l. auto.
  - assert (U0 : t0 < F) by (apply (U (g, t0)); left; reflexivity). cbn [segments].
    destruct (Z.lt_ge_cases pt t0).
    + destruct (interpolate_in (D + F + pt) pg g (t0 - pt) l) as (l1 & -> & L1 & N1); [lia|lia|lia|]. cbn [obind]. change (negb (0 =? 0)) with false. cbn match.
      destruct (IH g g t0 l1) as (e & n & l2 & -> & L2 & N2); [lia|lia|intros x Hx; apply U; right; exact Hx|].
      exists e, n, l2. split; [reflexivity|]. split; [lia|]. unfold lastp in *. rewrite last_cons. exact N2.
    + unfold interpolate. replace (t0 - pt <=? 0) with true by lia. cbn [obind]. cbn. eexists _, _, _. split; [reflexivity|]. split; [reflexivity|]. discriminate.
Qed.

Lemma segments_overrun F D : 0 < F -> 0 <= D -> forall pre lg pg pt l g t post, zlen l = 2 * F + D -> - F <= pt -> rising pt (pre ++ [(g, t)]) ->
  (forall x, In x pre -> snd x < F) -> F <= t -> segments F D (pre ++ (g, t) :: post) lg pg pt l = UB UOob.
Proof.
  intros HF HD. induction pre as [|[g0 t0] r IH]; intros lg pg pt l g t post L Hp R U O.
  - cbn [app rising snd] in *. cbn [segments]. rewrite interpolate_out by lia. reflexivity.
  - cbn [app rising snd] in R. destruct R as (R1 & R2). assert (U0 : t0 < F) by (apply (U (g0, t0)); left; reflexivity). cbn [app segments].
    destruct (interpolate_in (D + F + pt) pg g0 (t0 - pt) l) as (l1 & -> & L1 & N1); [lia|lia|lia|]. cbn [obind]. change (negb (0 =? 0)) with false. cbn match.
    apply IH; auto; [lia|lia|]. intros x Hx. apply U. right. exact Hx.
Qed.

(** ** Lists of nodes *)
Definition shiftn (s : Z) (x : Z * Z) : Z * Z := (fst x, s + snd x).

Lemma cv_shift s : forall ns a T, cv (shiftn s a) (map (shiftn s) ns) (s + T) = cv a ns T.
Proof.
  induction ns as [|b r IH]; intros a T; [reflexivity|]. cbn [map cv]. rewrite IH. unfold shiftn. cbn [fst snd].
  replace (s + T <? s + snd b) with (T <? snd b) by lia. replace (s + T =? s + snd a) with (T =? snd a) by lia.
  destruct (T <? snd b); [|reflexivity]. destruct (T =? snd a); [reflexivity|]. f_equal; lia.
Qed.

Lemma cv_app_lo : forall ns a ms T, snd a <= T < snd (lastp a ns) -> cv a (ns ++ ms) T = cv a ns T.
Proof.
  induction ns as [|b r IH]; intros a ms T H; [cbn in H; lia|]. cbn [app cv]. unfold lastp in *. rewrite last_cons in H.
  destruct (Z.ltb_spec T (snd b)); [reflexivity|]. apply IH. lia.
Qed.

Lemma cv_app_hi : forall ns a ms T, rising (snd a) ns -> snd (lastp a ns) <= T -> cv a (ns ++ ms) T = cv (lastp a ns) ms T.
Proof.
  induction ns as [|b r IH]; intros a ms T R H; [reflexivity|]. cbn [app cv]. destruct R as (R1 & R2). unfold lastp in *. rewrite last_cons in *.
  assert (X := rising_last r b R2). unfold lastp in X. destruct (Z.ltb_spec T (snd b)); [lia|]. apply IH; auto.
Qed.

Lemma rising_app : forall ns t ms, rising t (ns ++ ms) <-> rising t ns /\ rising (snd (lastp (0, t) ns)) ms.
Proof.
  induction ns as [|b r IH]; intros t ms; [cbn; tauto|]. cbn [app rising]. rewrite IH. unfold lastp. rewrite last_cons.
  assert (E : snd (last r b) = snd (last r (0, snd b))) by (destruct r as [|c r]; [reflexivity|rewrite !last_cons; reflexivity]). rewrite E. tauto.
Qed.

Lemma lastp_snd a b ns : snd a = snd b -> snd (lastp a ns) = snd (lastp b ns).
Proof. destruct ns as [|c r]; [auto|]. unfold lastp. rewrite !last_cons. reflexivity. Qed.

Lemma rising_shift s : forall ns t, rising (s + t) (map (shiftn s) ns) <-> rising t ns.
Proof. induction ns as [|b r IH]; intros t; [cbn; tauto|]. cbn [map rising]. rewrite <- (IH (snd b)). unfold shiftn at 1. cbn [snd]. split; intros (H1 & H2); split; auto; lia. Qed.

Lemma last_map {A B} (f : A -> B) l a : last (map f l) (f a) = f (last l a).
Proof. revert a. induction l as [|x l IH]; intros a; [reflexivity|]. cbn [map]. rewrite !last_cons. apply IH. Qed.

Lemma from_frame_app F : forall h n ns, from_frame F n (h ++ [ns]) = from_frame F n h ++ map (shiftn ((n + Z.of_nat (length h)) * F)) ns.
Proof.
  induction h as [|x h IH]; intros n ns; cbn [app from_frame].
  - rewrite app_nil_r. cbn [length]. replace (n + Z.of_nat 0) with n by lia. reflexivity.
  - rewrite IH, <- app_assoc. do 2 f_equal. cbn [length]. replace (n + 1 + Z.of_nat (length h)) with (n + Z.of_nat (S (length h))) by lia. reflexivity.
Qed.

Lemma sorted_rising a ns : Sorted before (a :: ns) <-> rising (snd a) ns.
Proof.
  revert a. induction ns as [|b r IH]; intros a.
  - split; [constructor|]. intros _. repeat constructor.
  - cbn [rising]. rewrite <- IH. split.
    + intros H. inversion H as [|x l HS HH]; subst. inversion HH; subst. auto.
    + intros (H1 & H2). constructor; [exact H2|]. constructor. exact H1.
Qed.

Lemma cv_curve : forall ns a T, rising (snd a) ns -> snd a <= T -> on_curve (a :: ns) T (cv a ns T).
Proof.
  intros ns a T R H. split; [intros g t r E Ht; injection E as -> ->; cbn in H; lia|].
  intros pre g1 t1 g2 t2 post E. revert a E R H. revert ns. induction pre as [|p pre IH]; intros ns a E R H HT.
  - injection E as -> ->. cbn [cv fst snd]. destruct (Z.ltb_spec T t2); [reflexivity|lia].
  - destruct ns as [|b r]; [injection E as _ E; destruct pre; discriminate|].
    cbn [app] in E. injection E as -> E. destruct R as (R1 & R2). cbn [cv].
    assert (B : snd b <= t1).
    { clear IH H HT. revert b r E R1 R2. induction pre as [|q pre IH]; intros b r E R1 R2; injection E as -> E; [cbn; lia|].
      subst r. destruct (pre ++ (g1, t1) :: (g2, t2) :: post) as [|c r] eqn:Q; [destruct pre; discriminate|].
      cbn [rising] in R2. destruct R2 as (R2 & R3). specialize (IH c r eq_refl ltac:(lia) R3). lia. }
    destruct (Z.ltb_spec T (snd b)); [lia|]. apply (IH r b); auto.
Qed.

(** ** One buffer over the frames *)
Lemma nth_error_skipn' {A} : forall n (l : list A) i, nth_error (skipn n l) i = nth_error l (n + i).
Proof. induction n as [|n IH]; intros l i; [reflexivity|]. destruct l as [|a l]; [destruct i; reflexivity|]. apply IH. Qed.

Lemma rising_le_last : forall ns a x, rising (snd a) ns -> In x ns -> snd x <= snd (lastp a ns).
Proof.
  induction ns as [|b r IH]; intros a x R H; [destruct H|]. destruct R as (R1 & R2). unfold lastp. rewrite last_cons.
  destruct H as [<-|H]; [apply (rising_last r b R2)|apply (IH b x R2 H)].
Qed.

Definition val (F : Z) (h : list (list (Z * Z))) (T : Z) : cell :=
  if T <? - F then Unit else cv (0, - F) (from_frame F 0 h) T.

Definition Inv (F D : Z) (h : list (list (Z * Z))) (el : cbuf) : Prop :=
  zlen (cb_buf el) = 2 * F + D /\
  lastp (0, - F) (from_frame F 0 h) = shiftn ((Z.of_nat (length h) - 1) * F) (cb_node el) /\
  0 <= snd (cb_node el) < F /\
  forall j, 0 <= j -> j < D + F + snd (cb_node el) ->
    zn (cb_buf el) j = Some (val F h ((Z.of_nat (length h) - 1) * F + j - D - F)).

Lemma Inv_fresh F D : 0 < F -> 0 <= D -> Inv F D [] (fresh_el F D).
Proof.
  intros HF HD. unfold Inv, fresh_el. cbn [cb_buf cb_node snd fst]. unfold zlen. rewrite repeat_length. split; [lia|]. split.
  - unfold lastp, shiftn. cbn [from_frame last length fst snd Z.of_nat]. f_equal. lia.
  - split; [lia|]. intros j H1 H2. unfold zn. rewrite nth_error_repeat by lia. unfold val. cbn [length].
    replace (_ <? - F) with true by lia. reflexivity.
Qed.

Lemma advance_buf F D el j : 0 < F -> 0 <= D -> zlen (cb_buf el) = 2 * F + D -> 0 <= j ->
  zn (cb_buf (advance F D el)) j = if j <? F + D then zn (cb_buf el) (j + F) else zn (cb_buf el) j.
Proof.
  intros HF HD L Hj. unfold advance, zn. cbn [cb_buf]. unfold zlen in L.
  assert (E : firstn (Z.to_nat (F + D)) (skipn (Z.to_nat F) (cb_buf el)) = skipn (Z.to_nat F) (cb_buf el)) by (apply firstn_all2; rewrite skipn_length; lia).
  rewrite E. destruct (Z.ltb_spec j (F + D)).
  - rewrite nth_error_app1 by (rewrite skipn_length; lia). rewrite nth_error_skipn'. f_equal. lia.
  - rewrite nth_error_app2 by (rewrite skipn_length; lia). rewrite nth_error_skipn', skipn_length. f_equal. lia.
Qed.

Lemma advance_len F D el : 0 < F -> 0 <= D -> zlen (cb_buf el) = 2 * F + D -> zlen (cb_buf (advance F D el)) = 2 * F + D.
Proof. intros HF HD L. unfold zlen in *. unfold advance. cbn [cb_buf]. rewrite app_length, firstn_length, !skipn_length. lia. Qed.

Lemma ends_inside_last F ns a : ends_inside F ns -> 0 <= snd (lastp a ns) < F /\ ns <> [].
Proof.
  intros (pre & g & t & -> & H). unfold lastp. rewrite last_last. split; [exact H|]. destruct pre; discriminate.
Qed.

Lemma Inv_step F D h ns el nd : 0 < F -> 0 <= D -> Inv F D h el -> orderly F (h ++ [ns]) -> node_list nd = ns ->
  exists el', concatenate F D nd (advance F D el) = Done (0, el') /\ Inv F D (h ++ [ns]) el'.
Proof.
  intros HF HD (L & P & B & V) (O & EI) En. unfold axis in O. apply sorted_rising in O. cbn [snd] in O. rewrite from_frame_app in O.
  apply rising_app in O. destruct O as (O1 & O2). apply Forall_app in EI. destruct EI as (_ & EI). apply Forall_inv in EI.
  set (N := Z.of_nat (length h)) in *. destruct el as [[gl tl] pv buf]. cbn [cb_node cb_buf cb_prev snd fst] in *.
  destruct (ends_inside_last F ns (gl, tl - F) EI) as (EI1 & EI2).
 rewrite P in O2. unfold shiftn at 1 in O2. cbn [snd] in O2.
  replace ((N - 1) * F + tl) with ((0 + N) * F + (tl - F)) in O2 by lia. apply rising_shift in O2.
  unfold concatenate. rewrite En. set (ba := cb_buf (advance F D (mkCB (gl, tl) pv buf))).
  change (cb_prev (advance F D (mkCB (gl, tl) pv buf))) with (gl, tl - F). cbn [fst snd].
  destruct (segments_in F D HF HD ns 0 gl (tl - F) ba) as (l' & -> & L' & N').
  - apply advance_len; auto.
  - lia.
  - exact O2.
  - intros x Hx. pose proof (rising_le_last ns (gl, tl - F) x O2 Hx). lia.
  - left. exact EI2.
  - cbn [obind]. change (negb (0 =? 0)) with false. cbn match. eexists. split; [reflexivity|].
    assert (LA : zlen ba = 2 * F + D) by (apply advance_len; auto).
    split; [cbn [cb_buf]; lia|]. cbn [cb_node cb_buf]. rewrite app_length. cbn [length].
    replace (Z.of_nat (length h + 1) - 1) with N by lia.
    rewrite from_frame_app. fold N. 
    assert (PL : lastp (0, - F) (from_frame F 0 h ++ map (shiftn ((0 + N) * F)) ns) = shiftn (N * F) (lastp (gl, tl - F) ns)).
    { unfold lastp in *. rewrite last_app_r by (destruct ns; [congruence|discriminate]).
      destruct ns as [|b r]; [congruence|]. cbn [map]. rewrite !last_cons. rewrite last_map. replace ((0 + N) * F) with (N * F) by lia. reflexivity. }
    split; [exact PL|]. split; [exact EI1|]. intros j J1 J2.
    replace j with (D + F + (j - D - F)) at 1 by lia. rewrite N' by lia.
    replace (N * F + j - D - F) with (N * F + (j - D - F)) by lia. set (t := j - D - F) in *.
    unfold val. rewrite from_frame_app. fold N.
    destruct (Z.ltb_spec t (tl - F)).
    + unfold ba. rewrite advance_buf by (cbn [cb_buf]; auto; lia). cbn [cb_buf].
      replace (D + F + t <? F + D) with true by lia. rewrite V by lia. f_equal. unfold val.
      replace ((N - 1) * F + (D + F + t + F) - D - F) with (N * F + t) by lia.
      destruct (Z.ltb_spec (N * F + t) (- F)); [reflexivity|]. symmetry. apply cv_app_lo. cbn [snd]. rewrite P. cbn [shiftn snd]. lia.
    + f_equal. pose proof (rising_last _ (0, - F) O1) as RL. rewrite P in RL. cbn [shiftn snd] in RL.
      destruct (Z.ltb_spec (N * F + t) (- F)); [lia|].
      rewrite cv_app_hi; [|exact O1|rewrite P; cbn [shiftn snd]; lia]. rewrite P.
      replace (shiftn ((N - 1) * F) (gl, tl)) with (shiftn (N * F) (gl, tl - F)) by (unfold shiftn; cbn [fst snd]; f_equal; lia).
      replace ((0 + N) * F) with (N * F) by lia. symmetry. apply cv_shift.
Qed.

Lemma Inv_curve F D h el gd i : 0 < F -> 0 <= gd <= D -> 0 <= i < F -> orderly F h -> Inv F D h el ->
  exists c, oget (cb_buf el) (D - gd + i) = Done c /\ on_curve (axis F h) ((Z.of_nat (length h) - 2) * F + i - gd) c.
Proof.
  intros HF Hg Hi (O & _) (L & P & B & V). unfold oget. replace (D - gd + i <? 0) with false by lia.
  assert (X := V (D - gd + i) ltac:(lia) ltac:(lia)). unfold zn in X. rewrite X. eexists. split; [reflexivity|].
  replace ((Z.of_nat (length h) - 1) * F + (D - gd + i) - D - F) with ((Z.of_nat (length h) - 2) * F + i - gd) by lia.
  set (T := (Z.of_nat (length h) - 2) * F + i - gd). apply sorted_rising in O. cbn [snd] in O. unfold val. destruct (Z.ltb_spec T (- F)).
  - split; [reflexivity|]. intros pre g1 t1 g2 t2 post E HT. exfalso. unfold axis in E.
    destruct pre as [|p pre]; [injection E as ? ?; lia|]. injection E as _ E.
    pose proof (rising_le_last) as _.
    assert (Q : forall ns t x, rising t ns -> In x ns -> t < snd x).
    { induction ns as [|b r IH]; intros t x R I; [destruct I|]. destruct R as (R1 & R2). destruct I as [<-|I]; [exact R1|].
      specialize (IH _ _ R2 I). lia. }
    specialize (Q _ _ (g1, t1) O). rewrite E in Q. specialize (Q ltac:(apply in_or_app; right; left; reflexivity)). cbn in Q. lia.
  - apply cv_curve; [exact O|cbn; lia].
Qed.

(** ** All buffers of a DRC set *)
Lemma zn_in {A} (l : list A) j a : 0 <= j -> zn l j = Some a -> j < zlen l.
Proof. unfold zn, zlen. intros H E. assert (Z.to_nat j < length l)%nat by (apply nth_error_Some; congruence). lia. Qed.

Lemma oset_in {A} (l : list A) i a : 0 <= i < zlen l -> zlen (oset l i a) = zlen l /\
  forall j, 0 <= j -> zn (oset l i a) j = if j =? i then Some a else zn l j.
Proof.
  intros H. unfold oset. change (firstn (Z.to_nat i) l ++ a :: skipn (S (Z.to_nat i)) l) with (upd l (Z.to_nat i) a). unfold zlen, zn in *. split.
  - f_equal. apply upd_length. lia.
  - intros j Hj. rewrite upd_nth by lia. destruct (Z.eqb_spec j i) as [->|]; [rewrite Nat.eqb_refl; reflexivity|].
    destruct (Nat.eqb_spec (Z.to_nat j) (Z.to_nat i)); [lia|reflexivity].
Qed.

Lemma oget_zn {A} (l : list A) i a : 0 <= i -> zn l i = Some a -> oget l i = Done a.
Proof. unfold oget, zn. intros H ->. replace (i <? 0) with false by lia. reflexivity. Qed.

Definition joins (F D : Z) (st : list gseq) (o : Z * Z) (el : cbuf) (e : Z) (el' : cbuf) : Prop :=
  exists sq nd, zn st (fst o) = Some sq /\ zn (sq_nodes sq) (snd o) = Some nd /\ concatenate F D nd el = Done (e, el').

Lemma bands_ok F D st gs : 0 <= gs -> forall n band idx els, 0 <= band -> 0 <= idx ->
  (forall k, 0 <= k < Z.of_nat n -> exists el el', zn els (idx + k) = Some el /\ joins F D st (gs, band + k) el 0 el') ->
  exists els', bands_loop F D st gs n band idx els = Done (0, idx + Z.of_nat n, els') /\ zlen els' = zlen els /\
    (forall k el, 0 <= k < Z.of_nat n -> zn els (idx + k) = Some el -> exists el', zn els' (idx + k) = Some el' /\ joins F D st (gs, band + k) el 0 el') /\
    (forall j, 0 <= j -> j < idx \/ idx + Z.of_nat n <= j -> zn els' j = zn els j).
Proof.
  intros Hg. induction n as [|n IH]; intros band idx els Hb Hi H.
  - exists els. split; [cbn [bands_loop]; do 3 f_equal; lia|]. split; [reflexivity|]. split; [intros; lia|reflexivity].
  - destruct (H 0 ltac:(lia)) as (el & el' & E1 & (sq & nd & E2 & E3 & E4)). cbn [fst snd] in *. rewrite Z.add_0_r in E1, E3.
    cbn [bands_loop]. rewrite (oget_zn _ _ _ Hg E2). cbn [obind]. rewrite (oget_zn _ _ _ Hb E3). cbn [obind]. rewrite (oget_zn _ _ _ Hi E1). cbn [obind].
    rewrite E4. cbn [obind]. change (negb (0 =? 0)) with false. cbn match.
    pose proof (zn_in _ _ _ Hi E1) as Li. destruct (oset_in els idx el' ltac:(lia)) as (L1 & N1).
    destruct (IH (band + 1) (idx + 1) (oset els idx el')) as (els' & R & L2 & N2 & N3); [lia|lia| |].
    { intros k Hk. destruct (H (k + 1) ltac:(lia)) as (x & x' & X1 & X2). exists x, x'. split.
      - rewrite N1 by lia. replace (idx + 1 + k =? idx) with false by lia. rewrite <- X1. f_equal. lia.
      - replace (band + 1 + k) with (band + (k + 1)) by lia. exact X2. }
    exists els'. split; [rewrite R; do 3 f_equal; lia|]. split; [lia|]. split.
    + intros k x Hk Ex. destruct (Z.eq_dec k 0) as [->|].
      * rewrite Z.add_0_r in *. rewrite E1 in Ex. injection Ex as <-. exists el'. split.
        -- rewrite N3 by lia. rewrite N1 by lia. rewrite Z.eqb_refl. reflexivity.
        -- exists sq, nd. cbn [fst snd]. rewrite ?Z.add_0_r. auto.
      * destruct (N2 (k - 1) x ltac:(lia)) as (x' & X1 & X2).
        -- rewrite N1 by lia. replace (idx + 1 + (k - 1) =? idx) with false by lia. rewrite <- Ex. f_equal. lia.
        -- exists x'. replace (idx + k) with (idx + 1 + (k - 1)) by lia. replace (band + k) with (band + 1 + (k - 1)) by lia. auto.
    + intros j Hj Hr. rewrite N3 by lia. rewrite N1 by lia. replace (j =? idx) with false by lia. reflexivity.
Qed.

Lemma owner_cons gs n grps : 0 <= n -> forall k, 0 <= k ->
  zn (owner ((gs, n) :: grps)) k = if k <? n then Some (gs, k) else zn (owner grps) (k - n).
Proof.
  intros Hn k Hk. unfold owner. cbn [flat_map fst snd]. fold (owner grps). unfold zn. destruct (Z.ltb_spec k n).
  - rewrite nth_error_app1 by (rewrite map_length, seq_length; lia).
    rewrite nth_error_map. rewrite (nth_error_nth' _ 0%nat) by (rewrite seq_length; lia). rewrite seq_nth by lia. cbn [option_map Nat.add].
    do 2 f_equal. lia.
  - rewrite nth_error_app2 by (rewrite map_length, seq_length; lia). rewrite map_length, seq_length. f_equal. lia.
Qed.

Lemma groups_fine F D st : forall grps idx els, groups_ok grps -> 0 <= idx ->
  (forall k o, 0 <= k -> zn (owner grps) k = Some o -> exists el el', zn els (idx + k) = Some el /\ joins F D st o el 0 el') ->
  exists els', groups_loop F D st grps idx els = Done (0, els') /\ zlen els' = zlen els /\
    (forall k o el, 0 <= k -> zn (owner grps) k = Some o -> zn els (idx + k) = Some el -> exists el', zn els' (idx + k) = Some el' /\ joins F D st o el 0 el') /\
    (forall j, 0 <= j < idx -> zn els' j = zn els j).
Proof.
  induction grps as [|[gs n] r IH]; intros idx els G Hi H.
  - exists els. split; [reflexivity|]. split; [reflexivity|]. split; [|reflexivity]. intros k o el Hk E. unfold zn in E. cbn in E. destruct (Z.to_nat k); discriminate.
  - inversion G as [|x l (G1 & G2) G3]; subst. cbn [fst snd] in *. cbn [groups_loop].
    destruct (bands_ok F D st gs G1 (Z.to_nat n) 0 idx els) as (els1 & -> & L1 & N1 & N2); [lia|lia| |].
    { intros k Hk. apply (H k (gs, 0 + k)); [lia|]. rewrite owner_cons by lia. replace (k <? n) with true by lia. do 2 f_equal; lia. }
    cbn [obind]. change (negb (0 =? 0)) with false. cbn match. rewrite Z2Nat.id in * by lia.
    destruct (IH (idx + n) els1) as (els' & -> & L2 & N3 & N4); [exact G3|lia| |].
    { intros k o Hk Ho. destruct (H (n + k) o ltac:(lia)) as (el & el' & E1 & E2).
      - rewrite owner_cons by lia. replace (n + k <? n) with false by lia. rewrite <- Ho. f_equal. lia.
      - exists el, el'. split; [|exact E2]. rewrite N2 by lia. rewrite <- E1. f_equal. lia. }
    exists els'. split; [reflexivity|]. split; [lia|]. split.
    + intros k o el Hk Ho E. rewrite owner_cons in Ho by lia. destruct (Z.ltb_spec k n).
      * injection Ho as <-. destruct (N1 k el ltac:(lia) E) as (el' & X1 & X2). exists el'. split; [rewrite N4 by lia; exact X1|exact X2].
      * destruct (N3 (k - n) o el ltac:(lia) Ho) as (el' & X1 & X2).
        -- rewrite N2 by lia. rewrite <- E. f_equal. lia.
        -- exists el'. split; [rewrite <- X1; f_equal; lia|exact X2].
    + intros j Hj. rewrite N4 by lia. apply N2; lia.
Qed.

Lemma band_nodes_zn st gs b l : band_nodes st gs b = Some l ->
  exists sq nd, zn st gs = Some sq /\ zn (sq_nodes sq) b = Some nd /\ node_list nd = l.
Proof.
  unfold band_nodes, zn. destruct (nth_error st (Z.to_nat gs)) as [sq|]; [|discriminate].
  destruct (nth_error (sq_nodes sq) (Z.to_nat b)) as [nd|] eqn:E; [|discriminate]. intros H. injection H as <-. eauto.
Qed.

(** Every owner's buffer is as its history says. *)
Definition AllInv (F D : Z) (grps : list (Z * Z)) (h : list (list gseq)) (els : list cbuf) : Prop :=
  forall k gs b ns, 0 <= k -> zn (owner grps) k = Some (gs, b) -> history h gs b ns -> exists el, zn els k = Some el /\ Inv F D ns el.

Definition AllOrd (F : Z) (grps : list (Z * Z)) (h : list (list gseq)) : Prop :=
  forall gs b, In (gs, b) (owner grps) -> exists ns, history h gs b ns /\ orderly F ns.

Lemma history_det h gs b ns ms : history h gs b ns -> history h gs b ms -> ns = ms.
Proof.
  intros H. revert ms. induction H as [|st l h ns E H IH]; intros ms G; inversion G; subst; [reflexivity|]. f_equal; [congruence|auto].
Qed.

Lemma history_snoc h st gs b l : history (h ++ [st]) gs b l <-> exists ns m, l = ns ++ [m] /\ history h gs b ns /\ band_nodes st gs b = Some m.
Proof.
  unfold history. split.
  - intros H. apply Forall2_app_inv_l in H. destruct H as (l1 & l2 & H1 & H2 & ->). inversion H2 as [|a b' c d E R]; subst. inversion R; subst. eauto.
  - intros (ns & m & -> & H & E). apply Forall2_app; auto.
Qed.

Lemma zn_In {A} (l : list A) k a : zn l k = Some a -> In a l.
Proof. apply nth_error_In. Qed.

Lemma orderly_prefix F h ns : orderly F (h ++ [ns]) -> orderly F h.
Proof.
  intros (O & E). split.
  - unfold axis in *. apply sorted_rising in O. apply sorted_rising. rewrite from_frame_app in O. apply rising_app in O. tauto.
  - apply Forall_app in E. tauto.
Qed.

Lemma get_gain_step F D grps h st els : 0 < F -> 0 <= D -> groups_ok grps -> AllInv F D grps h els -> AllOrd F grps (h ++ [st]) ->
  exists els', get_gain F D grps st els = Done (0, els') /\ AllInv F D grps (h ++ [st]) els'.
Proof.
  intros HF HD G I O. unfold get_gain.
  assert (M : forall k, zn (map (advance F D) els) k = option_map (advance F D) (zn els k)) by (intros; unfold zn; apply nth_error_map).
  assert (S0 : forall k gs b, 0 <= k -> zn (owner grps) k = Some (gs, b) -> exists el, zn els k = Some el /\
     exists nsm el', history (h ++ [st]) gs b nsm /\ joins F D st (gs, b) (advance F D el) 0 el' /\ Inv F D nsm el').
  { intros k gs b Hk Ho. destruct (O gs b (zn_In _ _ _ Ho)) as (nsm & Hh & Ord). pose proof Hh as Hh'. apply history_snoc in Hh.
    destruct Hh as (ns & m & -> & Hh & Eb). destruct (I k gs b ns Hk Ho Hh) as (el & E & In0).
    exists el. split; [exact E|]. destruct (band_nodes_zn _ _ _ _ Eb) as (sq & nd & E1 & E2 & E3).
    destruct (Inv_step F D ns m el nd HF HD In0 Ord E3) as (el' & C & I').
    exists (ns ++ [m]), el'. split; [exact Hh'|]. split; [exists sq, nd; auto|exact I']. }
  destruct (groups_fine F D st grps 0 (map (advance F D) els) G ltac:(lia)) as (els' & R & L & N1 & _).
  { intros k [gs b] Hk Ho. destruct (S0 k gs b Hk Ho) as (el & E & ns & el' & _ & J & _). exists (advance F D el), el'. split; [|exact J].
    rewrite Z.add_0_l, M, E. reflexivity. }
  exists els'. split; [exact R|]. intros k gs b ns Hk Ho Hh. destruct (S0 k gs b Hk Ho) as (el & E & ns' & el' & Hh' & J & I').
  pose proof (history_det _ _ _ _ _ Hh Hh') as <-. destruct (N1 k (gs, b) (advance F D el) Hk Ho) as (x & X1 & X2).
  { rewrite Z.add_0_l, M, E. reflexivity. }
  exists x. split; [exact X1|]. destruct J as (sq & nd & J1 & J2 & J3), X2 as (sq' & nd' & Y1 & Y2 & Y3).
  rewrite J1 in Y1. injection Y1 as <-. rewrite J2 in Y2. injection Y2 as <-. rewrite J3 in Y3. injection Y3 as <-. exact I'.
Qed.

Lemma AllOrd_prefix F grps h st : AllOrd F grps (h ++ [st]) -> AllOrd F grps h.
Proof.
  intros O gs b H. destruct (O gs b H) as (ns & Hh & Ord). apply history_snoc in Hh. destruct Hh as (n0 & m & -> & Hh & _).
  exists n0. split; [exact Hh|]. apply (orderly_prefix _ _ _ Ord).
Qed.

Lemma play_app F D grps : forall h1 h2 els els1, play F D grps h1 els = Done (0, els1) -> play F D grps (h1 ++ h2) els = play F D grps h2 els1.
Proof.
  induction h1 as [|st h IH]; intros h2 els els1 H; [injection H as <-; reflexivity|]. cbn [play app] in *.
  destruct (get_gain F D grps st els) as [[e x]|c|u]; try discriminate. destruct (Z.eqb_spec e 0); [apply IH; exact H|].
  injection H as ? ?; congruence.
Qed.

Lemma play_inv F D grps els0 : 0 < F -> 0 <= D -> groups_ok grps -> AllInv F D grps [] els0 -> forall h, AllOrd F grps h ->
  exists els, play F D grps h els0 = Done (0, els) /\ AllInv F D grps h els.
Proof.
  intros HF HD G I0. induction h as [|st h IH] using rev_ind; intros O; [exists els0; auto|].
  destruct (IH (AllOrd_prefix _ _ _ _ O)) as (els & P & I). destruct (get_gain_step F D grps h st els HF HD G I O) as (els' & R & I').
  exists els'. split; [|exact I']. rewrite (play_app _ _ _ _ _ _ _ P). cbn [play]. rewrite R. reflexivity.
Qed.

Lemma gain_idx_owner : forall grps g b gs n, groups_ok grps -> nth_error grps g = Some (gs, n) -> Z.of_nat b < n ->
  0 <= gain_idx grps g /\ zn (owner grps) (gain_idx grps g + Z.of_nat b) = Some (gs, Z.of_nat b).
Proof.
  induction grps as [|[gs0 n0] r IH]; intros g b gs n G E H; [destruct g; discriminate|].
  inversion G as [|x l (G1 & G2) G3]; subst. cbn [fst snd] in *. destruct g as [|g].
  - injection E as -> ->. cbn [gain_idx]. split; [lia|]. rewrite owner_cons by lia. replace (0 + Z.of_nat b <? n) with true by lia. do 2 f_equal; lia.
  - cbn [nth_error] in E. destruct (IH g b gs n G3 E H) as (I1 & I2). cbn [gain_idx]. split; [lia|].
    rewrite owner_cons by lia. replace (n0 + gain_idx r g + Z.of_nat b <? n0) with false by lia. rewrite <- I2. f_equal. lia.
Qed.

Lemma gain_curve : forall F D gd grps h, 0 < F -> 0 <= gd <= D -> groups_ok grps -> AllOrd F grps h ->
  exists els, play F D grps h (repeat (fresh_el F D) (length (owner grps))) = Done (0, els) /\
    forall g b gs n ns i, nth_error grps g = Some (gs, n) -> Z.of_nat b < n -> history h gs (Z.of_nat b) ns -> 0 <= i < F ->
      exists c, applied F D gd false grps els g b i = Done c /\ on_curve (axis F ns) ((Z.of_nat (length h) - 2) * F + i - gd) c.
Proof.
  intros F D gd grps h HF Hg G O.
  destruct (play_inv F D grps (repeat (fresh_el F D) (length (owner grps))) HF ltac:(lia) G) with (h := h) as (els & P & I); [|exact O|].
  { intros k gs b ns Hk Ho Hh. inversion Hh; subst. exists (fresh_el F D). split; [|apply Inv_fresh; lia].
    pose proof (zn_in _ _ _ Hk Ho) as X. unfold zlen in X. unfold zn. apply nth_error_repeat. lia. }
  exists els. split; [exact P|]. intros g b gs n ns i E Hb Hh Hi. destruct (gain_idx_owner grps g b gs n G E Hb) as (I1 & I2).
  assert (I3 : 0 <= gain_idx grps g + Z.of_nat b) by lia. destruct (I _ _ _ _ I3 I2 Hh) as (el & E1 & E2). unfold applied. rewrite (oget_zn _ _ _ I3 E1). cbn [obind].
  replace (D - gd + 0 + i) with (D - gd + i) by lia.
  destruct (O gs (Z.of_nat b) (zn_In _ _ _ I2)) as (ms & Hm & Om). pose proof (history_det _ _ _ _ _ Hh Hm) as <-.
  destruct (Inv_curve F D ns el gd i HF Hg Hi Om E2) as (c & C1 & C2). exists c. split; [exact C1|].
  replace (length h) with (length ns); [exact C2|]. clear - Hh. induction Hh; [reflexivity|]. cbn [length]. congruence.
Qed.

(** ** Any usable nodes *)
Definition el_ok (F D : Z) (el : cbuf) : Prop := zlen (cb_buf el) = 2 * F + D /\ 0 <= snd (cb_node el) < F.

Lemma node_list_len nd : nodes_shape nd -> 1 <= nd_n nd <= 32 -> length (node_list nd) = Z.to_nat (nd_n nd).
Proof. intros (G & T) H. unfold node_list. rewrite combine_length, !firstn_length. lia. Qed.

Lemma node_list_nth nd i : nodes_shape nd -> 1 <= nd_n nd <= 32 -> Z.of_nat i < nd_n nd ->
  exists g t, nth_error (node_list nd) i = Some (g, t) /\ nth_error (nd_t nd) i = Some t.
Proof.
  intros (G & T) H Hi. unfold node_list.
  set (n := Z.to_nat (nd_n nd)). assert (Hn : (i < n)%nat) by lia. clearbody n.
  revert i Hn Hi. generalize (nd_t nd) T. generalize (nd_g nd) G.
  intros lg G0 lt0 T0 i Hn Hi.
  assert (A1 : (i < length lg)%nat) by lia. assert (A2 : (i < length lt0)%nat) by lia. clear - A1 A2 Hn.
  revert i lg lt0 A1 A2 Hn. induction n as [|n IH]; intros i lg lt0 A1 A2 Hn; [lia|].
  destruct lg as [|g lg]; [cbn in A1; lia|]. destruct lt0 as [|t lt0]; [cbn in A2; lia|]. cbn [firstn combine].
  destruct i as [|i]; [exists g, t; split; reflexivity|]. cbn [nth_error]. apply IH; cbn in *; lia.
Qed.

Lemma last_nth_error {A} (l : list A) a : l <> [] -> nth_error l (length l - 1) = Some (last l a).
Proof.
  induction l as [|x l IH]; intros H; [congruence|]. rewrite last_cons. cbn [length]. replace (S (length l) - 1)%nat with (length l) by lia.
  destruct l as [|y l]; [reflexivity|]. rewrite last_cons in *. cbn [length nth_error]. rewrite <- IH by discriminate. cbn [length].
  replace (S (length l) - 1)%nat with (length l) by lia. destruct (length l); reflexivity.
Qed.

Lemma concatenate_safe F D nd el : 0 < F -> 0 <= D -> nodes_shape nd -> usable F nd -> zlen (cb_buf el) = 2 * F + D -> 0 <= snd (cb_node el) < F ->
  - F <= snd (cb_prev el) -> exists e el', concatenate F D nd el = Done (e, el') /\ el_ok F D el'.
Proof.
  intros HF HD S0 (U1 & U2 & (t & U3 & U4)) L B P. unfold concatenate.
  destruct (segments_safe F D HF HD (node_list nd) 0 (fst (cb_prev el)) (snd (cb_prev el)) (cb_buf el) L P) as (e & n & l' & -> & L' & N).
  - intros x Hx. apply In_nth_error in Hx. destruct Hx as (i & Hi).
    assert (Li : (i < length (node_list nd))%nat) by (apply nth_error_Some; congruence). rewrite node_list_len in Li by auto.
    destruct (node_list_nth nd i S0 U1 ltac:(lia)) as (g & t' & E1 & E2). rewrite Hi in E1. injection E1 as ->. apply (U2 i t'); [lia|exact E2].
  - cbn [obind]. destruct (Z.eqb_spec e 0) as [->|].
    + eexists _, _. split; [reflexivity|]. split; [cbn [cb_buf]; lia|]. cbn [cb_node]. rewrite N by reflexivity. unfold lastp.
      pose proof (node_list_len nd S0 U1) as NL. assert (NE : node_list nd <> []) by (destruct (node_list nd); [cbn in NL; lia|discriminate]).
      pose proof (last_nth_error (node_list nd) (fst (cb_prev el), snd (cb_prev el)) NE) as X. rewrite NL in X.
      replace (Z.to_nat (nd_n nd) - 1)%nat with (Z.to_nat (nd_n nd - 1)) in X by lia.
      destruct (node_list_nth nd (Z.to_nat (nd_n nd - 1)) S0 U1 ltac:(lia)) as (g & t' & E1 & E2). rewrite X in E1. injection E1 as ->.
      cbn [snd]. rewrite U3 in E2. injection E2 as <-. pose proof (U2 (Z.to_nat (nd_n nd - 1)) t ltac:(lia) U3). lia.
    + eexists _, _. split; [reflexivity|]. split; [cbn [cb_buf]; lia|exact B].
Qed.

(** A buffer just advanced, or already joined. *)
Definition half_ok (F D : Z) (el : cbuf) : Prop := el_ok F D el /\ - F <= snd (cb_prev el).

Lemma concatenate_prev F D nd el e el' : concatenate F D nd el = Done (e, el') -> cb_prev el' = cb_prev el.
Proof.
  unfold concatenate. destruct (segments _ _ _ _ _ _ _) as [[[a n] l]| |]; [|discriminate|discriminate]. cbn [obind].
  destruct (negb (a =? 0)); intros H; injection H as <- <-; reflexivity.
Qed.

Definition fits (F : Z) (st : list gseq) (o : Z * Z) : Prop :=
  exists sq nd, zn st (fst o) = Some sq /\ zn (sq_nodes sq) (snd o) = Some nd /\ nodes_shape nd /\ usable F nd.

Lemma Forall_zn {A} (P : A -> Prop) l : Forall P l <-> forall j a, 0 <= j -> zn l j = Some a -> P a.
Proof.
  split.
  - intros H j a _ E. rewrite Forall_forall in H. apply H. apply (zn_In _ _ _ E).
  - intros H. apply Forall_forall. intros a Ha. apply In_nth_error in Ha. destruct Ha as (i & Hi). apply (H (Z.of_nat i) a); [lia|].
    unfold zn. rewrite Nat2Z.id. exact Hi.
Qed.

Lemma bands_safe F D st gs : 0 < F -> 0 <= D -> 0 <= gs -> forall n band idx els, 0 <= band -> 0 <= idx -> idx + Z.of_nat n <= zlen els ->
  Forall (half_ok F D) els -> (forall k, 0 <= k < Z.of_nat n -> fits F st (gs, band + k)) ->
  exists e i els', bands_loop F D st gs n band idx els = Done (e, i, els') /\ zlen els' = zlen els /\ Forall (half_ok F D) els' /\ (e = 0 -> i = idx + Z.of_nat n).
Proof.
  intros HF HD Hg. induction n as [|n IH]; intros band idx els Hb Hi Hl O H.
  - exists 0, idx, els. split; [reflexivity|]. split; [reflexivity|]. split; [exact O|]. intros _. lia.
  - destruct (H 0 ltac:(lia)) as (sq & nd & E2 & E3 & S0 & U). cbn [fst snd] in *. rewrite Z.add_0_r in E3.
    cbn [bands_loop]. rewrite (oget_zn _ _ _ Hg E2). cbn [obind]. rewrite (oget_zn _ _ _ Hb E3). cbn [obind].
    assert (exists el, zn els idx = Some el) as (el & E1).
    { unfold zn, zlen in *. destruct (nth_error els (Z.to_nat idx)) eqn:Q; [eauto|]. apply nth_error_None in Q. lia. }
    rewrite (oget_zn _ _ _ Hi E1). cbn [obind].
    pose proof (proj1 (Forall_zn _ _) O idx el Hi E1) as ((O1 & O2) & O3).
    destruct (concatenate_safe F D nd el HF HD S0 U O1 O2 O3) as (e & el' & C & K). rewrite C. cbn [obind].
    destruct (oset_in els idx el' ltac:(lia)) as (L1 & N1).
    assert (O' : Forall (half_ok F D) (oset els idx el')).
    { apply Forall_zn. intros j a Hj E. rewrite N1 in E by lia. destruct (j =? idx).
      - injection E as <-. split; [exact K|]. rewrite (concatenate_prev _ _ _ _ _ _ C). exact O3.
      - apply (proj1 (Forall_zn _ _) O j a Hj E). }
    destruct (Z.eqb_spec e 0) as [->|]; cbn [negb].
    + destruct (IH (band + 1) (idx + 1) (oset els idx el')) as (e & i & els' & R & L2 & O2' & N2); [lia|lia|lia|exact O'| |].
      * intros k Hk. replace (band + 1 + k) with (band + (k + 1)) by lia. apply H. lia.
      * exists e, i, els'. split; [exact R|]. split; [lia|]. split; [exact O2'|]. intros E. specialize (N2 E). lia.
    + exists e, idx, (oset els idx el'). split; [reflexivity|]. split; [exact L1|]. split; [exact O'|]. intros; contradiction.
Qed.

Lemma groups_safe F D st : 0 < F -> 0 <= D -> forall grps idx els, groups_ok grps -> 0 <= idx -> idx + zlen (owner grps) <= zlen els ->
  Forall (half_ok F D) els -> (forall o, In o (owner grps) -> fits F st o) ->
  exists e els', groups_loop F D st grps idx els = Done (e, els') /\ zlen els' = zlen els /\ Forall (half_ok F D) els'.
Proof.
  intros HF HD. induction grps as [|[gs n] r IH]; intros idx els G Hi Hl O H.
  - exists 0, els. auto.
  - inversion G as [|x l (G1 & G2) G3]; subst. cbn [fst snd] in *. cbn [groups_loop].
    assert (LO : zlen (owner ((gs, n) :: r)) = n + zlen (owner r)).
    { unfold zlen, owner. cbn [flat_map fst snd]. rewrite app_length, map_length, seq_length. lia. }
    assert (0 <= zlen (owner r)) by (unfold zlen; lia).
    destruct (bands_safe F D st gs HF HD G1 (Z.to_nat n) 0 idx els) as (e & i & els1 & -> & L1 & O1 & N1); [lia|lia|lia|exact O| |].
    { intros k Hk. apply H. apply (zn_In _ k). rewrite owner_cons by lia. replace (k <? n) with true by lia. reflexivity. }
    cbn [obind]. destruct (Z.eqb_spec e 0) as [->|]; cbn [negb].
    + specialize (N1 eq_refl). destruct (IH i els1) as (e & els' & -> & L2 & O2); [exact G3|lia|lia|exact O1| |].
      * intros o Ho. apply H. unfold owner. cbn [flat_map]. apply in_or_app. right. exact Ho.
      * exists e, els'. split; [reflexivity|]. split; [lia|exact O2].
    + exists e, els1. auto.
Qed.

Lemma gain_curve_safe F D grps st els : 0 < F -> 0 <= D -> groups_ok grps -> (length (owner grps) <= length els)%nat -> Forall (el_ok F D) els ->
  (forall gs b, In (gs, b) (owner grps) -> exists sq nd, nth_error st (Z.to_nat gs) = Some sq /\ nth_error (sq_nodes sq) (Z.to_nat b) = Some nd /\
     nodes_shape nd /\ usable F nd) ->
  exists e els', get_gain F D grps st els = Done (e, els') /\ length els' = length els /\ Forall (el_ok F D) els'.
Proof.
  intros HF HD G L O H. unfold get_gain.
  destruct (groups_safe F D st HF HD grps 0 (map (advance F D) els)) as (e & els' & -> & L' & O'); auto.
  - lia.
  - unfold zlen. rewrite map_length. lia.
  - apply Forall_map. eapply Forall_impl; [|exact O]. intros el (A & B). cbv beta. split; [split|].
    + apply advance_len; auto.
    + exact B.
    + cbn [advance cb_prev snd]. lia.
  - intros [gs b] Ho. exact (H gs b Ho).
  - exists e, els'. split; [reflexivity|]. split.
    + unfold zlen in L'. rewrite map_length in L'. lia.
    + eapply Forall_impl; [|exact O']. intros el (A & _). exact A.
Qed.

(** ** After a refused payload *)
Definition zero_gain : list gseq := repeat (mkSq 0 (repeat (mkNd 0 (repeat 0 128) (repeat 0 128)) 4)) 24.
Definition stale_set : gset := mkGS 0 1 0 1 0 0 1 0 [(0, 0)] [].

Fixpoint pairs_eqb (a b : list (Z * Z)) : bool :=
  match a, b with
  | [], [] => true
  | (x, y) :: a, (u, v) :: b => (x =? u) && (y =? v) && pairs_eqb a b
  | _, _ => false
  end.
Lemma pairs_eqb_eq : forall a b, pairs_eqb a b = true -> a = b.
Proof.
  induction a as [|[x y] a IH]; intros [|[u v] b] H; try reflexivity; try discriminate. cbn [pairs_eqb] in H.
  apply andb_prop in H. destruct H as (H & H2). f_equal; [f_equal; lia|auto].
Qed.

Definition stale_check : bool :=
  match init_dec zero_table 48000 with
  | Done (Ok (tm, tb)) =>
    match exec (read_gain (mkGP tm tb 1024 false) [stale_set] zero_gain) (fresh [192; 0]) with
    | Done (e1, st1, _) =>
      match exec (read_gain (mkGP tm tb 1024 false) [stale_set] st1) (fresh [158; 167; 144; 1; 32]) with
      | Done (e2, st2, _) =>
        (tm =? 32) && (e1 =? 0) && negb (e2 =? 0) &&
        match band_nodes st1 0 0, band_nodes st2 0 0 with
        | Some l1, Some l2 => pairs_eqb l1 [(0, 15)] && pairs_eqb l2 [(0, -977); (0, 1071); (0, 3119)]
        | _, _ => false
        end
      | _ => false
      end
    | _ => false
    end
  | _ => false
  end.
Lemma stale_checked : stale_check = true.
Proof. vm_compute. reflexivity. Qed.

Lemma stale_refuted :
  exists tb st1 s1 e2 st2 s2 els, init_dec zero_table 48000 = Done (Ok (32, tb)) /\
    exec (read_gain (mkGP 32 tb 1024 false) [stale_set] zero_gain) (fresh [192; 0]) = Done (0, st1, s1) /\
    get_gain 1024 1536 [(0, 1)] st1 [fresh_el 1024 1536] = Done (0, els) /\
    exec (read_gain (mkGP 32 tb 1024 false) [stale_set] st1) (fresh [158; 167; 144; 1; 32]) = Done (e2, st2, s2) /\ e2 <> 0 /\
    get_gain 1024 1536 [(0, 1)] st2 els = UB UOob.
Proof.
  pose proof stale_checked as H. unfold stale_check in H.
  destruct (init_dec zero_table 48000) as [[[tm tb]|]| |] eqn:E0; try discriminate H.
  destruct (exec _ (fresh [192; 0])) as [[[e1 st1] s1]| |] eqn:E1; try discriminate H.
  destruct (exec _ (fresh [158; 167; 144; 1; 32])) as [[[e2 st2] s2]| |] eqn:E2; try discriminate H.
  apply andb_prop in H. destruct H as (H & Hn). apply andb_prop in H. destruct H as (H & He2). apply andb_prop in H. destruct H as (Ht & He1).
  apply Z.eqb_eq in Ht, He1. subst tm e1. destruct (band_nodes st1 0 0) as [l1|] eqn:B1; [|discriminate]. destruct (band_nodes st2 0 0) as [l2|] eqn:B2; [|discriminate].
  apply andb_prop in Hn. destruct Hn as (Q1 & Q2). apply pairs_eqb_eq in Q1, Q2. subst l1 l2.
  destruct (get_gain_step 1024 1536 [(0, 1)] [] st1 [fresh_el 1024 1536]) as (els & G & I).
  - lia.
  - lia.
  - repeat constructor; cbn; lia.
  - intros k gs b ns Hk Ho Hh. inversion Hh; subst. exists (fresh_el 1024 1536). split; [|apply Inv_fresh; lia].
    pose proof (zn_in _ _ _ Hk Ho) as X. change (zlen (owner [(0, 1)])) with 1 in X. replace k with 0 by lia. reflexivity.
  - intros gs b [E|[]]. injection E as <- <-. exists [[(0, 15)]]. split.
    + constructor; [exact B1|constructor].
    + split; [|constructor; [|constructor]].
      * apply sorted_rising. cbn. lia.
      * exists [], 0, 15. split; [reflexivity|lia].
  - destruct (I 0 0 0 [[(0, 15)]] ltac:(lia) eq_refl) as (el & E & (L & P & B & V)); [constructor; [exact B1|constructor]|].
    exists tb, st1, s1, e2, st2, s2, els. split; [reflexivity|]. split; [exact E1|]. split; [exact G|]. split; [exact E2|]. split; [lia|].
    unfold get_gain. cbn [groups_loop]. change (Z.to_nat 1) with 1%nat. cbn [bands_loop].
    destruct (band_nodes_zn _ _ _ _ B2) as (sq & nd & X1 & X2 & X3).
    rewrite (oget_zn _ _ _ (Z.le_refl 0) X1). cbn [obind]. rewrite (oget_zn _ _ _ (Z.le_refl 0) X2). cbn [obind].
    assert (M : zn (map (advance 1024 1536) els) 0 = Some (advance 1024 1536 el)) by (unfold zn in *; rewrite nth_error_map, E; reflexivity).
    rewrite (oget_zn _ _ _ (Z.le_refl 0) M). cbn [obind]. unfold concatenate. rewrite X3.
    assert (T15 : snd (cb_node el) = 15).
    { cbn in P. destruct (cb_node el) as [g t]. unfold lastp, shiftn in P. cbn in P. injection P as <- P. cbn. lia. }
    change [(0, -977); (0, 1071); (0, 3119)] with ([(0, -977)] ++ (0, 1071) :: [(0, 3119)]).
    rewrite (segments_overrun 1024 1536 ltac:(lia) ltac:(lia) [(0, -977)]); [reflexivity|..].
    + apply advance_len; [lia|lia|exact L].
    + cbn [advance cb_prev snd]. lia.
    + cbn [advance cb_prev snd app rising]. lia.
    + intros x [<-|[]]. cbn. lia.
    + lia.
Qed.

(** What a payload read without error leaves is safe. *)
Lemma payload_curve_safe tb tm low c st s st' s' D grps els : table_of tb tm -> coef_within c -> gain_shape st -> wf s ->
  exec (read_gain (mkGP tm tb 1024 low) (co_sets c) st) s = Done (0, st', s') -> 0 <= D -> groups_ok grps ->
  (forall gs n, In (gs, n) grps -> exists g, nth_error (co_sets c) (Z.to_nat gs) = Some g /\ n <= (if gs_prof g =? 3 then 1 else gs_count g)) ->
  (length (owner grps) <= length els)%nat -> Forall (el_ok 1024 D) els ->
  exists e els', get_gain 1024 D grps st' els = Done (e, els') /\ length els' = length els /\ Forall (el_ok 1024 D) els'.
Proof.
  intros T C S0 W X HD G HG L O. pose proof (gain_safe tb tm low c st s T C S0 W) as Y. rewrite X in Y. destruct Y as (_ & (S1 & S2) & U).
  specialize (U eq_refl). apply gain_curve_safe; auto; [lia|]. intros gs b Hb. unfold owner in Hb. apply in_flat_map in Hb.
  destruct Hb as ([gs0 n] & I1 & I2). apply in_map_iff in I2. destruct I2 as (k & E & I2). cbn [fst snd] in *. injection E as -> <-. apply in_seq in I2.
  destruct (HG gs n I1) as (g & Eg & Hn). destruct C as (C1 & C2). 
  assert (Lg : (Z.to_nat gs < length (co_sets c))%nat) by (apply nth_error_Some; congruence).
  destruct (nth_error st' (Z.to_nat gs)) as [sq|] eqn:Es; [|apply nth_error_None in Es; lia].
  exists sq. assert (SH : seq_shape sq) by (rewrite Forall_forall in S2; apply S2; apply (nth_error_In _ _ Es)).
  destruct SH as (H1 & H2). destruct (U _ g sq Eg Es) as (U1 & U2).
  assert (Sq : sq_count sq <= 4).
  { rewrite U1. destruct (gs_prof g =? 3); [lia|]. pose proof (C2 g (nth_error_In _ _ Eg)) as SW. unfold set_within in SW. lia. }
  rewrite Nat2Z.id.
  destruct (nth_error (sq_nodes sq) k) as [nd|] eqn:En; [|apply nth_error_None in En; lia].
  exists nd. split; [reflexivity|]. split; [reflexivity|]. split; [rewrite Forall_forall in H2; apply H2; apply (nth_error_In _ _ En)|].
  apply (U2 k nd); [|exact En]. lia.
Qed.

(** ** A concrete history *)
Definition ex_nd (l : list (Z * Z)) : nodes := mkNd (Z.of_nat (length l)) (map fst l) (map snd l).
Definition ex_grps : list (Z * Z) := [(1, 2); (0, 1)].
Definition ex_h : list (list gseq) :=
  [[mkSq 1 [ex_nd [(-24, 1023)]]; mkSq 2 [ex_nd [(-8, 31); (4, 511)]; ex_nd [(0, 1023)]]];
   [mkSq 1 [ex_nd [(-24, 95); (0, 1023)]]; mkSq 2 [ex_nd [(-16, -257); (-8, 1023)]; ex_nd [(1, 127)]]]].
Lemma ex_history : groups_ok ex_grps /\ owner ex_grps = [(1, 0); (1, 1); (0, 0)] /\
  (forall gs b, In (gs, b) (owner ex_grps) -> exists ns, history ex_h gs b ns /\ orderly 1024 ns) /\
  history ex_h 1 0 [[(-8, 31); (4, 511)]; [(-16, -257); (-8, 1023)]] /\
  axis 1024 [[(-8, 31); (4, 511)]; [(-16, -257); (-8, 1023)]] = [(0, -1024); (-8, 31); (4, 511); (-16, 767); (-8, 2047)].
Proof.
  split; [repeat constructor; cbn; lia|]. split; [reflexivity|]. split; [|split; [repeat constructor|reflexivity]].
  intros gs b Hi. change (owner ex_grps) with [(1, 0); (1, 1); (0, 0)] in Hi.
  assert (ORD : forall ns, rising (- (1024)) (from_frame 1024 0 ns) -> Forall (ends_inside 1024) ns -> orderly 1024 ns)
    by (intros ns H1 H2; split; [apply sorted_rising; exact H1|exact H2]).
  destruct Hi as [E|[E|[E|[]]]]; injection E as <- <-.
  - exists [[(-8, 31); (4, 511)]; [(-16, -257); (-8, 1023)]]. split; [repeat constructor|]. apply ORD; [cbn; lia|].
    constructor; [exists [(-8, 31)], 4, 511; split; [reflexivity|lia]|]. constructor; [exists [(-16, -257)], (-8), 1023; split; [reflexivity|lia]|constructor].
  - exists [[(0, 1023)]; [(1, 127)]]. split; [repeat constructor|]. apply ORD; [cbn; lia|].
    constructor; [exists [], 0, 1023; split; [reflexivity|lia]|]. constructor; [exists [], 1, 127; split; [reflexivity|lia]|constructor].
  - exists [[(-24, 1023)]; [(-24, 95); (0, 1023)]]. split; [repeat constructor|]. apply ORD; [cbn; lia|].
    constructor; [exists [], (-24), 1023; split; [reflexivity|lia]|]. constructor; [exists [(-24, 95)], 0, 1023; split; [reflexivity|lia]|constructor].
Qed.
