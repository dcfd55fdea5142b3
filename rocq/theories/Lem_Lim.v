(** * Lem_Lim: proofs about the peak limiter *)

From Coq Require Import ZArith Reals Lia Lra Bool List SpecFloat.
From Flocq Require Import Core IEEE754.BinarySingleNaN.
From Verif Require Import F32 Lem_Round Limiter Spec_Lim.
Import ListNotations.
Open Scope R_scope.

(** ** Circular buffers *)
Definition circ {A} (b : list A) (i : nat) : list A := skipn i b ++ firstn i b.

Lemma upd_len {A} (b : list A) i v : (i < length b)%nat -> length (upd b i v) = length b.
Proof. intros. unfold upd. rewrite app_length, firstn_length. cbn [length]. rewrite skipn_length. lia. Qed.

Lemma skipn_nth {A} (b : list A) i d : (i < length b)%nat -> skipn i b = nth i b d :: skipn (S i) b.
Proof.
  revert i. induction b as [|x b IH]; intros i H; cbn [length] in H; [lia|].
  destruct i; [reflexivity|]. cbn [skipn nth]. rewrite (IH i) by lia. destruct b; reflexivity.
Qed.

Lemma circ_head {A} (b : list A) i d : (i < length b)%nat -> circ b i = nth i b d :: (skipn (S i) b ++ firstn i b).
Proof. intros. unfold circ. rewrite (skipn_nth b i d) by assumption. reflexivity. Qed.

Lemma circ_step {A} (b : list A) i x : (i < length b)%nat ->
  circ (upd b i x) (if Nat.eqb (S i) (length b) then 0 else S i)%nat = tl (circ b i) ++ [x].
Proof.
  intros H. rewrite (circ_head b i x) by assumption. cbn [tl]. unfold upd, circ.
  assert (LF : length (firstn i b) = i) by (rewrite firstn_length; lia).
  destruct (Nat.eqb_spec (S i) (length b)) as [E|E].
  - rewrite (skipn_all2 b) by lia. cbn [skipn firstn app]. rewrite app_nil_r. reflexivity.
  - rewrite skipn_app, LF, firstn_app, LF.
    rewrite (skipn_all2 (firstn i b)) by lia. rewrite (firstn_all2 (firstn i b)) by lia.
    replace (S i - i)%nat with 1%nat by lia. cbn [skipn firstn app]. rewrite <- app_assoc. reflexivity.
Qed.

Lemma circ_in {A} (b : list A) i x : (i <= length b)%nat -> (In x (circ b i) <-> In x b).
Proof.
  intros H. unfold circ. rewrite <- (firstn_skipn i b) at 3. rewrite !in_app_iff. tauto.
Qed.
Lemma circ_len {A} (b : list A) i : length (circ b i) = length b.
Proof. unfold circ. rewrite app_length, skipn_length, firstn_length. lia. Qed.

(** The last n elements. *)
Definition last_n {A} (n : nat) (l : list A) : list A := skipn (length l - n) l.

Lemma last_n_snoc {A} n (l : list A) x : (0 < n <= length l)%nat -> last_n n (l ++ [x]) = tl (last_n n l) ++ [x].
Proof.
  intros H. unfold last_n. rewrite app_length. cbn [length].
  rewrite skipn_app. replace (length l + 1 - n - length l)%nat with 0%nat by lia. cbn [skipn].
  f_equal. replace (length l + 1 - n)%nat with (S (length l - n)) by lia.
  destruct l as [|d l0]; [cbn in H; lia|]. set (l := d :: l0) in *.
  rewrite (skipn_nth l (length l - n) d) by lia. reflexivity.
Qed.

(** ** Levels: non-negative numbers and plus infinity *)
Definition lev (x : f32) : Prop := x = S754_infinity false \/ exists a, fin x a /\ 0 <= a.

Lemma nan_not_fin a : ~ fin S754_nan a.
Proof. intros (b & F & E & _). destruct b; discriminate. Qed.
Lemma inf_not_fin s a : ~ fin (S754_infinity s) a.
Proof. intros (b & F & E & _). destruct b; discriminate. Qed.

Ltac notfin := exfalso; match goal with H : fin (S754_infinity _) _ |- _ => exact (inf_not_fin _ _ H) | H : fin S754_nan _ |- _ => exact (nan_not_fin _ H) end.

Lemma le_inf x : lev x -> f_le x (S754_infinity false) = true.
Proof.
  intros [->|(a & F & _)]; [reflexivity|].
  destruct x as [?|?| |? ? ?]; try reflexivity; notfin.
Qed.
Lemma inf_le x a : fin x a -> f_le (S754_infinity false) x = false.
Proof.
  intros F. destruct x as [?|?| |? ? ?]; try reflexivity; notfin.
Qed.

Lemma lev_refl x : lev x -> f_le x x = true.
Proof. intros [->|(a & F & _)]; [reflexivity|]. rewrite (fin_le _ _ _ _ F F). apply Rle_bool_true. lra. Qed.

Lemma lev_total x y : lev x -> lev y -> f_le x y = true \/ f_le y x = true.
Proof.
  intros [->|(a & F & A)] Y; [right; apply le_inf, Y|]. destruct Y as [->|(b & G & B)].
  - left. apply le_inf. right. eauto.
  - rewrite (fin_le _ _ _ _ F G), (fin_le _ _ _ _ G F).
    destruct (Rle_bool_spec a b); [left; reflexivity|]. right. apply Rle_bool_true. lra.
Qed.

Lemma lev_trans x y z : lev x -> lev y -> lev z -> f_le x y = true -> f_le y z = true -> f_le x z = true.
Proof.
  intros X Y Z H1 H2. destruct Z as [->|(c & K & C)]; [apply le_inf, X|].
  destruct Y as [->|(b & G & B)]; [rewrite (inf_le _ _ K) in H2; discriminate|].
  destruct X as [->|(a & F & A)]; [rewrite (inf_le _ _ G) in H1; discriminate|].
  rewrite (fin_le _ _ _ _ F G) in H1. rewrite (fin_le _ _ _ _ G K) in H2. rewrite (fin_le _ _ _ _ F K).
  destruct (Rle_bool_spec a b); [|discriminate]. destruct (Rle_bool_spec b c); [|discriminate].
  apply Rle_bool_true. lra.
Qed.

Lemma lev_not_nan x : lev x -> is_nan x = false.
Proof. intros [->|(a & F & _)]; [reflexivity|]. destruct x; try reflexivity. exfalso. exact (nan_not_fin _ F). Qed.

Lemma lev_lt x y : lev x -> lev y -> f_lt x y = negb (f_le y x).
Proof.
  intros [->|(a & F & A)] Y.
  - rewrite (le_inf _ Y). destruct Y as [->|(b & G & B)]; [reflexivity|].
    destruct y as [?|?| |? ? ?]; try reflexivity; notfin.
  - destruct Y as [->|(b & G & B)].
    + rewrite (inf_le _ _ F). unfold f_lt.
      destruct x as [?|?| |? ? ?]; try reflexivity; notfin.
    + rewrite (fin_lt _ _ _ _ F G), (fin_le _ _ _ _ G F).
      destruct (Rlt_bool_spec a b), (Rle_bool_spec b a); try reflexivity; lra.
Qed.

Lemma lev_zero : lev f_zero.
Proof. right. exists 0. split; [apply fin_0|lra]. Qed.


Lemma abs_lev x : float32 x -> is_nan x = false -> lev (f_abs x).
Proof.
  intros V N. destruct x as [s|s| |s m e]; try discriminate.
  - exact lev_zero.
  - left. reflexivity.
  - destruct (valid_fin _ V eq_refl) as (a & F). right. exists (Rabs a). split; [exact (fin_abs _ _ F)|apply Rabs_pos].
Qed.

Lemma f_max_lev a b : lev a -> lev b -> lev (f_max a b) /\ f_le a (f_max a b) = true /\ f_le b (f_max a b) = true /\
  (f_max a b = a \/ f_max a b = b).
Proof.
  intros A B. unfold f_max. rewrite (lev_not_nan _ A), (lev_not_nan _ B), (lev_lt _ _ A B).
  destruct (f_le b a) eqn:E; cbn [negb].
  - split; [exact A|]. split; [apply lev_refl, A|]. split; [exact E|left; reflexivity].
  - split; [exact B|]. split; [|split; [apply lev_refl, B|right; reflexivity]].
    destruct (lev_total a b A B); congruence.
Qed.

Lemma f_max_nan a x : is_nan x = true -> lev a -> f_max a (f_abs x) = a.
Proof.
  intros N A. destruct x; try discriminate. unfold f_max. rewrite (lev_not_nan _ A). reflexivity.
Qed.

(** The level of a row: largest magnitude of its numbers. *)
Lemma level_from x : Forall float32 x -> forall t, lev t ->
  let L := fold_left (fun t v => f_max t (f_abs v)) x t in
  lev L /\ f_le t L = true /\ (forall v, In v x -> is_nan v = false -> f_le (f_abs v) L = true) /\
  (L = t \/ exists v, In v x /\ is_nan v = false /\ L = f_abs v).
Proof.
  induction 1 as [|v x V X IH]; intros t T; cbn [fold_left].
  - cbv zeta. split; [exact T|]. split; [apply lev_refl, T|]. split; [intros v []|left; reflexivity].
  - destruct (is_nan v) eqn:N.
    + rewrite (f_max_nan t v N T). destruct (IH t T) as (A & B & C & D). cbv zeta.
      split; [exact A|]. split; [exact B|]. split.
      * intros w [->|W] NW; [congruence|apply C; assumption].
      * destruct D as [D|(w & W & NW & D)]; [left; exact D|right; exists w; repeat split; [right|..]; assumption].
    + pose proof (abs_lev v V N) as LV. destruct (f_max_lev t (f_abs v) T LV) as (M1 & M2 & M3 & M4).
      destruct (IH _ M1) as (A & B & C & D). cbv zeta.
      split; [exact A|]. split; [exact (lev_trans _ _ _ T M1 A M2 B)|]. split.
      * intros w [->|W] NW; [exact (lev_trans _ _ _ LV M1 A M3 B)|apply C; assumption].
      * destruct D as [D|(w & W & NW & D)]; [|right; exists w; repeat split; [right|..]; assumption].
        destruct M4 as [M4|M4]; [left; congruence|right; exists v; repeat split; [left; reflexivity|assumption|congruence]].
Qed.

Lemma level_lev x : Forall float32 x -> lev (level x).
Proof. intros H. exact (proj1 (level_from x H _ lev_zero)). Qed.

(** ** The index of the maximum *)
Definition top (b : list f32) (m : nat) : Prop :=
  (m < length b)%nat /\ forall j, (j < length b)%nat -> f_le (ix b j) (ix b m) = true.

Lemma ix_in b j : (j < length b)%nat -> In (ix b j) b.
Proof. intros. apply nth_In. assumption. Qed.

Lemma rescan_top b : (0 < length b)%nat -> Forall lev b -> top b (rescan b).
Proof.
  intros L F. unfold rescan.
  assert (LV : forall j, (j < length b)%nat -> lev (ix b j)).
  { intros j H. rewrite Forall_forall in F. apply F, ix_in, H. }
  assert (G : forall k s m, (s + k = length b)%nat -> (m < length b)%nat ->
    (forall j, (j < s)%nat -> f_le (ix b j) (ix b m) = true) ->
    let m' := fold_left (fun m j => if f_lt (ix b m) (ix b j) then j else m) (seq s k) m in
    (m' < length b)%nat /\ forall j, (j < length b)%nat -> f_le (ix b j) (ix b m') = true).
  { induction k as [|k IH]; intros s m E M A; cbn [seq fold_left].
    - cbv zeta. split; [exact M|]. intros j J. apply A. lia.
    - apply IH; [lia|destruct (f_lt (ix b m) (ix b s)); lia|].
      intros j J. rewrite (lev_lt _ _ (LV m M) (LV s ltac:(lia))).
      destruct (f_le (ix b s) (ix b m)) eqn:Q; cbn [negb].
      + destruct (Nat.eq_dec j s) as [->|NE]; [exact Q|apply A; lia].
      + destruct (Nat.eq_dec j s) as [->|NE]; [apply lev_refl, LV; lia|].
        apply (lev_trans _ (ix b m)); try (apply LV; lia); [apply A; lia|].
        destruct (lev_total (ix b s) (ix b m) (LV s ltac:(lia)) (LV m M)); congruence. }
  apply (G (length b - 1)%nat 1%nat 0%nat); [lia|lia|].
  intros j J. replace j with 0%nat by lia. apply lev_refl, LV. lia.
Qed.

Lemma upd_ix b i v : (i < length b)%nat -> ix (upd b i v) i = v.
Proof.
  intros H. unfold ix, upd. rewrite app_nth2 by (rewrite firstn_length; lia).
  rewrite firstn_length. replace (i - Nat.min i (length b))%nat with 0%nat by lia. reflexivity.
Qed.
Lemma upd_ix_neq b i j v : (i < length b)%nat -> i <> j -> ix (upd b i v) j = ix b j.
Proof.
  intros H N. unfold ix, upd.
  assert (LF : length (firstn i b) = i) by (rewrite firstn_length; lia).
  destruct (Nat.lt_ge_cases j i) as [J|J].
  - rewrite app_nth1 by lia. rewrite <- (firstn_skipn i b) at 2. rewrite app_nth1 by lia. reflexivity.
  - rewrite app_nth2 by lia. rewrite LF. replace (j - i)%nat with (S (j - S i)) by lia. cbn [nth].
    rewrite <- (firstn_skipn (S i) b) at 2. rewrite app_nth2 by (rewrite firstn_length; lia).
    f_equal. rewrite firstn_length. lia.
Qed.
Lemma upd_forall {A} (P : A -> Prop) b i v : Forall P b -> P v -> (i < length b)%nat -> Forall P (upd b i v).
Proof.
  intros F V H. unfold upd. apply Forall_app. split; [|constructor; [exact V|]].
  - rewrite Forall_forall in *. intros x X. apply F. rewrite <- (firstn_skipn i b). apply in_or_app; left; exact X.
  - rewrite Forall_forall in *. intros x X. apply F. rewrite <- (firstn_skipn (S i) b). apply in_or_app; right; exact X.
Qed.

Lemma track_ok b m c t : Forall lev b -> top b m -> (c < length b)%nat -> lev t ->
  let '(b', m', c') := track b m c t in
  length b' = length b /\ Forall lev b' /\ top b' m' /\ (c' < length b)%nat /\ circ b' c' = tl (circ b c) ++ [t].
Proof.
  intros F T C V. unfold track. destruct T as [M T].
  assert (L : length (upd b c t) = length b) by (apply upd_len; assumption).
  assert (F' : Forall lev (upd b c t)) by (apply upd_forall; assumption).
  assert (LV : forall j, (j < length b)%nat -> lev (ix b j)).
  { intros j H. rewrite Forall_forall in F. apply F, ix_in, H. }
  rewrite L. split; [reflexivity|]. split; [exact F'|]. split; [|split].
  - destruct (Nat.eqb_spec m c) as [E|E]; [apply rescan_top; [lia|exact F']|].
    rewrite (upd_ix_neq b c m) by (assumption || congruence).
    destruct (f_le (ix b m) t) eqn:Q.
    + split; [lia|]. rewrite upd_ix by assumption. intros j J. rewrite L in J.
      destruct (Nat.eq_dec c j) as [<-|NE]; [rewrite upd_ix by assumption; apply lev_refl, V|].
      rewrite upd_ix_neq by assumption. apply (lev_trans _ (ix b m)); auto.
    + split; [lia|]. intros j J. rewrite L in J. rewrite (upd_ix_neq b c m) by (assumption || congruence).
      destruct (Nat.eq_dec c j) as [<-|NE].
      * rewrite upd_ix by assumption. destruct (lev_total (ix b m) t (LV m M) V); congruence.
      * rewrite upd_ix_neq by assumption. apply T, J.
  - destruct (Nat.eqb_spec (S c) (length b)); lia.
  - apply circ_step. assumption.
Qed.

(** ** The gain *)
Definition unit_gain (x : f32) : Prop := exists a, fin x a /\ 0 <= a <= 1.

Definition THR : R := F2R (Float radix2 14952710 (-9)).
Lemma thr_eq : THRESHOLD = S754_finite false 14952710 (-9). Proof. reflexivity. Qed.
Lemma thr_fin : fin THRESHOLD THR.
Proof. rewrite thr_eq. apply (fin_lit false 14952710 (-9)). reflexivity. Qed.
Lemma thr_pos : 0 < THR.
Proof. unfold THR, F2R. simpl. lra. Qed.

Lemma target_ok m : lev m -> unit_gain (target_gain THRESHOLD m).
Proof.
  intros L. unfold target_gain. pose proof thr_fin as TF. pose proof thr_pos as TP.
  destruct L as [->|(a & F & A)].
  - rewrite (inf_le _ _ TF). rewrite thr_eq. exists 0. split; [apply fin_0|lra].
  - rewrite (fin_le _ _ _ _ F TF). destruct (Rle_bool_spec a THR) as [H|H].
    + exists 1. split; [exact fin_1|lra].
    + assert (Q : 0 <= THR / a <= 1).
      { split; [apply Rmult_le_pos; [lra|apply Rlt_le, Rinv_0_lt_compat; lra]|].
        apply (Rmult_le_reg_r a); [lra|]. unfold Rdiv. rewrite Rmult_assoc, Rinv_l by lra. lra. }
      exists (rnd (THR / a)). split.
      * apply fin_div; [exact TF|exact F|lra|]. rewrite Rabs_pos_eq by lra. lra.
      * split; [exact (rnd_lb _ _ _ (fin_0 false) (proj1 Q))|exact (rnd_ub _ _ _ fin_1 (proj2 Q))].
Qed.

Definition mod_gain (x : f32) : Prop := exists a, fin x a /\ -1 <= a <= 1.

Lemma p1_fin : fin POINT1 (F2R (Float radix2 13421773 (-27))).
Proof. apply (fin_lit false 13421773 (-27)). reflexivity. Qed.
Lemma o11_fin : fin ONE11 (F2R (Float radix2 9320676 (-23))).
Proof. apply (fin_lit false 9320676 (-23)). reflexivity. Qed.

Lemma fin_two : fin (of_int 2) 2. Proof. exact (fin_bpow 1 ltac:(lia)). Qed.
Lemma fin_m1 : fin (of_int (-1)) (-1). Proof. exact (fin_neg _ _ fin_1). Qed.

Lemma fmin_fin x y a b : fin x a -> fin y b -> fin (f_min x y) (Rmin a b).
Proof.
  intros F G. unfold f_min.
  assert (NX : is_nan x = false) by (destruct x; try reflexivity; exfalso; exact (nan_not_fin _ F)).
  assert (NY : is_nan y = false) by (destruct y; try reflexivity; exfalso; exact (nan_not_fin _ G)).
  rewrite NX, NY, (fin_lt _ _ _ _ G F). destruct (Rlt_bool_spec b a).
  - rewrite Rmin_right by lra. exact G.
  - rewrite Rmin_left by lra. exact F.
Qed.
Lemma fmax_fin x y a b : fin x a -> fin y b -> fin (f_max x y) (Rmax a b).
Proof.
  intros F G. unfold f_max.
  assert (NX : is_nan x = false) by (destruct x; try reflexivity; exfalso; exact (nan_not_fin _ F)).
  assert (NY : is_nan y = false) by (destruct y; try reflexivity; exfalso; exact (nan_not_fin _ G)).
  rewrite NX, NY, (fin_lt _ _ _ _ F G). destruct (Rlt_bool_spec a b).
  - rewrite Rmax_right by lra. exact G.
  - rewrite Rmax_left by lra. exact F.
Qed.

Lemma smooth_ok ac rc gain gm pre : unit_gain ac -> unit_gain rc -> unit_gain gain -> mod_gain gm -> unit_gain pre ->
  mod_gain (fst (smooth ac rc gain gm pre)) /\ unit_gain (snd (smooth ac rc gain gm pre)).
Proof.
  intros (a & Fa & A) (r & Fr & Rr) (g & Fg & G) (d & Fd & D) (p & Fp & P). unfold smooth.
  set (gm' := if f_lt gain pre then _ else gain).
  assert (M : exists d', fin gm' d' /\ -1 <= d' <= 1).
  { subst gm'. destruct (f_lt gain pre); [|exists g; split; [exact Fg|lra]].
    set (k := F2R (Float radix2 13421773 (-27))). pose proof p1_fin as Fk. fold k in Fk.
    set (o := F2R (Float radix2 9320676 (-23))). pose proof o11_fin as Fo. fold o in Fo.
    assert (K : 0 < k < / 8) by (subst k; unfold F2R; simpl; lra).
    assert (O : 1 < o < 9 / 8) by (subst o; unfold F2R; simpl; lra).
    assert (X1 : 0 <= k * p <= k) by nra.
    assert (F1 : fin (f_mul POINT1 pre) (rnd (k * p))) by (apply fin_mul; [exact Fk|exact Fp|rewrite Rabs_pos_eq; lra]).
    assert (Y1 : 0 <= rnd (k * p) <= k) by (split; [exact (rnd_lb _ _ _ (fin_0 false) (proj1 X1))|exact (rnd_ub _ _ _ Fk (proj2 X1))]).
    set (q := rnd (k * p)) in *.
    assert (F2 : fin (f_sub gain (f_mul POINT1 pre)) (rnd (g - q))).
    { apply fin_sub; [exact Fg|exact F1|]. apply Rabs_le. lra. }
    assert (Y2 : - k <= rnd (g - q) <= 1).
    { split; [apply (rnd_lb _ _ _ (fin_neg _ _ Fk)); lra|apply (rnd_ub _ _ _ fin_1); lra]. }
    set (s := rnd (g - q)) in *.
    assert (F3 : fin (f_mul (f_sub gain (f_mul POINT1 pre)) ONE11) (rnd (s * o))).
    { apply fin_mul; [exact F2|exact Fo|]. apply Rabs_le. nra. }
    assert (Y3 : -1 <= rnd (s * o)) by (apply (rnd_lb _ _ _ fin_m1); nra).
    exists (Rmin d (rnd (s * o))). split; [exact (fmin_fin _ _ _ _ Fd F3)|].
    split; [apply Rmin_glb; lra|apply Rle_trans with d; [apply Rmin_l|lra]]. }
  destruct M as (d' & Fd' & D'). clearbody gm'.
  rewrite (fin_le _ _ _ _ Fp Fd'). destruct (Rle_bool_spec p d') as [H|H]; cbn [fst snd].
  - split; [exists d'; split; assumption|].
    pose proof (fin_neg _ _ Fd') as Fnd.
    assert (F1 : fin (f_sub pre gm') (rnd (p - d'))) by (apply fin_sub; [exact Fp|exact Fd'|apply Rabs_le; lra]).
    assert (Y1 : - d' <= rnd (p - d') <= 0).
    { split; [apply (rnd_lb _ _ _ Fnd); lra|apply (rnd_ub _ _ _ (fin_0 false)); lra]. }
    set (s := rnd (p - d')) in *.
    assert (F2 : fin (f_mul rc (f_sub pre gm')) (rnd (r * s))) by (apply fin_mul; [exact Fr|exact F1|apply Rabs_le; nra]).
    assert (Y2 : - d' <= rnd (r * s) <= 0).
    { split; [apply (rnd_lb _ _ _ Fnd); nra|apply (rnd_ub _ _ _ (fin_0 false)); nra]. }
    set (t := rnd (r * s)) in *.
    exists (rnd (d' + t)). split; [apply fin_add; [exact Fd'|exact F2|apply Rabs_le; lra]|].
    split; [apply (rnd_lb _ _ _ (fin_0 false)); lra|].
    apply Rle_trans with d'; [|lra]. apply (rnd_ub _ _ _ Fd'); lra.
  - split; [exists d'; split; assumption|].
    assert (F1 : fin (f_sub pre gm') (rnd (p - d'))) by (apply fin_sub; [exact Fp|exact Fd'|apply Rabs_le; lra]).
    assert (E1 : rnd (p - d') <= 1 - d' + bpow radix2 (-24)).
    { apply Rle_trans with (rnd (1 - d')); [apply rnd_le; lra|].
      destruct (Req_dec d' (-1)) as [Q|Q].
      - rewrite Q. replace (1 - -1) with 2 by lra. rewrite (rnd_id _ _ fin_two). pose proof (bpow_ge_0 radix2 (-24)). lra.
      - assert (B : Rabs (1 - d') < 2) by (apply Rabs_def1; lra). pose proof (rnd_err _ B) as E.
        apply Rabs_le_inv in E. lra. }
    assert (Y1 : 0 <= rnd (p - d') <= 2).
    { split; [apply (rnd_lb _ _ _ (fin_0 false)); lra|apply (rnd_ub _ _ _ fin_two); lra]. }
    set (s := rnd (p - d')) in *.
    assert (F2 : fin (f_mul ac (f_sub pre gm')) (rnd (a * s))) by (apply fin_mul; [exact Fa|exact F1|apply Rabs_le; nra]).
    assert (Y2 : 0 <= rnd (a * s) <= s).
    { split; [apply (rnd_lb _ _ _ (fin_0 false)); nra|apply (rnd_ub _ _ _ F1); nra]. }
    set (t := rnd (a * s)) in *.
    assert (B24 : bpow radix2 (-24) < 1) by (simpl; lra).
    assert (F3 : fin (f_add gm' (f_mul ac (f_sub pre gm'))) (rnd (d' + t))).
    { apply fin_add; [exact Fd'|exact F2|apply Rabs_le; lra]. }
    assert (Y3 : rnd (d' + t) <= 1) by (rewrite <- rnd_one_tie; apply rnd_le; lra).
    exists (Rmax (rnd (d' + t)) g). split; [exact (fmax_fin _ _ _ _ F3 Fg)|].
    split; [apply Rle_trans with g; [lra|apply Rmax_r]|apply Rmax_lub; lra].
Qed.

Lemma unit_mod x : unit_gain x -> mod_gain x.
Proof. intros (a & F & A). exists a. split; [exact F|lra]. Qed.

(** One value: a finite sample comes out within the threshold. *)
Lemma limit1_ok gain x : unit_gain gain -> float32 x -> is_finite_SF x = true ->
  between (f_neg THRESHOLD) THRESHOLD (limit1 THRESHOLD gain x).
Proof.
  intros (g & Fg & G) V FX. destruct (valid_fin _ V FX) as (a & Fa).
  pose proof thr_fin as TF. pose proof thr_pos as TP. pose proof (fin_neg _ _ TF) as NF. fold (f_neg THRESHOLD) in NF.
  assert (B : Rabs (rnd (a * g)) <= Rabs a).
  { pose proof (fin_abs _ _ Fa) as FA. pose proof (fin_neg _ _ FA) as FN.
    assert (- Rabs a <= a * g <= Rabs a).
    { destruct (Rcase_abs a); [rewrite Rabs_left by lra|rewrite Rabs_right by lra]; nra. }
    apply Rabs_le. split; [apply (rnd_lb _ _ _ FN); lra|apply (rnd_ub _ _ _ FA); lra]. }
  assert (LT : Rabs a < bpow radix2 128).
  { destruct Fa as (u & Fu & Eu & Ru). rewrite <- Ru. apply abs_B2R_lt_emax. }
  assert (FM : fin (f_mul x gain) (rnd (a * g))) by (apply fin_mul_lt; [exact Fa|exact Fg|lra]).
  unfold limit1, between. set (t := rnd (a * g)) in *.
  rewrite (fin_lt _ _ _ _ TF FM). destruct (Rlt_bool_spec THR t) as [H|H].
  - rewrite (fin_le _ _ _ _ NF TF), (fin_le _ _ _ _ TF TF). split; apply Rle_bool_true; lra.
  - rewrite (fin_lt _ _ _ _ FM NF). destruct (Rlt_bool_spec t (- THR)) as [K|K].
    + rewrite (fin_le _ _ _ _ NF NF), (fin_le _ _ _ _ NF TF). split; apply Rle_bool_true; lra.
    + rewrite (fin_le _ _ _ _ NF FM), (fin_le _ _ _ _ FM TF). split; apply Rle_bool_true; lra.
Qed.

(** ** The state *)
Record inv (nch n : nat) (l : lim) : Prop := {
  iv_ac : unit_gain (l_ac l); iv_rc : unit_gain (l_rc l); iv_thr : l_thr l = THRESHOLD;
  iv_gm : mod_gain (l_gm l); iv_pre : unit_gain (l_pre l);
  iv_lev : Forall lev (l_max l); iv_top : top (l_max l) (l_midx l);
  iv_len : length (l_max l) = S n; iv_cir : (l_cir l < S n)%nat;
  iv_del : length (l_del l) = n; iv_didx : (l_didx l < n)%nat }.

Definition rows (nch : nat) (xs : list (list f32)) := Forall (fun r => length r = nch /\ Forall float32 r) xs.

Lemma step_inv nch n l x : inv nch n l -> length x = nch -> Forall float32 x ->
  inv nch n (snd (lim_step l x)) /\
  (exists gain, unit_gain gain /\ l_pre (snd (lim_step l x)) = gain /\
     fst (lim_step l x) = map (limit1 THRESHOLD gain) (hd [] (circ (l_del l) (l_didx l)))) /\
  circ (l_del (snd (lim_step l x))) (l_didx (snd (lim_step l x))) = tl (circ (l_del l) (l_didx l)) ++ [x] /\
  circ (l_max (snd (lim_step l x))) (l_cir (snd (lim_step l x))) = tl (circ (l_max l) (l_cir l)) ++ [level x].
Proof.
  intros [I1 I2 I3 I4 I5 I6 I7 I8 I9 I10 I11] LX FX. unfold lim_step.
  pose proof (track_ok (l_max l) (l_midx l) (l_cir l) (level x) I6 I7 ltac:(lia) (level_lev x FX)) as T.
  destruct (track (l_max l) (l_midx l) (l_cir l) (level x)) as [[b m] c].
  destruct T as (T1 & T2 & T3 & T4 & T5). rewrite I3.
  assert (LM : lev (ix b m)).
  { rewrite Forall_forall in T2. apply T2, ix_in. exact (proj1 T3). }
  pose proof (target_ok _ LM) as TG.
  pose proof (smooth_ok _ _ _ _ _ I1 I2 TG I4 I5) as [S1 S2].
  destruct (smooth (l_ac l) (l_rc l) (target_gain THRESHOLD (ix b m)) (l_gm l) (l_pre l)) as [gm pre].
  cbn [fst snd] in *. unfold att. rewrite I10.
  assert (EQ : (if Nat.leb n (S (l_didx l)) then 0%nat else S (l_didx l)) =
               (if Nat.eqb (S (l_didx l)) (length (l_del l)) then 0%nat else S (l_didx l))).
  { rewrite I10. destruct (Nat.leb_spec n (S (l_didx l))), (Nat.eqb_spec (S (l_didx l)) n); try reflexivity; lia. }
  split; [|split; [|split]].
  - split; cbn; try assumption.
    + reflexivity.
    + lia.
    + lia.
    + rewrite upd_len by lia. exact I10.
    + rewrite EQ, I10. destruct (Nat.eqb_spec (S (l_didx l)) n); lia.
  - exists pre. split; [exact S2|]. split; [reflexivity|]. cbn.
    rewrite (circ_head _ _ []) by lia. reflexivity.
  - cbn. rewrite EQ. apply circ_step. lia.
  - cbn. exact T5.
Qed.

Lemma init_inv nch n ac rc : (0 < n)%nat -> unit_gain ac -> unit_gain rc -> inv nch n (lim_init n nch ac rc).
Proof.
  intros N A R. split; cbn; try assumption; try lia.
  - reflexivity.
  - apply unit_mod. exists 1. split; [exact fin_1|lra].
  - exists 1. split; [exact fin_1|lra].
  - apply Forall_forall. intros x X. apply repeat_spec in X. subst. exact lev_zero.
  - split; [rewrite repeat_length; lia|]. intros j J. rewrite repeat_length in J.
    unfold ix. rewrite !(nth_indep _ S754_nan f_zero) by (rewrite repeat_length; lia).
    rewrite !nth_repeat. reflexivity.
  - rewrite repeat_length. lia.
  - rewrite repeat_length. reflexivity.
Qed.

(** Splitting into frames does not matter. *)
Lemma frame_app l xs ys : lim_frame l (xs ++ ys) =
  (fst (lim_frame l xs) ++ fst (lim_frame (snd (lim_frame l xs)) ys), snd (lim_frame (snd (lim_frame l xs)) ys)).
Proof.
  revert l. induction xs as [|x xs IH]; intros l; cbn [app lim_frame].
  - cbn [fst snd app]. destruct (lim_frame l ys); reflexivity.
  - destruct (lim_step l x) as [y l1]. rewrite IH. destruct (lim_frame l1 xs) as [z l2]. cbn [fst snd]. destruct (lim_frame l2 ys). reflexivity.
Qed.
Lemma frames_concat fs : forall l, lim_frames l fs = lim_frame l (concat fs).
Proof.
  induction fs as [|f fs IH]; intros l; cbn [lim_frames concat]; [reflexivity|].
  rewrite frame_app. destruct (lim_frame l f) as [y l1]. cbn [fst snd]. rewrite IH.
  destruct (lim_frame l1 (concat fs)). reflexivity.
Qed.

(** ** Outputs *)
Definition limited (x y : f32) : Prop := is_finite_SF x = true -> between (f_neg THRESHOLD) THRESHOLD y.

(** Each output row is the row that entered n samples earlier, times one gain, limited. *)
Definition scaled (x y : list f32) : Prop := exists gain, unit_gain gain /\ y = map (limit1 THRESHOLD gain) x.

Lemma frame_out nch n xs : rows nch xs -> forall l, inv nch n l ->
  Forall2 scaled (firstn (length xs) (circ (l_del l) (l_didx l) ++ xs)) (fst (lim_frame l xs)).
Proof.
  induction 1 as [|x xs [LX FX] XS IH]; intros l I; [constructor|].
  cbn [lim_frame length].
  destruct (step_inv nch n l x I LX FX) as (J & (gain & G1 & G2 & G3) & C1 & C2).
  destruct (lim_step l x) as [y l1]. cbn [fst snd] in *.
  assert (NE : exists h q, circ (l_del l) (l_didx l) = h :: q).
  { destruct (circ (l_del l) (l_didx l)) eqn:E; [|eauto].
    pose proof (circ_len (l_del l) (l_didx l)) as Q. rewrite E in Q. destruct I. cbn in Q. lia. }
  destruct NE as (h & q & E). rewrite E in *. cbn [tl hd] in *.
  specialize (IH l1 J). destruct (lim_frame l1 xs) as [ys l2]. cbn [fst snd] in *.
  cbn [app firstn]. constructor; [exists gain; split; assumption|].
  rewrite C1, <- app_assoc in IH. exact IH.
Qed.

Lemma scaled_limited x y : Forall float32 x -> scaled x y -> Forall2 limited x y.
Proof.
  intros FH (gain & G1 & ->). induction FH as [|v h V FH IH]; cbn [map]; [constructor|].
  constructor; [|exact IH]. intros FV. apply limit1_ok; assumption.
Qed.

Lemma scaled_nan x y j : scaled x y -> nth_error x j = Some S754_nan -> nth_error y j = Some S754_nan.
Proof.
  intros (gain & _ & ->) H. rewrite nth_error_map, H. cbn [option_map]. f_equal.
Qed.

Lemma init_del n nch ac rc : circ (l_del (lim_init n nch ac rc)) (l_didx (lim_init n nch ac rc)) = repeat (repeat f_zero nch) n.
Proof. cbn. apply app_nil_r. Qed.

(** ** C37: quiet signals *)
Definition quiet (x : f32) : Prop := float32 x /\ f_le (f_abs x) THRESHOLD = true.

Lemma quiet_fin x : quiet x -> exists a, fin x a /\ Rabs a <= THR.
Proof.
  intros [V Q]. pose proof thr_fin as TF.
  destruct (is_finite_SF x) eqn:FX.
  - destruct (valid_fin _ V FX) as (a & F). exists a. split; [exact F|].
    pose proof (fin_abs _ _ F) as FA. fold (f_abs x) in FA. rewrite (fin_le _ _ _ _ FA TF) in Q.
    destruct (Rle_bool_spec (Rabs a) THR); [assumption|discriminate].
  - destruct x; discriminate.
Qed.

Lemma level_quiet r : Forall quiet r -> f_le (level r) THRESHOLD = true.
Proof.
  intros H.
  assert (F : Forall float32 r) by (eapply Forall_impl; [|exact H]; intros ? [? ?]; assumption).
  destruct (level_from r F _ lev_zero) as (_ & _ & _ & [E|(v & IN & _ & E)]); unfold level; rewrite E.
  - reflexivity.
  - rewrite Forall_forall in H. exact (proj2 (H v IN)).
Qed.

Lemma fin_unique x y a : fin x a -> fin y a -> a <> 0 -> x = y.
Proof.
  intros (b & Fb & Eb & Rb) (c & Fc & Ec & Rc) A. rewrite <- Eb, <- Ec. f_equal.
  apply B2R_inj; [| |congruence].
  - destruct b; try discriminate; try reflexivity. cbn in Rb. congruence.
  - destruct c; try discriminate; try reflexivity. cbn in Rc. congruence.
Qed.

Lemma mul_one x : float32 x -> f_mul x f_one = x.
Proof.
  intros V. destruct x as [s|s| |s m e]; try (destruct s; reflexivity); [reflexivity|].
  destruct (valid_fin _ V eq_refl) as (a & F).
  assert (N : a <> 0).
  { pose proof (fin_lit s m e V) as G. intros ->. destruct F as (b & Fb & Eb & Rb).
    destruct b as [?| ?| |sb mb eb Hb]; try discriminate. cbn in Rb. unfold F2R in Rb. cbn in Rb.
    pose proof (bpow_gt_0 radix2 eb). apply Rmult_integral in Rb. destruct Rb as [Rb|Rb]; [|lra].
    destruct sb; cbn in Rb; [apply (IZR_neq (Zneg mb) 0)|apply (IZR_neq (Zpos mb) 0)]; try exact Rb; discriminate. }
  apply (fin_unique _ _ a); [|exact F|exact N].
  replace a with (rnd (a * 1)) by (rewrite Rmult_1_r; exact (rnd_id _ _ F)).
  apply fin_mul_lt; [exact F|exact fin_1|]. rewrite Rmult_1_r, (rnd_id _ _ F).
  destruct F as (u & Fu & Eu & Ru). rewrite <- Ru. apply abs_B2R_lt_emax.
Qed.

Lemma limit1_quiet x : quiet x -> limit1 THRESHOLD f_one x = x.
Proof.
  intros Q. destruct (quiet_fin _ Q) as (a & F & A). unfold limit1. rewrite (mul_one _ (proj1 Q)).
  pose proof thr_fin as TF. pose proof (fin_neg _ _ TF) as NF. fold (f_neg THRESHOLD) in NF.
  apply Rabs_le_inv in A.
  rewrite (fin_lt _ _ _ _ TF F), (fin_lt _ _ _ _ F NF).
  rewrite Rlt_bool_false by lra. rewrite Rlt_bool_false by lra. reflexivity.
Qed.

Lemma smooth_one ac rc : unit_gain rc -> smooth ac rc f_one f_one f_one = (f_one, f_one).
Proof.
  intros (r & F & _). unfold smooth. change (f_lt f_one f_one) with false.
  change (f_le f_one f_one) with true. cbn match. change (f_sub f_one f_one) with (S754_zero false).
  destruct rc as [s|s| |s m e]; try notfin; destruct s; reflexivity.
Qed.

Definition quiet_row (r : list f32) := Forall quiet r.
Record calm (l : lim) : Prop := {
  cm_gm : l_gm l = f_one; cm_pre : l_pre l = f_one;
  cm_max : Forall (fun t => f_le t THRESHOLD = true) (l_max l) }.

Lemma step_calm nch n l x : inv nch n l -> calm l -> length x = nch -> quiet_row x ->
  Forall quiet_row (circ (l_del l) (l_didx l)) ->
  calm (snd (lim_step l x)) /\ fst (lim_step l x) = hd [] (circ (l_del l) (l_didx l)).
Proof.
  intros I [G P M] LX QX QD. pose proof I as [I1 I2 I3 I4 I5 I6 I7 I8 I9 I10 I11].
  assert (FX : Forall float32 x) by (eapply Forall_impl; [|exact QX]; intros ? [? ?]; assumption).
  unfold lim_step.
  pose proof (track_ok (l_max l) (l_midx l) (l_cir l) (level x) I6 I7 ltac:(lia) (level_lev x FX)) as T.
  assert (MB : Forall (fun t => f_le t THRESHOLD = true) (fst (fst (track (l_max l) (l_midx l) (l_cir l) (level x))))).
  { unfold track. cbn [fst]. apply upd_forall; [exact M|apply level_quiet, QX|lia]. }
  destruct (track (l_max l) (l_midx l) (l_cir l) (level x)) as [[b m] c]. cbn [fst] in MB.
  destruct T as (T1 & T2 & T3 & T4 & T5). rewrite I3, G, P.
  assert (TG : target_gain THRESHOLD (ix b m) = f_one).
  { unfold target_gain. rewrite Forall_forall in MB. rewrite (MB _ (ix_in b m (proj1 T3))). reflexivity. }
  rewrite TG, (smooth_one _ _ I2). cbn [fst snd]. split.
  - split; cbn; [reflexivity|reflexivity|exact MB].
  - rewrite (circ_head _ _ []) in * by lia. cbn [hd]. apply Forall_inv in QD.
    rewrite <- (map_id (nth (l_didx l) (l_del l) [])) at 2.
    apply map_ext_in. intros v V. apply limit1_quiet. unfold quiet_row in QD. rewrite Forall_forall in QD. apply QD, V.
Qed.

Lemma frame_quiet nch n xs : Forall (fun r => length r = nch /\ quiet_row r) xs -> forall l, inv nch n l -> calm l ->
  Forall quiet_row (circ (l_del l) (l_didx l)) ->
  fst (lim_frame l xs) = firstn (length xs) (circ (l_del l) (l_didx l) ++ xs).
Proof.
  induction 1 as [|x xs [LX QX] XS IH]; intros l I CM R; [reflexivity|].
  cbn [lim_frame length].
  assert (FX : Forall float32 x) by (eapply Forall_impl; [|exact QX]; intros ? [? ?]; assumption).
  destruct (step_inv nch n l x I LX FX) as (J & _ & C1 & _).
  destruct (step_calm nch n l x I CM LX QX R) as (CM1 & E1).
  destruct (lim_step l x) as [y l1]. cbn [fst snd] in *.
  assert (NE : exists h q, circ (l_del l) (l_didx l) = h :: q).
  { destruct (circ (l_del l) (l_didx l)) eqn:E; [|eauto].
    pose proof (circ_len (l_del l) (l_didx l)) as Q. rewrite E in Q. destruct I. cbn in Q. lia. }
  destruct NE as (h & q & E). rewrite E in *. cbn [tl hd] in *.
  assert (R1 : Forall quiet_row (circ (l_del l1) (l_didx l1))).
  { rewrite C1. apply Forall_app. split; [exact (Forall_inv_tail R)|constructor; [exact QX|constructor]]. }
  specialize (IH l1 J CM1 R1). destruct (lim_frame l1 xs) as [ys l2]. cbn [fst snd] in *.
  cbn [app firstn]. rewrite E1, IH, C1, <- app_assoc. reflexivity.
Qed.

Lemma init_calm n nch ac rc : calm (lim_init n nch ac rc).
Proof.
  split; cbn; try reflexivity. apply Forall_forall. intros t T. apply repeat_spec in T. subst. reflexivity.
Qed.

Lemma circ_0 {A} (b : list A) : circ b 0 = b.
Proof. unfold circ. cbn [skipn firstn]. apply app_nil_r. Qed.

Lemma zero_rows_quiet n nch : Forall (fun r => length r = nch /\ quiet_row r) (repeat (repeat f_zero nch) n).
Proof.
  apply Forall_forall. intros r R. apply repeat_spec in R. subst. split; [apply repeat_length|].
  apply Forall_forall. intros v V. apply repeat_spec in V. subst. split; reflexivity.
Qed.

(** ** C38: the level *)
Lemma frame_max nch n xs : rows nch xs -> forall l w, inv nch n l ->
  circ (l_max l) (l_cir l) = last_n (S n) w -> (S n <= length w)%nat ->
  let l' := snd (lim_frame l xs) in
  circ (l_max l') (l_cir l') = last_n (S n) (w ++ map level xs) /\ inv nch n l'.
Proof.
  induction 1 as [|x xs [LX FX] XS IH]; intros l w I C W.
  - cbn. rewrite app_nil_r. split; assumption.
  - cbn [lim_frame map].
    destruct (step_inv nch n l x I LX FX) as (J & _ & _ & C2).
    destruct (lim_step l x) as [y l1]. cbn [fst snd] in *.
    rewrite C, <- last_n_snoc in C2 by lia.
    specialize (IH l1 (w ++ [level x]) J C2 ltac:(rewrite app_length; lia)).
    destruct (lim_frame l1 xs) as [ys l2]. cbn [fst snd] in *. rewrite <- app_assoc in IH. exact IH.
Qed.

Lemma last_n_map {A B} (f : A -> B) n l : last_n n (map f l) = map f (last_n n l).
Proof.
  unfold last_n. rewrite map_length. generalize (length l - n)%nat as k. intros k. revert l.
  induction k; intros [|x l]; cbn; try reflexivity. apply IHk.
Qed.

Lemma level_zeros nch : level (repeat f_zero nch) = f_zero.
Proof. unfold level. induction nch; cbn [repeat fold_left]; [reflexivity|]. exact IHnch. Qed.

Lemma last_n_in {A} n (l : list A) x : In x (last_n n l) -> In x l.
Proof. intros H. unfold last_n in H. rewrite <- (firstn_skipn (length l - n) l). apply in_or_app. right. exact H. Qed.

Lemma window_max nch n ac rc xs : (0 < n)%nat -> unit_gain ac -> unit_gain rc -> rows nch xs ->
  let l := snd (lim_frame (lim_init n nch ac rc) xs) in
  let L := ix (l_max l) (l_midx l) in
  let w := last_n (S n) (repeat (repeat f_zero nch) (S n) ++ xs) in
  (forall r v, In r w -> In v r -> is_nan v = false -> f_le (f_abs v) L = true) /\
  (L = f_zero \/ exists r v, In r w /\ In v r /\ is_nan v = false /\ L = f_abs v).
Proof.
  intros N A R X.
  pose proof (init_inv nch n ac rc N A R) as I.
  destruct (frame_max nch n xs X (lim_init n nch ac rc) (map level (repeat (repeat f_zero nch) (S n))) I) as [C J].
  { cbn [l_max l_cir lim_init]. rewrite circ_0. unfold last_n. rewrite map_length, repeat_length, Nat.sub_diag. cbn [skipn].
    rewrite Nat.add_1_r. clear. generalize (S n) as k. induction k; cbn [repeat map]; [reflexivity|]. rewrite level_zeros, <- IHk. reflexivity. }
  { rewrite map_length, repeat_length. lia. }
  rewrite <- map_app, last_n_map in C.
  set (l := snd (lim_frame (lim_init n nch ac rc) xs)) in *. cbv zeta.
  set (w := last_n (S n) (repeat (repeat f_zero nch) (S n) ++ xs)) in *.
  assert (FW : forall r, In r w -> Forall float32 r).
  { intros r H. apply last_n_in, in_app_or in H. destruct H as [H|H].
    - apply repeat_spec in H. subst. apply Forall_forall. intros v V. apply repeat_spec in V. subst. reflexivity.
    - unfold rows in X. rewrite Forall_forall in X. exact (proj2 (X r H)). }
  destruct J as [J1 J2 J3 J4 J5 J6 J7 J8 J9 J10 J11]. destruct J7 as [M T].
  split.
  - intros r v HR HV NV.
    assert (IN : In (level r) (l_max l)).
    { apply (circ_in (l_max l) (l_cir l)); [lia|]. rewrite C. apply in_map, HR. }
    destruct (In_nth _ _ S754_nan IN) as (j & J & EJ). fold (ix (l_max l) j) in EJ.
    pose proof (FW r HR) as FR. destruct (level_from r FR _ lev_zero) as (LL & _ & LM & _). fold (level r) in LL, LM.
    apply (lev_trans _ (level r)).
    + apply abs_lev; [|exact NV]. rewrite Forall_forall in FR. exact (FR v HV).
    + exact LL.
    + rewrite Forall_forall in J6. apply J6, ix_in, M.
    + apply LM; assumption.
    + rewrite <- EJ. apply T, J.
  - pose proof (ix_in _ _ M) as IN. apply (circ_in _ (l_cir l)) in IN; [|lia]. rewrite C in IN.
    apply in_map_iff in IN. destruct IN as (r & E & HR). rewrite <- E.
    destruct (level_from r (FW r HR) _ lev_zero) as (_ & _ & _ & [Z|(v & V1 & V2 & V3)]); fold (level r) in *.
    + left. exact Z.
    + right. exists r, v. repeat split; assumption.
Qed.

(** ** In the words of Spec_Lim *)
Lemma thr_level : THRESHOLD = limit_level. Proof. reflexivity. Qed.

Lemma coef_unit x : coefficient x -> unit_gain x.
Proof.
  intros (V & A & B). destruct (is_finite_SF x) eqn:FX.
  - destruct (valid_fin _ V FX) as (a & F). exists a. split; [exact F|].
    rewrite (fin_le _ _ _ _ (fin_0 false) F) in A. rewrite (fin_le _ _ _ _ F fin_1) in B.
    destruct (Rle_bool_spec 0 a); [|discriminate]. destruct (Rle_bool_spec a 1); [|discriminate]. lra.
  - destruct x as [|[]| |]; discriminate.
Qed.

Lemma limiter_bounded n nch ac rc fs : (0 < n)%nat -> coefficient ac -> coefficient rc -> signal nch (concat fs) ->
  Forall2 (Forall2 (fun x y => finite x = true -> between (SFopp limit_level) limit_level y))
    (delayed n nch (concat fs)) (fst (lim_frames (lim_init n nch ac rc) fs)).
Proof.
  intros N A R X. rewrite frames_concat.
  pose proof (frame_out nch n _ X _ (init_inv nch n ac rc N (coef_unit _ A) (coef_unit _ R))) as F.
  rewrite init_del in F. change (Forall2 scaled (delayed n nch (concat fs)) (fst (lim_frame (lim_init n nch ac rc) (concat fs)))) in F.
  assert (D : Forall (Forall float32) (delayed n nch (concat fs))).
  { apply Forall_forall. intros r H. unfold delayed in H.
    assert (H' : In r (silence n nch ++ concat fs)) by (rewrite <- (firstn_skipn (length (concat fs))); apply in_or_app; left; exact H).
    apply in_app_or in H'. destruct H' as [H'|H'].
    - apply repeat_spec in H'. subst. apply Forall_forall. intros v V. apply repeat_spec in V. subst. reflexivity.
    - unfold signal in X. rewrite Forall_forall in X. exact (proj2 (X r H')). }
  clear X. revert F D. generalize (delayed n nch (concat fs)) as dl. intros dl F D. revert D. induction F as [|x y xs ys SC F IH]; intros D; constructor.
  - exact (scaled_limited _ _ (Forall_inv D) SC).
  - exact (IH (Forall_inv_tail D)).
Qed.

Lemma nan_row us vs k nch : (0 < nch)%nat -> Forall2 scaled us vs -> nth_error us k = Some (repeat S754_nan nch) ->
  exists r, In r vs /\ In S754_nan r.
Proof.
  intros C F. revert k. induction F as [|x y us vs SC F IH]; intros k E; [destruct k; discriminate|].
  destruct k.
  - cbn in E. injection E as ->. exists y. split; [left; reflexivity|].
    apply (nth_error_In _ 0). apply (scaled_nan (repeat S754_nan nch)); [exact SC|]. destruct nch; [lia|reflexivity].
  - destruct (IH k E) as (r & H1 & H2). exists r. split; [right; exact H1|exact H2].
Qed.

Lemma limiter_nan n nch ac rc : (0 < n)%nat -> (0 < nch)%nat -> coefficient ac -> coefficient rc ->
  exists xs, signal nch xs /\ exists r, In r (fst (lim_frames (lim_init n nch ac rc) [xs])) /\ In S754_nan r.
Proof.
  intros N C A R.
  set (xs := repeat (repeat S754_nan nch) (S n)).
  assert (X : signal nch xs).
  { apply Forall_forall. intros r H. apply repeat_spec in H. subst. split; [apply repeat_length|].
    apply Forall_forall. intros v V. apply repeat_spec in V. subst. reflexivity. }
  exists xs. split; [exact X|].
  pose proof (frame_out nch n _ X _ (init_inv nch n ac rc N (coef_unit _ A) (coef_unit _ R))) as F.
  rewrite init_del in F. rewrite frames_concat. cbn [concat]. rewrite app_nil_r.
  assert (E : nth_error (firstn (length xs) (repeat (repeat f_zero nch) n ++ xs)) n = Some (repeat S754_nan nch)).
  { subst xs. rewrite repeat_length.
    replace (repeat (repeat S754_nan nch) (S n)) with (repeat S754_nan nch :: repeat (repeat S754_nan nch) n) by reflexivity.
    replace (S n) with (n + 1)%nat by lia.
    pose proof (firstn_app_2 1 (repeat (repeat f_zero nch) n) (repeat S754_nan nch :: repeat (repeat S754_nan nch) n)) as Q.
    rewrite repeat_length in Q. rewrite Q. rewrite nth_error_app2 by (rewrite repeat_length; lia).
    rewrite repeat_length, Nat.sub_diag. reflexivity. }
  exact (nan_row _ _ n nch C F E).
Qed.

Lemma limiter_transparent n nch ac rc fs : (0 < n)%nat -> coefficient ac -> coefficient rc ->
  signal nch (concat fs) -> Forall (Forall (fun x => magnitude_le x limit_level)) (concat fs) ->
  fst (lim_frames (lim_init n nch ac rc) fs) = delayed n nch (concat fs).
Proof.
  intros N A R X Q. rewrite frames_concat.
  rewrite (frame_quiet nch n); [rewrite init_del; reflexivity| |apply init_inv; auto using coef_unit|apply init_calm|].
  - unfold signal in X. rewrite Forall_forall in *. intros r H. split; [apply (X r H)|].
    unfold quiet_row. rewrite Forall_forall. intros v V. split.
    + pose proof (proj2 (X r H)) as Y. rewrite Forall_forall in Y. exact (Y v V).
    + specialize (Q r H). rewrite Forall_forall in Q. exact (Q v V).
  - rewrite init_del. eapply Forall_impl; [|apply zero_rows_quiet]. intros r H. exact (proj2 H).
Qed.

Lemma limiter_level n nch ac rc fs : (0 < n)%nat -> coefficient ac -> coefficient rc -> signal nch (concat fs) ->
  let l := snd (lim_frames (lim_init n nch ac rc) fs) in
  largest_magnitude (window n nch (concat fs)) (ix (l_max l) (l_midx l)).
Proof.
  intros N A R X. rewrite frames_concat.
  destruct (window_max nch n ac rc _ N (coef_unit _ A) (coef_unit _ R) X) as [W1 W2].
  assert (E : window n nch (concat fs) = last_n (S n) (repeat (repeat f_zero nch) (S n) ++ concat fs)).
  { unfold window, last_n, silence. rewrite app_length, repeat_length, Nat.add_1_r.
    assert (K : (length (concat fs) = S n + length (concat fs) - S n)%nat) by lia.
    exact (f_equal (fun k => skipn k (repeat (repeat f_zero nch) (S n) ++ concat fs)) K). }
  rewrite E. cbv zeta. split.
  - intros r v H1 H2 H3. apply (W1 r v H1 H2). destruct v; try reflexivity. congruence.
  - destruct W2 as [W|(r & v & H1 & H2 & H3 & H4)]; [left; exact W|right]. exists r, v.
    repeat split; try assumption. intros ->. discriminate.
Qed.

Lemma limiter_split l fs gs : concat fs = concat gs -> lim_frames l fs = lim_frames l gs.
Proof. intros E. rewrite !frames_concat, E. reflexivity. Qed.
