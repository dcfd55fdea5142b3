(** * Lem_F32: exact facts about binary32 numbers

    Every finite binary32 number is an integer multiple of 2^-149; [units] is that integer.
    Comparison, multiplication by a power of two and truncation are exact on it. *)

From Coq Require Import ZArith List Lia Bool SpecFloat PArith.
From Verif Require Import F32.
Import ListNotations.
Open Scope Z_scope.

(** The value of a finite number in units of 2^-149. *)
Definition units (x : f32) : option Z :=
  match x with
  | S754_zero _ => Some 0
  | S754_finite s m e => Some (cond_Zopp s (Zpos m * 2 ^ (e + 149)))
  | _ => None
  end.

(** Every FLOAT32 object holds such a value. *)
Definition is_f32 (x : f32) : Prop := valid_binary 24 128 x = true.

(** What validity says about mantissa and exponent. *)
Definition okf (m : positive) (e : Z) : Prop :=
  Zpos m < 2 ^ 24 /\ -149 <= e <= 104 /\ (-149 < e -> 2 ^ 23 <= Zpos m).

Lemma digits_size m : digits2_pos m = Pos.size m.
Proof. induction m; cbn; congruence. Qed.

Lemma digits_bounds m : 2 ^ (Zpos (digits2_pos m) - 1) <= Zpos m < 2 ^ Zpos (digits2_pos m).
Proof.
  rewrite digits_size. pose proof (Pos.size_le m) as L. pose proof (Pos.size_gt m) as G. split.
  - assert (H : 2 ^ Zpos (Pos.size m) <= 2 * Zpos m).
    { rewrite <- Pos2Z.inj_pow. change (2 * Zpos m) with (Zpos (m~0)). lia. }
    replace (Zpos (Pos.size m)) with (Zpos (Pos.size m) - 1 + 1) in H by lia.
    rewrite Z.pow_add_r in H by lia. lia.
  - rewrite <- Pos2Z.inj_pow. lia.
Qed.

Lemma digits_unique m d : 0 < d -> 2 ^ (d - 1) <= Zpos m < 2 ^ d -> Zpos (digits2_pos m) = d.
Proof.
  intros D [L U]. pose proof (digits_bounds m) as [L' U'].
  destruct (Z.lt_trichotomy (Zpos (digits2_pos m)) d) as [H|[H|H]]; [|exact H|]; exfalso.
  - assert (2 ^ Zpos (digits2_pos m) <= 2 ^ (d - 1)) by (apply Z.pow_le_mono_r; lia). lia.
  - assert (2 ^ d <= 2 ^ (Zpos (digits2_pos m) - 1)) by (apply Z.pow_le_mono_r; lia). lia.
Qed.

Lemma digits_shift m p k : 0 <= k -> Zpos p = Zpos m * 2 ^ k ->
  Zpos (digits2_pos p) = Zpos (digits2_pos m) + k.
Proof.
  intros K E. pose proof (digits_bounds m) as [L U]. apply digits_unique; [lia|].
  replace (Zpos (digits2_pos m) + k - 1) with (Zpos (digits2_pos m) - 1 + k) by lia.
  rewrite !Z.pow_add_r by lia. rewrite E. assert (0 < 2 ^ k) by (apply Z.pow_pos_nonneg; lia). nia.
Qed.

Lemma valid_ok s m e : is_f32 (S754_finite s m e) -> okf m e.
Proof.
  unfold is_f32, valid_binary, bounded, canonical_mantissa. intros H.
  apply andb_true_iff in H. destruct H as [C E]. apply Zle_bool_imp_le in E. apply Zeq_bool_eq in C.
  unfold fexp, emin in C. cbn in E. pose proof (digits_bounds m) as [L U].
  assert (D : Zpos (digits2_pos m) <= 24) by lia.
  unfold okf. split; [|split].
  - assert (2 ^ Zpos (digits2_pos m) <= 2 ^ 24) by (apply Z.pow_le_mono_r; lia). lia.
  - lia.
  - intros H. assert (Zpos (digits2_pos m) = 24) by lia. rewrite H0 in L. cbn in L |- *. lia.
Qed.

Lemma pos_units m e : okf m e -> 0 < Zpos m * 2 ^ (e + 149).
Proof. intros (H1 & H2 & H3). assert (0 < 2 ^ (e + 149)) by (apply Z.pow_pos_nonneg; lia). nia. Qed.

(** A smaller exponent means a smaller number. *)
Lemma exp_lt m1 e1 m2 e2 : okf m1 e1 -> okf m2 e2 -> e1 < e2 ->
  Zpos m1 * 2 ^ (e1 + 149) < Zpos m2 * 2 ^ (e2 + 149).
Proof.
  intros (A1 & A2 & A3) (B1 & B2 & B3) H.
  assert (M : 2 ^ 23 <= Zpos m2) by (apply B3; lia).
  replace (e2 + 149) with (e1 + 149 + 1 + (e2 - e1 - 1)) by lia.
  rewrite (Z.pow_add_r 2 (e1 + 149 + 1)), (Z.pow_add_r 2 (e1 + 149) 1) by lia.
  assert (0 < 2 ^ (e1 + 149)) by (apply Z.pow_pos_nonneg; lia).
  assert (0 < 2 ^ (e2 - e1 - 1)) by (apply Z.pow_pos_nonneg; lia).
  change (2 ^ 1) with 2. change (2 ^ 24) with (2 * 2 ^ 23) in A1.
  set (p := 2 ^ (e1 + 149)) in *. set (q := 2 ^ (e2 - e1 - 1)) in *. set (t := 2 ^ 23) in *.
  clearbody p q t.
  assert (E1 : Zpos m1 * p < 2 * t * p) by (apply Z.mul_lt_mono_pos_r; lia).
  assert (E2 : t * (2 * p) <= Zpos m2 * (2 * p)) by (apply Z.mul_le_mono_nonneg_r; lia).
  assert (E3 : Zpos m2 * (2 * p) * 1 <= Zpos m2 * (2 * p) * q) by (apply Z.mul_le_mono_nonneg_l; lia).
  lia.
Qed.

Definition okx (x : f32) : Prop :=
  match x with S754_finite s m e => okf m e | S754_nan => False | _ => True end.

Lemma some_inj (a b : Z) : Some a = Some b -> a = b.
Proof. congruence. Qed.

(** Comparison of two finite numbers compares their units. *)
Lemma f_lt_units a b u v : okx a -> okx b -> units a = Some u -> units b = Some v ->
  f_lt a b = (u <? v).
Proof.
  intros A B U V. unfold f_lt, SFltb, SFcompare.
  destruct a as [sa|sa| |sa ma ea]; try discriminate; destruct b as [sb|sb| |sb mb eb]; try discriminate;
    cbn [units cond_Zopp] in U, V; apply some_inj in U; apply some_inj in V; cbn [okx] in A, B; subst u v.
  - reflexivity.
  - pose proof (pos_units _ _ B). destruct sb; cbn [cond_Zopp]; symmetry; [apply Z.ltb_ge|apply Z.ltb_lt]; lia.
  - pose proof (pos_units _ _ A). destruct sa; cbn [cond_Zopp]; symmetry; [apply Z.ltb_lt|apply Z.ltb_ge]; lia.
  - pose proof (pos_units _ _ A). pose proof (pos_units _ _ B).
    destruct sa, sb; cbn [cond_Zopp].
    + destruct (Z.compare_spec ea eb) as [E|E|E].
      * subst eb. fold (Pos.compare ma mb). change (Pos.compare_cont Eq ma mb) with (Pos.compare ma mb).
        assert (0 < 2 ^ (ea + 149)) by (apply Z.pow_pos_nonneg; destruct A; lia).
        destruct (Pos.compare_spec ma mb) as [F|F|F]; cbn [CompOpp]; symmetry.
        -- subst. apply Z.ltb_ge. lia.
        -- apply Z.ltb_ge. nia.
        -- apply Z.ltb_lt. nia.
      * pose proof (exp_lt _ _ _ _ A B E). symmetry. apply Z.ltb_ge. lia.
      * pose proof (exp_lt _ _ _ _ B A E). symmetry. apply Z.ltb_lt. lia.
    + symmetry. apply Z.ltb_lt. lia.
    + symmetry. apply Z.ltb_ge. lia.
    + destruct (Z.compare_spec ea eb) as [E|E|E].
      * subst eb. change (Pos.compare_cont Eq ma mb) with (Pos.compare ma mb).
        assert (0 < 2 ^ (ea + 149)) by (apply Z.pow_pos_nonneg; destruct A; lia).
        destruct (Pos.compare_spec ma mb) as [F|F|F]; symmetry.
        -- subst. apply Z.ltb_ge. lia.
        -- apply Z.ltb_lt. nia.
        -- apply Z.ltb_ge. nia.
      * pose proof (exp_lt _ _ _ _ A B E). symmetry. apply Z.ltb_lt. lia.
      * pose proof (exp_lt _ _ _ _ B A E). symmetry. apply Z.ltb_ge. lia.
Qed.

(** Shifting out zero bits is exact. *)
Lemma shr_exact : forall (n : nat) (q : Z), 0 < q ->
  Nat.iter n shr_1 (Build_shr_record (q * 2 ^ Z.of_nat n) false false) = Build_shr_record q false false.
Proof.
  induction n as [|n IH]; intros q Q.
  - change (2 ^ Z.of_nat 0) with 1. rewrite Z.mul_1_r. reflexivity.
  - rewrite Nat2Z.inj_succ, Z.pow_succ_r by lia.
    replace (q * (2 * 2 ^ Z.of_nat n)) with (2 * q * 2 ^ Z.of_nat n) by ring.
    change (shr_1 (Nat.iter n shr_1 (Build_shr_record (2 * q * 2 ^ Z.of_nat n) false false)) = Build_shr_record q false false).
    rewrite IH by lia. destruct q; try lia. reflexivity.
Qed.

Lemma iter_add {A} (f : A -> A) n m x : Nat.iter (n + m) f x = Nat.iter n f (Nat.iter m f x).
Proof. induction n as [|n IH]; [reflexivity|].
  change (f (Nat.iter (n + m) f x) = f (Nat.iter n f (Nat.iter m f x))). rewrite IH. reflexivity. Qed.

Lemma iter_pos_nat {A} (f : A -> A) p x : SpecFloat.iter_pos f p x = Nat.iter (Pos.to_nat p) f x.
Proof.
  revert x. induction p as [p IH|p IH|]; intros x; cbn [SpecFloat.iter_pos].
  - rewrite !IH, Pos2Nat.inj_xI, <- iter_add.
    replace (S (2 * Pos.to_nat p)) with (Pos.to_nat p + Pos.to_nat p + 1)%nat by lia.
    rewrite (iter_add f _ 1%nat). reflexivity.
  - rewrite !IH, Pos2Nat.inj_xO, <- iter_add. f_equal. lia.
  - reflexivity.
Qed.

Lemma shr_ok q e n : 0 < q -> 0 <= n ->
  shr (Build_shr_record (q * 2 ^ n) false false) e n = (Build_shr_record q false false, e + n).
Proof.
  intros Q N. destruct n as [|p|p]; [|unfold shr|lia].
  - unfold shr. change (2 ^ 0) with 1. f_equal; [f_equal; lia|lia].
  - rewrite iter_pos_nat. rewrite <- (positive_nat_Z p) at 1. rewrite shr_exact by lia. reflexivity.
Qed.

(** Multiplication by 2^k. *)
Definition two_to (k : Z) : f32 := S754_finite false (2 ^ 23) (k - 23).

Lemma mul_two_to s m e k : okf m e -> 0 <= k <= 16 ->
  exists m' e', (f_mul (S754_finite s m e) (two_to k) =
     if e' <=? 104 then S754_finite s m' e' else S754_infinity s) /\
   Zpos m' < 2 ^ 24 /\ -149 <= e' /\ (-149 < e' -> 2 ^ 23 <= Zpos m') /\
   Zpos m' * 2 ^ (e' + 149) = Zpos m * 2 ^ (e + 149) * 2 ^ k.
Proof.
  intros (A & B & C) K. pose proof (digits_bounds m) as [L U].
  set (d := Zpos (digits2_pos m)) in *.
  assert (D0 : 0 < d) by (subst d; lia).
  assert (D : d <= 24).
  { destruct (Z.le_gt_cases d 24); [assumption|]. assert (2 ^ 24 <= 2 ^ (d - 1)) by (apply Z.pow_le_mono_r; lia). lia. }
  assert (D1 : -149 < e -> d = 24).
  { intros H. apply C in H. destruct (Z.le_gt_cases 24 d); [lia|].
    assert (2 ^ d <= 2 ^ 23) by (apply Z.pow_le_mono_r; lia). lia. }
  set (F := Z.max (d + e + k - 24) (-149)).
  set (n := F - (e + (k - 23))).
  assert (N : 7 <= n <= 23) by (subst n F; lia).
  assert (Nd : d - 1 <= n) by (subst n F; lia).
  assert (Fm : -149 < F -> n = d - 1).
  { subst n F. intros. destruct (Z.le_gt_cases e (-149)); [|rewrite D1 in * by lia]; lia. }
  assert (Q : 0 < Zpos m * 2 ^ (23 - n)) by (assert (0 < 2 ^ (23 - n)) by (apply Z.pow_pos_nonneg; lia); nia).
  destruct (Zpos m * 2 ^ (23 - n)) as [|m'|m'] eqn:EM; try lia.
  exists m', F. split; [|split; [|split; [|split]]].
  - unfold f_mul, SFmul, two_to, binary_round_aux. rewrite xorb_false_r.
    set (p := (m * 2 ^ 23)%positive).
    assert (P : Zpos p = Zpos m * 2 ^ 23) by (subst p; rewrite Pos2Z.inj_mul; reflexivity).
    assert (P' : Zpos p = Zpos m' * 2 ^ n).
    { rewrite P, <- EM. rewrite <- Z.mul_assoc, <- Z.pow_add_r by lia. f_equal. f_equal. lia. }
    assert (DP : Zpos (digits2_pos p) = d + 23) by (apply digits_shift; [lia|exact P]).
    assert (DM : Zpos (digits2_pos m') = d + (23 - n)) by (apply digits_shift; [lia|symmetry; exact EM]).
    clearbody p.
    assert (S1 : shr_fexp 24 128 (Zpos p) (e + (k - 23)) loc_Exact = (Build_shr_record (Zpos m') false false, F)).
    { unfold shr_fexp. cbn [Zdigits2 shr_record_of_loc]. rewrite DP. unfold fexp, emin.
      replace (Z.max (d + 23 + (e + (k - 23)) - 24) (3 - 128 - 24) - (e + (k - 23))) with n by (subst n F; lia).
      rewrite P'. rewrite shr_ok by lia. f_equal. subst n. lia. }
    rewrite S1. cbn [shr_m loc_of_shr_record round_nearest_even].
    assert (S2 : shr_fexp 24 128 (Zpos m') F loc_Exact = (Build_shr_record (Zpos m') false false, F)).
    { unfold shr_fexp. cbn [Zdigits2 shr_record_of_loc]. rewrite DM. unfold fexp, emin.
      replace (Z.max (d + (23 - n) + F - 24) (3 - 128 - 24) - F) with 0 by (subst n F; lia). reflexivity. }
    rewrite S2. cbn [shr_m]. change (128 - 24) with 104. unfold Z.leb. reflexivity.
  - rewrite <- EM. assert (Zpos m * 2 ^ (23 - n) < 2 ^ d * 2 ^ (23 - n)).
    { assert (0 < 2 ^ (23 - n)) by (apply Z.pow_pos_nonneg; lia). nia. }
    rewrite <- Z.pow_add_r in H by lia.
    assert (2 ^ (d + (23 - n)) <= 2 ^ 24) by (apply Z.pow_le_mono_r; lia). lia.
  - subst F; lia.
  - intros H. rewrite <- EM. assert (2 ^ (d - 1) * 2 ^ (23 - n) <= Zpos m * 2 ^ (23 - n)).
    { assert (0 < 2 ^ (23 - n)) by (apply Z.pow_pos_nonneg; lia). nia. }
    rewrite <- Z.pow_add_r in H0 by lia. rewrite Fm in H0 at 1 by exact H.
    replace (d - 1 + (23 - (d - 1))) with 23 in H0 by lia. 
    replace (23 - n) with (23 - (d - 1)) by (rewrite Fm by exact H; lia). rewrite Fm in H0 by exact H. lia.
  - rewrite <- EM. rewrite <- !Z.mul_assoc, <- !Z.pow_add_r by lia. f_equal. f_equal. subst n. lia.
Qed.
