(** * Proofs about the fixed-point primitives *)
From Coq Require Import ZArith List Bool Lia.
From Verif Require Import Bits Ops Spec_Ops.
Import ListNotations.
Open Scope Z_scope.

Lemma s32_id x : int32 x -> s32 x = x.
Proof.
  unfold int32, s32, to_s. intros H. change (2 ^ 32) with 4294967296 in *. change (2 ^ (32 - 1)) with 2147483648 in *.
  pose proof (Z.mod_pos_bound x 4294967296 ltac:(lia)).
  pose proof (Z.div_mod x 4294967296 ltac:(lia)).
  unfold to_u. change (2 ^ 32) with 4294967296.
  destruct (_ <? _) eqn:E; nia.
Qed.

Ltac un := unfold int32, int16, int64, clamp32, clamp64, MAX_32, MIN_32, MAX_64, MIN_64 in *;
  change (2 ^ 31) with 2147483648 in *; change (2 ^ 15) with 32768 in *;
  change (2 ^ 63) with 9223372036854775808 in *.

Lemma sat_clamp x : (if MAX_32 <=? x then MAX_32 else if x <=? MIN_32 then MIN_32 else s32 x) = clamp32 x.
Proof.
  destruct (MAX_32 <=? x) eqn:E; [un; lia|]. destruct (x <=? MIN_32) eqn:F; [un; lia|].
  rewrite s32_id; un; lia.
Qed.

Lemma add_ok a b : add32_sat a b = clamp32 (a + b).
Proof. apply sat_clamp. Qed.
Lemma sub_ok a b : sub32_sat a b = clamp32 (a - b).
Proof. apply sat_clamp. Qed.
Lemma add3_ok a b c : add32_sat3 a b c = clamp32 (a + b + c).
Proof.
  unfold add32_sat3. set (s := a + b + c). clearbody s.
  destruct (MAX_32 <? s) eqn:E.
  - replace (MAX_32 <? MIN_32) with false by reflexivity. rewrite s32_id; un; lia.
  - destruct (s <? MIN_32) eqn:F; rewrite s32_id; un; lia.
Qed.
Lemma sat64_ok a : sat64_32 a = clamp32 a.
Proof. apply sat_clamp. Qed.
Lemma neg_ok a : int32 a -> negate32_sat a = clamp32 (- a).
Proof. unfold negate32_sat. intros. destruct (a =? MIN_32) eqn:E; un; lia. Qed.
Lemma abs_ok a : int32 a -> abs32_sat a = clamp32 (Z.abs a).
Proof. unfold abs32_sat. intros. destruct (a =? MIN_32) eqn:E; [un; lia|]. destruct (a <? 0) eqn:F; un; lia. Qed.
Lemma mulsh_ok a b s : 0 <= s < 64 -> mul32_sh_sat a b s = Some (clamp32 (a * b / 2 ^ s)).
Proof.
  intros H. unfold mul32_sh_sat. replace (_ && _) with true by lia.
  cbv zeta. rewrite Z.shiftr_div_pow2 by lia. rewrite sat_clamp. reflexivity.
Qed.

Lemma div_floor_lt x p y : 0 < p -> (x / p < y <-> x < y * p).
Proof. intros Hp. split; intros H.
  - pose proof (Z.mul_succ_div_gt x p Hp). nia.
  - apply Z.div_lt_upper_bound; lia.
Qed.

Lemma shl_ok a b : int32 a -> 0 <= b < 32 -> shl32_sat a b = Some (clamp32 (a * 2 ^ b)).
Proof.
  intros Ha Hb. unfold shl32_sat. replace (_ && _) with true by lia. f_equal.
  assert (Hp : 0 < 2 ^ b) by (apply Z.pow_pos_nonneg; lia).
  rewrite !Z.shiftr_div_pow2 by lia.
  assert (HM : MIN_32 / 2 ^ b * 2 ^ b = MIN_32).
  { rewrite Z.mul_comm. symmetry. apply Z.div_exact; [lia|].
    unfold MIN_32. change (-2147483648) with (- (2 ^ 31)).
    replace (2 ^ 31) with (2 ^ (31 - b) * 2 ^ b) by (rewrite <- Z.pow_add_r by lia; f_equal; lia).
    rewrite <- Z.mul_opp_l. apply Z.mod_mul; lia. }
  destruct (MAX_32 / 2 ^ b <? a) eqn:E.
  - assert (MAX_32 < a * 2 ^ b) by (apply div_floor_lt; lia). un; lia.
  - assert (~ (MAX_32 < a * 2 ^ b)) by (rewrite <- div_floor_lt by lia; lia).
    destruct (a <? MIN_32 / 2 ^ b) eqn:F.
    + assert (a * 2 ^ b < MIN_32) by nia. un; lia.
    + assert (~ (a * 2 ^ b < MIN_32)) by nia. rewrite s32_id; un; lia.
Qed.

Lemma shr_ok a b : int32 a -> 0 <= b < 256 -> shr32 a b = a / 2 ^ b.
Proof.
  intros Ha Hb. unfold shr32, to_u. rewrite (Z.mod_small b (2 ^ 8)) by (change (2 ^ 8) with 256; lia).
  destruct (31 <=? b) eqn:E; [|apply Z.shiftr_div_pow2; lia].
  assert (HP : 2 ^ 31 <= 2 ^ b) by (apply Z.pow_le_mono_r; lia).
  destruct (a <? 0) eqn:F; un.
  - apply (Z.div_unique a (2 ^ b) (-1) (a + 2 ^ b)); lia.
  - symmetry. apply Z.div_small. lia.
Qed.

Lemma shl_dir_ok a b : int32 a -> -256 < b < 32 -> shl32_dir_sat a b = Some (clamp32 (scaled a b)).
Proof.
  intros Ha Hb. unfold shl32_dir_sat, scaled. destruct (b <? 0) eqn:E.
  - f_equal. rewrite shr_ok by (auto; lia).
    assert (0 < 2 ^ (- b)) by (apply Z.pow_pos_nonneg; lia).
    assert (-2147483648 <= a / 2 ^ (- b)) by (apply Z.div_le_lower_bound; un; nia).
    assert (a / 2 ^ (- b) <= 2147483647) by (apply Z.div_le_upper_bound; un; nia). un; lia.
  - apply shl_ok; auto; lia.
Qed.
Lemma shr_dir_ok a b : int32 a -> -32 < b < 256 -> shr32_dir_sat a b = Some (clamp32 (scaled a (- b))).
Proof.
  intros Ha Hb. destruct (Z.eq_dec b 0) as [->|N].
  - unfold shr32_dir_sat, scaled. cbn [Z.ltb Z.compare Z.opp]. f_equal. rewrite shr_ok by (auto; lia).
    change (2 ^ 0) with 1. rewrite Z.div_1_r, Z.mul_1_r. un; lia.
  - rewrite <- shl_dir_ok by (auto; lia). unfold shr32_dir_sat, shl32_dir_sat.
    destruct (b <? 0) eqn:E.
    + replace (- b <? 0) with false by lia. reflexivity.
    + replace (- b <? 0) with true by lia. rewrite Z.opp_involutive. reflexivity.
Qed.

Lemma m16_ok a b : int16 a -> int16 b -> mult16x16in32_shl_sat a b = clamp32 (2 * (a * b)).
Proof.
  intros Ha Hb. unfold mult16x16in32_shl_sat. set (p := a * b).
  assert (Hp : -1073709056 <= p <= 1073741824) by (unfold p; un; nia).
  destruct (p =? 0x40000000) eqn:E; cbn [negb].
  - un; lia.
  - unfold shl32. change (to_u 8 1) with 1. cbn [Z.ltb Z.compare Pos.compare Pos.compare_cont].
    change (2 ^ 1) with 2. rewrite s32_id by (un; lia). un; lia.
Qed.
Lemma mac16_ok a b c : mac16x16in32_sat a b c = clamp32 (a + b * c).
Proof. apply add_ok. Qed.

Lemma m3216_ok a b : int32 a -> int16 b -> mult32x16in32_shl_sat a b = clamp32 (2 * (a * b / 2 ^ 16)).
Proof.
  intros Ha Hb. unfold mult32x16in32_shl_sat. destruct (_ && _) eqn:E.
  - assert (a = -2147483648 /\ b = -32768) as [-> ->] by (un; lia). reflexivity.
  - unfold mult32x16in32_shl. rewrite Z.shiftr_div_pow2 by lia.
    set (p := a * b). assert (Hp : - 70366596694016 - 2147483648 <= p < 70368744177664) by (unfold p; un; nia).
    assert (-1073741824 <= p / 2 ^ 16 < 1073741824)
      by (split; [apply Z.div_le_lower_bound|apply Z.div_lt_upper_bound]; change (2 ^ 16) with 65536; lia).
    rewrite !s32_id by (un; rewrite ?s32_id; un; lia). un; lia.
Qed.
Lemma m3232_ok a b : int32 a -> int32 b -> mult32_shl_sat a b = clamp32 (2 * (a * b / 2 ^ 32)).
Proof.
  intros Ha Hb. unfold mult32_shl_sat. destruct (_ && _) eqn:E.
  - assert (a = -2147483648 /\ b = -2147483648) as [-> ->] by (un; lia). reflexivity.
  - unfold mult32_shl. rewrite Z.shiftr_div_pow2 by lia.
    set (p := a * b). assert (Hp : - 4611686018427387904 <= p < 4611686018427387904) by (unfold p; un; nia).
    assert (-1073741824 <= p / 2 ^ 32 < 1073741824)
      by (split; [apply Z.div_le_lower_bound|apply Z.div_lt_upper_bound]; change (2 ^ 32) with 4294967296; lia).
    rewrite !s32_id by (un; rewrite ?s32_id; un; lia). un; lia.
Qed.

Lemma add64_ok a b : int64 a -> int64 b -> add64_sat a b = Some (clamp64 (a + b)).
Proof.
  intros Ha Hb. unfold add64_sat. destruct (a <? 0) eqn:E.
  - destruct (MIN_64 - a <? b) eqn:F; cbn [Bool.eqb].
    + replace (_ && _) with true by (un; lia). f_equal. un; lia.
    + f_equal. un; lia.
  - destruct (MAX_64 - a <? b) eqn:F; cbn [Bool.eqb].
    + f_equal. un; lia.
    + replace (_ && _) with true by (un; lia). f_equal. un; lia.
Qed.

Lemma mul64_ok a b : int64 a -> int64 b -> mult64_sat a b = Some (clamp64 (a * b)).
Proof.
  intros Ha Hb. unfold mult64_sat.
  destruct (_ && _ && (Z.quot MAX_64 b <? a)) eqn:C1.
  { assert (P : 0 < a /\ 0 < b /\ Z.quot MAX_64 b < a) by lia. destruct P as (P1 & P2 & P3).
    rewrite Z.quot_div_nonneg in P3 by (un; lia). apply div_floor_lt in P3; [|lia]. f_equal. un; lia. }
  destruct (_ && _ && (a <? Z.quot MIN_64 b)) eqn:C2.
  { assert (P : a < 0 /\ 0 < b /\ a < Z.quot MIN_64 b) by lia. destruct P as (P1 & P2 & P3).
    change MIN_64 with (- (- MIN_64)) in P3. rewrite Z.quot_opp_l, Z.quot_div_nonneg in P3 by (un; lia).
    assert (P4 : - MIN_64 / b < - a) by lia. apply div_floor_lt in P4; [|lia]. f_equal. un; lia. }
  destruct (_ && _ && (b <? Z.quot MIN_64 a)) eqn:C3.
  { assert (P : 0 < a /\ b < 0 /\ b < Z.quot MIN_64 a) by lia. destruct P as (P1 & P2 & P3).
    change MIN_64 with (- (- MIN_64)) in P3. rewrite Z.quot_opp_l, Z.quot_div_nonneg in P3 by (un; lia).
    assert (P4 : - MIN_64 / a < - b) by lia. apply div_floor_lt in P4; [|lia]. f_equal. un; lia. }
  destruct (_ && _ && (a <? Z.quot MAX_64 b)) eqn:C4.
  { assert (P : a < 0 /\ b < 0 /\ a < Z.quot MAX_64 b) by lia. destruct P as (P1 & P2 & P3).
    replace b with (- (- b)) in P3 by lia. rewrite Z.quot_opp_r, Z.quot_div_nonneg in P3 by (un; lia).
    assert (P4 : MAX_64 / - b < - a) by lia. apply div_floor_lt in P4; [|lia]. f_equal. un; lia. }
  assert (R : MIN_64 <= a * b <= MAX_64).
  { destruct (Z.lt_trichotomy a 0) as [A|[A|A]]; [|subst; un; lia|];
      (destruct (Z.lt_trichotomy b 0) as [B|[B|B]]; [|subst; un; lia|]).
    - assert (P : ~ a < Z.quot MAX_64 b) by lia. replace b with (- (- b)) in P by lia.
      rewrite Z.quot_opp_r, Z.quot_div_nonneg in P by (un; lia).
      assert (P4 : ~ MAX_64 / - b < - a) by lia. rewrite div_floor_lt in P4 by lia. un; nia.
    - assert (P : ~ a < Z.quot MIN_64 b) by lia. change MIN_64 with (- (- MIN_64)) in P.
      rewrite Z.quot_opp_l, Z.quot_div_nonneg in P by (un; lia).
      assert (P4 : ~ - MIN_64 / b < - a) by lia. rewrite div_floor_lt in P4 by lia. un; nia.
    - assert (P : ~ b < Z.quot MIN_64 a) by lia. change MIN_64 with (- (- MIN_64)) in P.
      rewrite Z.quot_opp_l, Z.quot_div_nonneg in P by (un; lia).
      assert (P4 : ~ - MIN_64 / a < - b) by lia. rewrite div_floor_lt in P4 by lia. un; nia.
    - assert (P : ~ Z.quot MAX_64 b < a) by lia. rewrite Z.quot_div_nonneg in P by (un; lia).
      rewrite div_floor_lt in P by lia. un; nia. }
  replace (_ && _) with true by (un; lia). f_equal. un; lia.
Qed.

Lemma sub64_ok a b : int64 a -> int64 b ->
  (int64 (a - b) -> sub64_sat a b = Some (clamp64 (a - b))) /\ (~ int64 (a - b) -> sub64_sat a b = None).
Proof.
  intros Ha Hb. unfold sub64_sat. split; intros H.
  - replace (_ && _) with true by (un; lia). f_equal. un; lia.
  - replace (_ && _) with false by (un; lia). reflexivity.
Qed.

(** ** Square root *)

Lemma shiftr4 k : Z.shiftr (4 ^ Z.of_nat (S k)) 2 = 4 ^ Z.of_nat k.
Proof.
  rewrite Z.shiftr_div_pow2 by lia. change (2 ^ 2) with 4. rewrite Nat2Z.inj_succ, Z.pow_succ_r by lia.
  rewrite Z.mul_comm. apply Z.div_mul. lia.
Qed.

Lemma sqrt_start_ok x : 0 < x -> forall k fuel, (k < fuel)%nat -> x < 4 ^ Z.of_nat (S k) ->
  exists j, (j <= k)%nat /\ sqrt_start fuel (4 ^ Z.of_nat k) x = Some (4 ^ Z.of_nat j) /\
  4 ^ Z.of_nat j <= x < 4 ^ Z.of_nat (S j).
Proof.
  intros Hx. induction k as [|k IH]; intros [|f] Hf Hlt; try lia; cbn [sqrt_start].
  - exists 0%nat. change (4 ^ Z.of_nat 0) with 1 in *. replace (x <? 1) with false by lia.
    repeat split; auto; lia.
  - destruct (x <? 4 ^ Z.of_nat (S k)) eqn:E.
    + rewrite shiftr4. destruct (IH f) as (j & J1 & J2 & J3); [lia|apply Z.ltb_lt; exact E|]. exists j. split; [lia|]. split; auto.
    + exists (S k). split; [lia|]. split; [reflexivity|]. split; [apply Z.ltb_ge; exact E|exact Hlt].
Qed.

(** One digit per round: [r] is the root found so far, a multiple of 2^k. *)
Lemma sqrt_loop_ok x : forall k fuel r, (k < fuel)%nat -> 0 <= r ->
  r * r <= x < (r + 2 ^ Z.of_nat k) * (r + 2 ^ Z.of_nat k) ->
  exists v, sqrt_loop fuel (match k with O => 0 | S j => 4 ^ Z.of_nat j end) (x - r * r) (r * 2 ^ Z.of_nat k) = Some v /\
  0 <= v /\ v * v <= x < (v + 1) * (v + 1).
Proof.
  induction k as [|k IH]; intros [|f] r Hf Hr Hx; try lia; cbn [sqrt_loop].
  - exists r. change (2 ^ Z.of_nat 0) with 1 in *. rewrite Z.mul_1_r. repeat split; auto; lia.
  - assert (P : 0 < 2 ^ Z.of_nat k) by (apply Z.pow_pos_nonneg; lia).
    assert (P4 : 4 ^ Z.of_nat k = 2 ^ Z.of_nat k * 2 ^ Z.of_nat k).
    { rewrite <- Z.pow_mul_l. reflexivity. }
    assert (P2 : 2 ^ Z.of_nat (S k) = 2 * 2 ^ Z.of_nat k) by (rewrite Nat2Z.inj_succ, Z.pow_succ_r by lia; reflexivity).
    replace (4 ^ Z.of_nat k =? 0) with false by (rewrite P4; nia).
    assert (HB : Z.shiftr (4 ^ Z.of_nat k) 2 = match k with O => 0 | S j => 4 ^ Z.of_nat j end).
    { destruct k; [reflexivity|apply shiftr4]. }
    rewrite HB. rewrite P2 in *. rewrite P4. set (p := 2 ^ Z.of_nat k) in *. clearbody p.
    destruct (r * (2 * p) + p * p <=? x - r * r) eqn:E.
    + replace (Z.shiftr (r * (2 * p) + p * p * 2) 1) with ((r + p) * p).
      2:{ rewrite Z.shiftr_div_pow2 by lia. change (2 ^ 1) with 2.
          replace (r * (2 * p) + p * p * 2) with ((r + p) * p * 2) by ring. symmetry. apply Z.div_mul. lia. }
      replace (x - r * r - (r * (2 * p) + p * p)) with (x - (r + p) * (r + p)) by ring.
      apply IH; [lia|lia|]. split; [lia|]. replace (r + p + p) with (r + 2 * p) by ring. lia.
    + replace (Z.shiftr (r * (2 * p)) 1) with (r * p).
      2:{ rewrite Z.shiftr_div_pow2 by lia. change (2 ^ 1) with 2.
          replace (r * (2 * p)) with (r * p * 2) by ring. symmetry. apply Z.div_mul. lia. }
      apply IH; [lia|lia|]. split; [lia|]. replace ((r + p) * (r + p)) with (r * r + (r * (2 * p) + p * p)) by ring. lia.
Qed.

(** The result is the integer nearest to the root. *)
Lemma sqrt_ok x : 0 <= x < 3037000499 * 3037000499 ->
  exists v, rounded_sqrt64 x = Some v /\ 0 <= v /\ v * v - v < x + (if x =? 0 then 1 else 0) /\ x <= v * v + v.
Proof.
  intros Hx. destruct (Z.eq_dec x 0) as [->|N]; [exists 0; repeat split; lia|].
  unfold rounded_sqrt64. change (2 ^ 62) with (4 ^ Z.of_nat 31).
  destruct (sqrt_start_ok x ltac:(lia) 31 64) as (j & J1 & J2 & J3 & J4).
  { lia. } { change (4 ^ Z.of_nat 32) with 18446744073709551616. lia. }
  rewrite J2. destruct (sqrt_loop_ok x (S j) 64 0) as (v & V1 & V2 & V3 & V4); [lia|lia| |].
  { split; [lia|]. rewrite Z.add_0_l, <- Z.pow_mul_l. exact J4. }
  cbn [Z.mul] in V1. rewrite Z.sub_0_r in V1. rewrite V1.
  assert (v < 3037000499) by nia.
  replace ((v + 1) * (v + 1) <=? MAX_64) with true by (un; nia).
  replace (x =? 0) with false by lia. rewrite Z.add_0_r.
  destruct (_ <? _) eqn:E; eexists; (split; [reflexivity|]); repeat split; nia.
Qed.

(** ** Normalisation *)

Lemma norm_loop_ok : forall k fuel a n, (k < fuel)%nat -> 0 < a ->
  2 ^ (30 - Z.of_nat k) <= a < 2 ^ (31 - Z.of_nat k) -> Z.of_nat k <= 30 ->
  norm_loop fuel a n = Some (n + Z.of_nat k).
Proof.
  induction k as [|k IH]; intros [|f] a n Hf Ha Hb Hk; try lia; cbn [norm_loop].
  - change (2 ^ (30 - Z.of_nat 0)) with 1073741824 in Hb. replace (a <? 0x40000000) with false by lia.
    f_equal. lia.
  - assert (HP : 2 ^ (31 - Z.of_nat (S k)) <= 2 ^ 30) by (apply Z.pow_le_mono_r; lia).
    change (2 ^ 30) with 1073741824 in HP. replace (a <? 0x40000000) with true by lia.
    rewrite s32_id by (un; lia). rewrite IH; [f_equal; lia|lia|lia| |lia].
    replace (30 - Z.of_nat k) with (Z.succ (30 - Z.of_nat (S k))) by lia.
    replace (31 - Z.of_nat k) with (Z.succ (31 - Z.of_nat (S k))) by lia.
    rewrite !Z.pow_succ_r by lia. lia.
Qed.

(** The number of places a positive number can be doubled without overflow. *)
Lemma norm_ok a : 0 < a < 2 ^ 31 -> exists n, norm32 a = Some n /\ 0 <= n <= 30 /\ 2 ^ 30 <= a * 2 ^ n < 2 ^ 31.
Proof.
  intros Ha. unfold norm32. replace (a =? 0) with false by lia. replace (a =? -1) with false by lia.
  replace (a <? 0) with false by lia.
  pose proof (Z.log2_spec a ltac:(lia)) as [L1 L2].
  assert (L : 0 <= Z.log2 a <= 30).
  { split; [apply Z.log2_nonneg|]. assert (Z.log2 a < 31) by (apply Z.log2_lt_pow2; lia). lia. }
  exists (30 - Z.log2 a). split; [|split; [lia|]].
  - rewrite (norm_loop_ok (Z.to_nat (30 - Z.log2 a))).
    + f_equal. lia.
    + lia.
    + lia.
    + rewrite Z2Nat.id by lia. replace (30 - (30 - Z.log2 a)) with (Z.log2 a) by lia.
      replace (31 - (30 - Z.log2 a)) with (Z.succ (Z.log2 a)) by lia. lia.
    + lia.
  - assert (P : 0 < 2 ^ (30 - Z.log2 a)) by (apply Z.pow_pos_nonneg; lia).
    assert (E1 : 2 ^ 30 = 2 ^ Z.log2 a * 2 ^ (30 - Z.log2 a)) by (rewrite <- Z.pow_add_r by lia; f_equal; lia).
    assert (E2 : 2 ^ 31 = 2 ^ Z.succ (Z.log2 a) * 2 ^ (30 - Z.log2 a)) by (rewrite <- Z.pow_add_r by lia; f_equal; lia).
    rewrite E1, E2. nia.
Qed.


Lemma sub64_undefined : int64 9223372036854775807 /\ int64 (-1) /\ sub64_sat 9223372036854775807 (-1) = None.
Proof. unfold int64. repeat split; reflexivity || (vm_compute; congruence). Qed.

Lemma products_ok : forall a b c d, int32 a -> int32 b -> int16 c -> int32 d ->
  mult32x16in32_shl_sat b c = clamp32 (2 * (b * c / 2 ^ 16)) /\
  mult32_shl_sat a b = clamp32 (2 * (a * b / 2 ^ 32)) /\
  mac32x16in32_shl_sat a b c = clamp32 (a + clamp32 (2 * (b * c / 2 ^ 16))) /\
  mac32_shl_sat a b d = clamp32 (a + clamp32 (2 * (b * d / 2 ^ 32))) /\
  msu32x16in32_shl_sat a b c = clamp32 (a - clamp32 (2 * (b * c / 2 ^ 16))) /\
  msu32_shl_sat a b d = clamp32 (a - clamp32 (2 * (b * d / 2 ^ 32))).
Proof.
  intros. unfold mac32x16in32_shl_sat, mac32_shl_sat, msu32x16in32_shl_sat, msu32_shl_sat.
  rewrite m3216_ok, !m3232_ok, !add_ok, !sub_ok by assumption. repeat split.
Qed.

Lemma products16_ok : forall a b c, int32 a -> int16 b -> int16 c ->
  mult16x16in32_shl_sat b c = clamp32 (2 * (b * c)) /\
  mac16x16in32_sat a b c = clamp32 (a + b * c) /\
  mac16x16in32_shl_sat a b c = clamp32 (a + clamp32 (2 * (b * c))) /\
  msu16x16in32_shl_sat a b c = clamp32 (a - clamp32 (2 * (b * c))).
Proof.
  intros. unfold mac16x16in32_shl_sat, msu16x16in32_shl_sat.
  rewrite m16_ok, mac16_ok, add_ok, sub_ok by assumption. repeat split.
Qed.

Lemma sums_ok : forall a b c, int32 a -> int32 b -> int32 c ->
  add32_sat a b = clamp32 (a + b) /\ sub32_sat a b = clamp32 (a - b) /\
  add32_sat3 a b c = clamp32 (a + b + c) /\
  negate32_sat a = clamp32 (- a) /\ abs32_sat a = clamp32 (Z.abs a).
Proof. intros. rewrite add_ok, sub_ok, add3_ok, neg_ok, abs_ok by assumption. repeat split. Qed.

Lemma sqrt_negative x : - 2 ^ 63 <= x < 0 -> rounded_sqrt64 x = None.
Proof.
  intros H. unfold rounded_sqrt64.
  assert (G : forall fuel bit, 0 <= bit -> sqrt_start fuel bit x = None).
  { induction fuel; intros bit Hb; [reflexivity|]. cbn [sqrt_start]. replace (x <? bit) with true by lia.
    apply IHfuel. apply Z.shiftr_nonneg. exact Hb. }
  rewrite G; [reflexivity|lia].
Qed.
