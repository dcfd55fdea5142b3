(** * Lem_Round: binary32 operations round real numbers

    Connects the operations of F32.v with rounding of real numbers through Flocq
    (IEEE754.BinarySingleNaN), for 24 bits of precision and maximal exponent 128. *)

From Coq Require Import ZArith Reals Lia Lra Bool SpecFloat.
From Flocq Require Import Core IEEE754.BinarySingleNaN.
From Verif Require Import F32.
Open Scope R_scope.

Definition Hp : Prec_gt_0 24 := eq_refl.
Definition Hm : Prec_lt_emax 24 128 := eq_refl.
#[local] Existing Instance Hp.
#[local] Existing Instance Hm.

Definition bf := binary_float 24 128.
(** Rounding to nearest, ties to even, in the format of binary32. *)
Definition rnd (x : R) : R := round radix2 (FLT_exp (-149) 24) ZnearestE x.

(** [fin x a]: x is a finite binary32 number of value a. *)
Definition fin (x : f32) (a : R) : Prop :=
  exists b : bf, is_finite b = true /\ B2SF b = x /\ B2R b = a.

Lemma rne_equiv s m l : round_nearest_even m l = choice_mode mode_NE s m l.
Proof.
  case l; [reflexivity|intro c]. case c; [|reflexivity..].
  now simpl; unfold Round.cond_incr; case Z.even.
Qed.

Lemma bra_equiv sx mx ex lx :
  SpecFloat.binary_round_aux 24 128 sx mx ex lx = binary_round_aux 24 128 mode_NE sx mx ex lx.
Proof.
  unfold SpecFloat.binary_round_aux, binary_round_aux.
  set (mrse' := shr_fexp _ _ _). case mrse'; intros mrs' e'; simpl. now rewrite (rne_equiv sx).
Qed.

Lemma br_equiv s m e : SpecFloat.binary_round 24 128 s m e = binary_round 24 128 mode_NE s m e.
Proof.
  unfold SpecFloat.binary_round, binary_round, shl_align_fexp.
  set (mez := shl_align _ _ _); case mez as [mz ez]. apply bra_equiv.
Qed.

Lemma bn_equiv m e z : SpecFloat.binary_normalize 24 128 m e z = B2SF (binary_normalize 24 128 Hp Hm mode_NE m e z).
Proof.
  case m as [|p|p]; [now simpl|..]; simpl; rewrite B2SF_SF2B; apply br_equiv.
Qed.

Lemma mul_equiv (x y : bf) : f_mul (B2SF x) (B2SF y) = B2SF (Bmult mode_NE x y).
Proof.
  case x as [sx|sx| |sx mx ex Bx]; case y as [sy|sy| |sy my ey By]; [now trivial..|].
  simpl. rewrite B2SF_SF2B. apply bra_equiv.
Qed.

Lemma add_equiv (x y : bf) : f_add (B2SF x) (B2SF y) = B2SF (Bplus mode_NE x y).
Proof.
  case x as [sx|sx| |sx mx ex Bx]; case y as [sy|sy| |sy my ey By];
    [now (trivial || simpl; case Bool.eqb)..|].
  apply bn_equiv.
Qed.

Lemma sub_equiv (x y : bf) : f_sub (B2SF x) (B2SF y) = B2SF (Bminus mode_NE x y).
Proof.
  case x as [sx|sx| |sx mx ex Bx]; case y as [sy|sy| |sy my ey By];
    [now (trivial || simpl; case Bool.eqb)..|].
  simpl. unfold Zminus. rewrite <- cond_Zopp_negb. apply bn_equiv.
Qed.

Lemma div_equiv (x y : bf) : f_div (B2SF x) (B2SF y) = B2SF (Bdiv mode_NE x y).
Proof.
  case x as [sx|sx| |sx mx ex Bx]; case y as [sy|sy| |sy my ey By];
    [now (trivial || simpl; case Bool.eqb)..|].
  simpl. rewrite B2SF_SF2B. set (melz := SFdiv_core_binary _ _ _ _ _ _).
  case melz as [[mz ez] lz]. apply bra_equiv.
Qed.

Lemma small_ok x : Rabs x <= 4 -> Rlt_bool (Rabs (rnd x)) (bpow radix2 128) = true.
Proof.
  intros H. apply Rlt_bool_true.
  apply Rle_lt_trans with (bpow radix2 2); [|apply bpow_lt; lia].
  unfold rnd. apply abs_round_le_generic; [exact _|exact _|apply generic_format_bpow; unfold FLT_exp; lia|].
  simpl. lra.
Qed.

Lemma fin_add x y a b : fin x a -> fin y b -> Rabs (a + b) <= 4 -> fin (f_add x y) (rnd (a + b)).
Proof.
  intros (u & Fu & Eu & Ru) (v & Fv & Ev & Rv) H.
  pose proof (Bplus_correct 24 128 Hp Hm mode_NE u v Fu Fv) as C. rewrite Ru, Rv in C.
  change (round radix2 (SpecFloat.fexp 24 128) (round_mode mode_NE) (a + b)) with (rnd (a + b)) in C.
  rewrite small_ok in C by exact H. destruct C as (C1 & C2 & _).
  exists (Bplus mode_NE u v). rewrite <- Eu, <- Ev, add_equiv. auto.
Qed.

Lemma fin_sub x y a b : fin x a -> fin y b -> Rabs (a - b) <= 4 -> fin (f_sub x y) (rnd (a - b)).
Proof.
  intros (u & Fu & Eu & Ru) (v & Fv & Ev & Rv) H.
  pose proof (Bminus_correct 24 128 Hp Hm mode_NE u v Fu Fv) as C. rewrite Ru, Rv in C.
  change (round radix2 (SpecFloat.fexp 24 128) (round_mode mode_NE) (a - b)) with (rnd (a - b)) in C.
  rewrite small_ok in C by exact H. destruct C as (C1 & C2 & _).
  exists (Bminus mode_NE u v). rewrite <- Eu, <- Ev, sub_equiv. auto.
Qed.

Lemma fin_mul_lt x y a b : fin x a -> fin y b -> Rabs (rnd (a * b)) < bpow radix2 128 -> fin (f_mul x y) (rnd (a * b)).
Proof.
  intros (u & Fu & Eu & Ru) (v & Fv & Ev & Rv) H.
  pose proof (Bmult_correct 24 128 Hp Hm mode_NE u v) as C. rewrite Ru, Rv in C.
  change (round radix2 (SpecFloat.fexp 24 128) (round_mode mode_NE) (a * b)) with (rnd (a * b)) in C.
  rewrite Rlt_bool_true in C by exact H. destruct C as (C1 & C2 & _).
  exists (Bmult mode_NE u v). rewrite <- Eu, <- Ev, mul_equiv. rewrite Fu, Fv in C2. auto.
Qed.

Lemma fin_mul x y a b : fin x a -> fin y b -> Rabs (a * b) <= 4 -> fin (f_mul x y) (rnd (a * b)).
Proof.
  intros A B H. apply fin_mul_lt; try assumption. pose proof (small_ok _ H) as S.
  destruct (Rlt_bool_spec (Rabs (rnd (a * b))) (bpow radix2 128)); [assumption|discriminate].
Qed.

Lemma fin_div x y a b : fin x a -> fin y b -> b <> 0 -> Rabs (a / b) <= 4 -> fin (f_div x y) (rnd (a / b)).
Proof.
  intros (u & Fu & Eu & Ru) (v & Fv & Ev & Rv) Z H.
  pose proof (Bdiv_correct 24 128 Hp Hm mode_NE u v) as C. rewrite Ru, Rv in C. specialize (C Z).
  change (round radix2 (SpecFloat.fexp 24 128) (round_mode mode_NE) (a / b)) with (rnd (a / b)) in C.
  rewrite small_ok in C by exact H. destruct C as (C1 & C2 & _).
  exists (Bdiv mode_NE u v). rewrite <- Eu, <- Ev, div_equiv. rewrite Fu in C2. auto.
Qed.

Lemma fin_cmp x y a b : fin x a -> fin y b -> SFcompare x y = Some (Rcompare a b).
Proof.
  intros (u & Fu & Eu & Ru) (v & Fv & Ev & Rv). rewrite <- Eu, <- Ev, <- Ru, <- Rv.
  exact (Bcompare_correct 24 128 u v Fu Fv).
Qed.

Lemma fin_lt x y a b : fin x a -> fin y b -> f_lt x y = Rlt_bool a b.
Proof.
  intros A B. unfold f_lt, SFltb. rewrite (fin_cmp _ _ _ _ A B).
  destruct (Rcompare_spec a b); [rewrite Rlt_bool_true|rewrite Rlt_bool_false|rewrite Rlt_bool_false]; trivial; lra.
Qed.

Lemma fin_le x y a b : fin x a -> fin y b -> f_le x y = Rle_bool a b.
Proof.
  intros A B. unfold f_le, SFleb. rewrite (fin_cmp _ _ _ _ A B).
  destruct (Rcompare_spec a b); [rewrite Rle_bool_true|rewrite Rle_bool_true|rewrite Rle_bool_false]; trivial; lra.
Qed.

Lemma fin_fmt x a : fin x a -> generic_format radix2 (FLT_exp (-149) 24) a.
Proof. intros (u & Fu & Eu & Ru). rewrite <- Ru. exact (generic_format_B2R 24 128 u). Qed.

Lemma rnd_id x a : fin x a -> rnd a = a.
Proof. intros H. apply round_generic; [exact _|exact (fin_fmt _ _ H)]. Qed.

Lemma rnd_le a b : a <= b -> rnd a <= rnd b.
Proof. intros H. unfold rnd. apply round_le; [exact _|exact _|exact H]. Qed.

(** Bounds that are themselves numbers survive rounding. *)
Lemma rnd_ub x b a : fin x b -> a <= b -> rnd a <= b.
Proof. intros F H. rewrite <- (rnd_id _ _ F). apply rnd_le, H. Qed.
Lemma rnd_lb x b a : fin x b -> b <= a -> b <= rnd a.
Proof. intros F H. rewrite <- (rnd_id _ _ F). apply rnd_le, H. Qed.

Lemma fin_neg x a : fin x a -> fin (SFopp x) (- a).
Proof.
  intros (u & Fu & Eu & Ru). exists (Bopp u). rewrite is_finite_Bopp, B2R_Bopp, Ru. split; [exact Fu|].
  split; [|reflexivity]. rewrite <- Eu. destruct u; reflexivity.
Qed.

Lemma fin_abs x a : fin x a -> fin (SFabs x) (Rabs a).
Proof.
  intros (u & Fu & Eu & Ru). exists (Babs u). rewrite is_finite_Babs, B2R_Babs, Ru. split; [exact Fu|].
  split; [|reflexivity]. rewrite <- Eu. destruct u; reflexivity.
Qed.

Lemma fin_valid x a : fin x a -> valid_binary 24 128 x = true.
Proof. intros (u & Fu & Eu & Ru). rewrite <- Eu. apply valid_binary_B2SF. Qed.

(** Every finite valid number. *)
Lemma valid_fin x : valid_binary 24 128 x = true -> is_finite_SF x = true -> exists a, fin x a.
Proof.
  intros V F. exists (B2R (SF2B x V)). exists (SF2B x V). rewrite is_finite_SF2B, B2SF_SF2B. auto.
Qed.

Lemma fin_finite x a : fin x a -> is_finite_SF x = true.
Proof. intros (u & Fu & Eu & Ru). rewrite <- Eu. rewrite is_finite_SF_B2SF. exact Fu. Qed.

(** A literal. *)
Lemma fin_lit s m e : bounded 24 128 m e = true ->
  fin (S754_finite s m e) (F2R (Float radix2 (cond_Zopp s (Zpos m)) e)).
Proof. intros H. exists (B754_finite s m e H). auto. Qed.
Lemma fin_0 s : fin (S754_zero s) 0.
Proof. exists (B754_zero s). auto. Qed.

Lemma fin_bpow e : (-126 <= e <= 127)%Z -> fin (S754_finite false (2 ^ 23)%positive (e - 23)) (bpow radix2 e).
Proof.
  intros H. replace (bpow radix2 e) with (F2R (Float radix2 (cond_Zopp false (Zpos (2 ^ 23))) (e - 23))).
  - apply fin_lit. unfold bounded, canonical_mantissa, fexp, emin. change (digits2_pos (2 ^ 23)) with 24%positive.
    apply andb_true_iff. split; [apply Zeq_is_eq_bool|apply Zle_bool_intro || apply Z.leb_le]; lia.
  - unfold F2R. cbn [cond_Zopp Fnum Fexp]. change (IZR (Zpos (2 ^ 23))) with (IZR (2 ^ 23)).
    change (2 ^ 23)%Z with (Zpower radix2 23). rewrite IZR_Zpower by lia. rewrite <- bpow_plus. f_equal. lia.
Qed.

Lemma fin_1 : fin (of_int 1) 1.
Proof. exact (fin_bpow 0 ltac:(lia)). Qed.

(** Rounding error below 2: at most 2^-24. *)
Lemma rnd_err a : Rabs a < 2 -> Rabs (rnd a - a) <= bpow radix2 (-24).
Proof.
  intros H. destruct (Req_dec a 0) as [->|N].
  - unfold rnd. rewrite round_0 by exact _. rewrite Rminus_0_r, Rabs_R0. apply bpow_ge_0.
  - unfold rnd. eapply Rle_trans; [apply error_le_half_ulp; exact _|].
    rewrite ulp_neq_0 by exact N. unfold cexp, FLT_exp.
    assert (mag radix2 a <= 1)%Z by (apply mag_le_bpow; [exact N|simpl; lra]).
    assert (B : bpow radix2 (Z.max (mag radix2 a - 24) (-149)) <= bpow radix2 (-23)) by (apply bpow_le; lia).
    replace (bpow radix2 (-24)) with (/ 2 * bpow radix2 (-23)); [lra|].
    change (-23)%Z with (-24 + 1)%Z. rewrite bpow_plus. simpl (bpow radix2 1). lra.
Qed.

(** 1 + 2^-24 is halfway to the next number and rounds down to 1. *)
Lemma rnd_one_tie : rnd (1 + bpow radix2 (-24)) = 1.
Proof.
  unfold rnd, round, scaled_mantissa, cexp.
  assert (M : mag radix2 (1 + bpow radix2 (-24)) = 1%Z :> Z).
  { apply mag_unique. rewrite Rabs_pos_eq by (simpl; lra). simpl. lra. }
  rewrite M. replace (FLT_exp (-149) 24 1) with (-23)%Z by reflexivity.
  replace ((1 + bpow radix2 (-24)) * bpow radix2 (- (-23))) with (IZR 8388608 + / 2).
  - replace (ZnearestE (IZR 8388608 + / 2)) with 8388608%Z.
    + unfold F2R. cbn [Fnum Fexp]. simpl. lra.
    + symmetry. unfold Znearest.
      assert (F : Zfloor (IZR 8388608 + / 2) = 8388608%Z) by (apply Zfloor_imp; rewrite plus_IZR; lra).
      rewrite F. rewrite Rcompare_Eq by lra. reflexivity.
  - simpl. lra.
Qed.
