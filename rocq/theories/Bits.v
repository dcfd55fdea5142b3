(** * Bits: specification of bit strings (MSB first)

    This file does not model any C code.  It is the independent vocabulary in
    which the bitstream properties are stated: a bitstream is a list of
    booleans, a field of [n] bits is read as an unsigned big-endian number. *)

From Coq Require Import ZArith List Lia Bool.
Import ListNotations.
Open Scope Z_scope.

(** Value of a bit string, most significant bit first. *)
Fixpoint val_of (l : list bool) : Z :=
  match l with
  | [] => 0
  | b :: r => (if b then 2 ^ Z.of_nat (length r) else 0) + val_of r
  end.

(** The [n]-bit big-endian representation of [v] (of [v mod 2^n]). *)
Fixpoint bits_of (n : nat) (v : Z) : list bool :=
  match n with
  | O => []
  | S m => Z.testbit v (Z.of_nat m) :: bits_of m v
  end.

(** Bits of a byte string. *)
Definition bytes_bits (l : list Z) : list bool := flat_map (bits_of 8) l.

Definition is_byte (b : Z) : Prop := 0 <= b < 256.
Definition are_bytes (l : list Z) : Prop := Forall is_byte l.

Lemma bits_of_length n v : length (bits_of n v) = n.
Proof. induction n; simpl; auto. Qed.

Lemma val_of_range l : 0 <= val_of l < 2 ^ Z.of_nat (length l).
Proof.
  induction l as [|b r IH].
  - simpl; lia.
  - cbn [val_of length]. rewrite Nat2Z.inj_succ, Z.pow_succ_r by lia.
    destruct b; lia.
Qed.

Lemma val_of_app a b :
  val_of (a ++ b) = val_of a * 2 ^ Z.of_nat (length b) + val_of b.
Proof.
  induction a as [|x r IH].
  - simpl; lia.
  - cbn [val_of app]. rewrite IH, app_length, Nat2Z.inj_add, Z.pow_add_r by lia.
    destruct x; ring.
Qed.

Lemma pow2_pos n : 0 <= n -> 0 < 2 ^ n.
Proof. intros; apply Z.pow_pos_nonneg; lia. Qed.

Lemma val_bits_of_mod n v : val_of (bits_of n v) = v mod 2 ^ Z.of_nat n.
Proof.
  induction n as [|n IH].
  - simpl. rewrite Z.mod_1_r. reflexivity.
  - cbn [bits_of val_of]. rewrite bits_of_length, IH.
    rewrite Nat2Z.inj_succ.
    set (m := Z.of_nat n). assert (Hm : 0 <= m) by (unfold m; lia).
    assert (P := pow2_pos m Hm).
    rewrite Z.pow_succ_r by lia.
    replace (2 * 2 ^ m) with (2 ^ m * 2) by ring.
    rewrite Z.rem_mul_r by lia.
    rewrite <- Z.testbit_spec' by lia.
    destruct (Z.testbit v m); simpl Z.b2z; lia.
Qed.

Lemma val_bits_of n v : 0 <= v < 2 ^ Z.of_nat n -> val_of (bits_of n v) = v.
Proof. intros H. rewrite val_bits_of_mod, Z.mod_small; auto. Qed.

Lemma val_of_firstn n l :
  (n <= length l)%nat ->
  val_of (firstn n l) = val_of l / 2 ^ Z.of_nat (length l - n).
Proof.
  intros H.
  rewrite <- (firstn_skipn n l) at 2.
  rewrite val_of_app, skipn_length.
  assert (P := pow2_pos (Z.of_nat (length l - n)) ltac:(lia)).
  assert (R := val_of_range (skipn n l)). rewrite skipn_length in R.
  rewrite Z.div_add_l by lia. rewrite Z.div_small; lia.
Qed.

Lemma val_of_skipn n l :
  (n <= length l)%nat ->
  val_of (skipn n l) = val_of l mod 2 ^ Z.of_nat (length l - n).
Proof.
  intros H.
  rewrite <- (firstn_skipn n l) at 2.
  rewrite val_of_app, skipn_length.
  assert (P := pow2_pos (Z.of_nat (length l - n)) ltac:(lia)).
  assert (R := val_of_range (skipn n l)). rewrite skipn_length in R.
  rewrite Z.add_comm, Z.mod_add by lia. rewrite Z.mod_small; lia.
Qed.

Lemma bits_of_val l : bits_of (length l) (val_of l) = l.
Proof.
  induction l as [|b r IH]; [reflexivity|].
  cbn [length bits_of val_of].
  assert (R := val_of_range r). set (m := Z.of_nat (length r)) in *.
  assert (Hm : 0 <= m) by (unfold m; lia).
  f_equal.
  - destruct b.
    + rewrite Z.add_comm.
      rewrite Z.testbit_true by lia.
      replace (val_of r + 2 ^ m) with (val_of r + 1 * 2 ^ m) by ring.
      rewrite Z.div_add by lia. rewrite Z.div_small by lia. reflexivity.
    + rewrite Z.add_0_l. rewrite Z.testbit_false by lia.
      rewrite Z.div_small by lia. reflexivity.
  - transitivity (bits_of (length r) (val_of r)); [|exact IH].
    assert (G : forall n, (n <= length r)%nat ->
      bits_of n ((if b then 2 ^ m else 0) + val_of r) = bits_of n (val_of r)).
    { induction n as [|n IHn]; intros Hn; [reflexivity|].
      cbn [bits_of]. f_equal; [|apply IHn; lia].
      destruct b; [|reflexivity].
      assert (Hk : 0 <= Z.of_nat n < m) by (unfold m; lia).
      rewrite Z.add_comm.
      rewrite <- (Z.mod_pow2_bits_low (val_of r + 2 ^ m) m) by lia.
      replace (val_of r + 2 ^ m) with (val_of r + 1 * 2 ^ m) by ring.
      rewrite Z.mod_add by lia.
      rewrite Z.mod_pow2_bits_low by lia. reflexivity. }
    apply G; lia.
Qed.

Lemma bits_of_inj l1 l2 :
  length l1 = length l2 -> val_of l1 = val_of l2 -> l1 = l2.
Proof.
  intros HL HV. rewrite <- (bits_of_val l1), <- (bits_of_val l2), HL, HV. reflexivity.
Qed.

Lemma bits_of_mod n v : bits_of n (v mod 2 ^ Z.of_nat n) = bits_of n v.
Proof.
  apply bits_of_inj.
  - now rewrite !bits_of_length.
  - rewrite !val_bits_of_mod, Z.mod_mod; auto.
    assert (P := pow2_pos (Z.of_nat n) ltac:(lia)); lia.
Qed.

Lemma bytes_bits_length l : length (bytes_bits l) = (8 * length l)%nat.
Proof.
  unfold bytes_bits. induction l; [reflexivity|].
  cbn [flat_map]. rewrite app_length, bits_of_length, IHl. simpl; lia.
Qed.

Lemma bytes_bits_app a b : bytes_bits (a ++ b) = bytes_bits a ++ bytes_bits b.
Proof. unfold bytes_bits. apply flat_map_app. Qed.

Lemma bytes_bits_skipn k l :
  skipn (8 * k) (bytes_bits l) = bytes_bits (skipn k l).
Proof.
  revert l; induction k; intros l; [reflexivity|].
  destruct l as [|b r].
  - rewrite !skipn_nil. reflexivity.
  - change (bytes_bits (b :: r)) with (bits_of 8 b ++ bytes_bits r).
    replace (8 * S k)%nat with (8 + 8 * k)%nat by lia.
    change (skipn (S k) (b :: r)) with (skipn k r).
    rewrite <- IHk. rewrite skipn_app.
    rewrite skipn_all2 by (rewrite bits_of_length; lia).
    rewrite bits_of_length. cbn [app]. f_equal. lia.
Qed.

Lemma skipn_skipn_add {A} (a b : nat) (l : list A) :
  skipn a (skipn b l) = skipn (b + a) l.
Proof.
  revert l; induction b; intros l; [reflexivity|].
  destruct l; [rewrite !skipn_nil; reflexivity|]. simpl. apply IHb.
Qed.

Lemma firstn_bits_app n v r : firstn n (bits_of n v ++ r) = bits_of n v.
Proof.
  rewrite firstn_app, bits_of_length, Nat.sub_diag.
  rewrite firstn_all2 by (rewrite bits_of_length; lia). simpl. apply app_nil_r.
Qed.

Lemma skipn_bits_app n v r : skipn n (bits_of n v ++ r) = r.
Proof.
  rewrite skipn_app, bits_of_length, Nat.sub_diag.
  rewrite skipn_all2 by (rewrite bits_of_length; lia). reflexivity.
Qed.

(** C integer casts (two's complement, x86_64 widths of impeghd_type_def.h). *)
Definition to_u (n : Z) (v : Z) : Z := v mod 2 ^ n.
Definition to_s (n : Z) (v : Z) : Z :=
  let u := v mod 2 ^ n in if u <? 2 ^ (n - 1) then u else u - 2 ^ n.

Definition u8 := to_u 8.
Definition u16 := to_u 16.
Definition u32 := to_u 32.
Definition s8 := to_s 8.
Definition s16 := to_s 16.
Definition s32 := to_s 32.

Lemma to_u_range n v : 0 <= n -> 0 <= to_u n v < 2 ^ n.
Proof. intros; unfold to_u; apply Z.mod_pos_bound, pow2_pos; lia. Qed.

Lemma to_u_id n v : 0 <= v < 2 ^ n -> to_u n v = v.
Proof. intros; unfold to_u; apply Z.mod_small; lia. Qed.

Lemma to_s_range n v : 0 < n -> - 2 ^ (n - 1) <= to_s n v < 2 ^ (n - 1).
Proof.
  intros H. unfold to_s.
  assert (E : 2 ^ n = 2 * 2 ^ (n - 1)).
  { rewrite <- Z.pow_succ_r by lia. f_equal; lia. }
  assert (R := Z.mod_pos_bound v (2 ^ n) ltac:(apply pow2_pos; lia)).
  destruct (Z.ltb_spec (v mod 2 ^ n) (2 ^ (n - 1))); lia.
Qed.

Lemma to_s_id n v : 0 < n -> - 2 ^ (n - 1) <= v < 2 ^ (n - 1) -> to_s n v = v.
Proof.
  intros H R. unfold to_s.
  assert (E : 2 ^ n = 2 * 2 ^ (n - 1)).
  { rewrite <- Z.pow_succ_r by lia. f_equal; lia. }
  destruct (Z.le_gt_cases 0 v).
  - rewrite Z.mod_small by lia. destruct (Z.ltb_spec v (2 ^ (n - 1))); lia.
  - replace (v mod 2 ^ n) with (v + 2 ^ n).
    + destruct (Z.ltb_spec (v + 2 ^ n) (2 ^ (n - 1))); lia.
    + symmetry. rewrite <- (Z.mod_small (v + 2 ^ n) (2 ^ n)) by lia.
      replace (v + 2 ^ n) with (v + 1 * 2 ^ n) by ring.
      rewrite Z.mod_add by lia. reflexivity.
Qed.
