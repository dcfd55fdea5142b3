(** * Lem_Arith: proofs about the arithmetic decoder *)

From Coq Require Import ZArith List Lia Bool.
From Verif Require Import Bits ArithRom Arith Spec_Arith.
Import ListNotations.
Open Scope Z_scope.

Lemma w32_ok z : - 2 ^ 31 <= z < 2 ^ 31 -> w32 z = Got z.
Proof.
  intros H. unfold w32. rewrite (proj2 (Z.leb_le _ _)) by lia. rewrite (proj2 (Z.ltb_lt _ _)) by lia. reflexivity.
Qed.
Lemma shl32_ok z n : 0 <= z -> z * 2 ^ n < 2 ^ 31 -> shl32 z n = Got (z * 2 ^ n).
Proof.
  intros H K. unfold shl32. rewrite (proj2 (Z.leb_le _ _)) by lia. apply w32_ok.
  assert (0 <= 2 ^ n) by (apply Z.pow_nonneg; lia). nia.
Qed.
Lemma tab_ok l i : 0 <= i < Z.of_nat (length l) -> tab l i = Got (entry l i).
Proof.
  intros H. unfold tab, entry. rewrite (proj2 (Z.ltb_ge _ _)) by lia.
  rewrite (nth_error_nth' l 0) by lia. reflexivity.
Qed.

(** ** The search *)
Lemma search_ok cf cum : freq_table cf -> 0 <= cum -> forall fuel cfl pos,
  2 <= cfl -> cfl <= Z.of_nat fuel + 1 -> 0 <= pos -> pos + cfl <= Z.of_nat (length cf) ->
  (0 < pos -> cum < entry cf (pos - 1)) -> entry cf (pos + cfl - 1) <= cum ->
  exists s, search fuel cf cum cfl pos = Got s /\ is_symbol cf s /\ entry cf s <= cum /\
    (0 < s -> cum < entry cf (s - 1)).
Proof.
  intros T C. induction fuel as [|fuel IH]; intros cfl pos H1 H2 H3 H4 H5 H6; [lia|].
  cbn [search]. rewrite !Z.shiftr_div_pow2 by lia. change (2 ^ 1) with 2.
  pose proof (Z.div_mod cfl 2 ltac:(lia)) as DM. pose proof (Z.mod_pos_bound cfl 2 ltac:(lia)) as MB.
  rewrite tab_ok by lia. cbn [obind]. rewrite Z.gtb_ltb.
  destruct (Z.ltb_spec cum (entry cf (pos + cfl / 2 - 1))) as [Q|Q].
  - assert (E : (cfl + 1) / 2 = cfl - cfl / 2).
    { symmetry. apply (Z.div_unique _ _ _ (1 - cfl mod 2)); lia. }
    rewrite Z.shiftr_div_pow2 by lia. change (2 ^ 1) with 2. rewrite E, Z.gtb_ltb.
    destruct (Z.ltb_spec 1 (cfl - cfl / 2)).
    + apply IH; try lia. replace (pos + cfl / 2 + (cfl - cfl / 2) - 1) with (pos + cfl - 1) by lia. exact H6.
    + exists (pos + cfl / 2). split; [reflexivity|]. split; [unfold is_symbol; lia|]. split; [|intros _; exact Q].
      replace (pos + cfl / 2) with (pos + cfl - 1) by lia. exact H6.
  - rewrite Z.shiftr_div_pow2 by lia. change (2 ^ 1) with 2. rewrite Z.gtb_ltb.
    destruct (Z.ltb_spec 1 (cfl / 2)).
    + apply IH; try lia; assumption.
    + exists pos. split; [reflexivity|]. split; [unfold is_symbol; lia|]. split; [|exact H5].
      replace pos with (pos + cfl / 2 - 1) by lia. exact Q.
Qed.

Lemma symbol_unique cf cum s t : freq_table cf -> is_symbol cf s -> is_symbol cf t ->
  entry cf s <= cum -> (0 < s -> cum < entry cf (s - 1)) ->
  entry cf t <= cum -> (0 < t -> cum < entry cf (t - 1)) -> s = t.
Proof.
  intros (_ & _ & _ & D) S T A B C E. unfold is_symbol in *.
  destruct (Z.lt_trichotomy s t) as [L|[L|L]]; [|exact L|].
  - specialize (E ltac:(lia)). destruct (Z.eq_dec s (t - 1)) as [->|N]; [lia|].
    specialize (D s (t - 1) ltac:(lia) ltac:(lia) ltac:(lia)). lia.
  - specialize (B ltac:(lia)). destruct (Z.eq_dec t (s - 1)) as [->|N]; [lia|].
    specialize (D t (s - 1) ltac:(lia) ltac:(lia) ltac:(lia)). lia.
Qed.

Lemma entry_range cf i : freq_table cf -> 0 <= i < Z.of_nat (length cf) -> 0 <= entry cf i < 16384.
Proof.
  intros (L & F & Z0 & D) H. split.
  - destruct (Z.eq_dec i (Z.of_nat (length cf) - 1)) as [->|N]; [lia|].
    specialize (D i (Z.of_nat (length cf) - 1) ltac:(lia) ltac:(lia) ltac:(lia)). lia.
  - destruct (Z.eq_dec i 0) as [->|N]; [lia|]. specialize (D 0 i ltac:(lia) ltac:(lia) ltac:(lia)). lia.
Qed.

(** ** Intervals *)
Record good (s : ast) : Prop := {
  g_low : 0 <= a_low s; g_lv : a_low s <= a_val s; g_vh : a_val s <= a_high s; g_high : a_high s <= 65535;
  g_mid : a_low s < 32768 <= a_high s; g_quarter : a_low s < 16384 \/ 49152 <= a_high s }.

Lemma good_width s : good s -> 16386 <= a_high s - a_low s + 1 <= 65536.
Proof. intros [? ? ? ? ? ?]. lia. Qed.

(** Division of the interval: the share of a symbol is not empty and contains the value
    exactly when the cumulative value selects the symbol. *)

Lemma cum_ge d r c : 0 < r -> (c <= ((d + 1) * 16384 - 1) / r <-> r * c / 16384 <= d).
Proof.
  intros R. split; intros H.
  - assert (c * r <= (d + 1) * 16384 - 1).
    { apply Z.le_trans with (r * (((d + 1) * 16384 - 1) / r)); [nia|]. apply Z.mul_div_le. exact R. }
    apply Z.lt_succ_r. apply Z.div_lt_upper_bound; lia.
  - apply Z.div_le_lower_bound; [exact R|].
    pose proof (Z.div_mod (r * c) 16384 ltac:(lia)). pose proof (Z.mod_pos_bound (r * c) 16384 ltac:(lia)). lia.
Qed.

Lemma share_mono r a b : 16384 <= r -> a < b -> r * a / 16384 + 1 <= r * b / 16384.
Proof.
  intros R L. apply Z.div_le_lower_bound; [lia|].
  pose proof (Z.mul_div_le (r * a) 16384 ltac:(lia)). nia.
Qed.

(** ** Renormalisation *)
Definition settled (lo hi : Z) : Prop := lo < 32768 <= hi /\ (lo < 16384 \/ 49152 <= hi).

Lemma lor_bit v b : Z.lor (2 * v) (bz b) = 2 * v + bz b.
Proof. destruct b; cbn [bz]; [destruct v as [|p|p]; try reflexivity; now destruct p|rewrite Z.lor_0_r; lia]. Qed.

Lemma renorm_ok fuel : forall v lo hi bs n,
  0 <= lo -> lo <= v -> v <= hi -> hi <= 65535 -> 32768 < (hi - lo + 1) * 2 ^ (Z.of_nat fuel - 1) ->
  exists k v' lo' hi', renorm fuel v lo hi bs n = Got (mkAst v' lo' hi', skipn k bs, n + Z.of_nat k) /\
    good (mkAst v' lo' hi') /\ hi' - lo' + 1 = 2 ^ Z.of_nat k * (hi - lo + 1) /\
    2 ^ Z.of_nat k * (v - lo) <= v' - lo' /\ (bs = [] -> v' - lo' = 2 ^ Z.of_nat k * (v - lo)).
Proof.
  induction fuel as [|fuel IH]; intros v lo hi bs n L LV VH H F.
  - exfalso. change (2 ^ (Z.of_nat 0 - 1)) with 0 in F. lia.
  - cbn [renorm].
    assert (GO : forall c, 0 <= c <= lo -> hi - c <= 32767 ->
      exists k v' lo' hi',
       (olet hi := w32 (hi - c) in olet lo := w32 (lo - c) in olet v := w32 (v - c) in
        olet hi := w32 (hi + (hi + 1)) in olet lo := w32 (lo + lo) in olet v := shl32 v 1 in
        match bs with
        | [] => renorm fuel v lo hi [] (n + 1)
        | b :: bs => renorm fuel (Z.lor v (bz b)) lo hi bs (n + 1)
        end) = Got (mkAst v' lo' hi', skipn k bs, n + Z.of_nat k) /\
        good (mkAst v' lo' hi') /\ hi' - lo' + 1 = 2 ^ Z.of_nat k * (hi - lo + 1) /\
        2 ^ Z.of_nat k * (v - lo) <= v' - lo' /\ (bs = [] -> v' - lo' = 2 ^ Z.of_nat k * (v - lo))).
    { intros c C HC.
      rewrite (w32_ok (hi - c)) by lia. cbn [obind]. rewrite (w32_ok (lo - c)) by lia. cbn [obind].
      rewrite (w32_ok (v - c)) by lia. cbn [obind]. rewrite (w32_ok (hi - c + (hi - c + 1))) by lia. cbn [obind].
      rewrite (w32_ok (lo - c + (lo - c))) by lia. cbn [obind].
      rewrite (shl32_ok (v - c) 1) by lia. cbn [obind].
      assert (F' : 32768 < (hi - c + (hi - c + 1) - (lo - c + (lo - c)) + 1) * 2 ^ (Z.of_nat fuel - 1)).
      { replace (Z.of_nat (S fuel) - 1) with (Z.of_nat fuel) in F by lia.
        destruct fuel as [|f]; [change (2 ^ Z.of_nat 0) with 1 in F; lia|].
        replace (Z.of_nat (S f)) with (1 + (Z.of_nat (S f) - 1)) in F by lia.
        rewrite (Z.pow_add_r 2 1) in F by lia. change (2 ^ 1) with 2 in F. nia. }
      destruct bs as [|b bs].
      - destruct (IH ((v - c) * 2 ^ 1) (lo - c + (lo - c)) (hi - c + (hi - c + 1)) [] (n + 1)) as (k & v' & lo' & hi' & E & G & R & V1 & V2); try lia.
        exists (S k), v', lo', hi'. rewrite E. rewrite Nat2Z.inj_succ, Z.pow_succ_r by lia.
        split; [rewrite !skipn_nil; f_equal; f_equal; lia|]. split; [exact G|]. split; [nia|]. specialize (V2 eq_refl). split; [nia|intros _; nia].
      - replace ((v - c) * 2 ^ 1) with (2 * (v - c)) by lia. rewrite lor_bit.
        assert (B : 0 <= bz b <= 1) by (destruct b; cbn; lia).
        destruct (IH (2 * (v - c) + bz b) (lo - c + (lo - c)) (hi - c + (hi - c + 1)) bs (n + 1)) as (k & v' & lo' & hi' & E & G & R & V1 & V2); try lia.
        exists (S k), v', lo', hi'. rewrite E. rewrite Nat2Z.inj_succ, Z.pow_succ_r by lia.
        split; [cbn [skipn]; f_equal; f_equal; lia|]. split; [exact G|]. split; [nia|].
        assert (0 < 2 ^ Z.of_nat k) by (apply Z.pow_pos_nonneg; lia).
        split; [nia|discriminate]. }
    destruct (Z.ltb_spec hi 32768); [apply GO; lia|].
    rewrite Z.geb_leb. destruct (Z.leb_spec 32768 lo); [apply GO; lia|].
    rewrite Z.geb_leb. destruct (Z.leb_spec 16384 lo); cbn [andb].
    + destruct (Z.ltb_spec hi 49152); cbn [andb]; [apply GO; lia|].
      exists 0%nat, v, lo, hi. split; [cbn [skipn]; f_equal; f_equal; lia|].
      split; [constructor; cbn; lia|]. change (2 ^ Z.of_nat 0) with 1. lia.
    + exists 0%nat, v, lo, hi. split; [cbn [skipn]; f_equal; f_equal; lia|].
      split; [constructor; cbn; lia|]. change (2 ^ Z.of_nat 0) with 1. lia.
Qed.

(** ** One symbol *)
Definition cumul (s : ast) : Z := ((a_val s - a_low s + 1) * 16384 - 1) / (a_high s - a_low s + 1).
Definition width (s : ast) : Z := a_high s - a_low s + 1.
Definition off (s : ast) : Z := a_val s - a_low s.

(** The part of arith_decode before the renormalisation. *)
Definition upper (s : ast) (cf : list Z) (y : Z) : Z := if y =? 0 then width s else width s * entry cf (y - 1) / 16384.
Definition lower (s : ast) (cf : list Z) (y : Z) : Z := width s * entry cf y / 16384.

Lemma share_bounds s cf y : good s -> freq_table cf -> is_symbol cf y ->
  0 <= lower s cf y /\ lower s cf y + 1 <= upper s cf y /\ upper s cf y <= width s.
Proof.
  intros G T Y. pose proof (good_width s G) as W. fold (width s) in W. unfold lower, upper.
  pose proof (entry_range cf y T Y) as E. unfold is_symbol in Y.
  split; [apply Z.div_pos; nia|].
  destruct (Z.eqb_spec y 0) as [->|N].
  - split; [|lia]. pose proof (share_mono (width s) (entry cf 0) 16384 ltac:(lia) ltac:(lia)) as M.
    rewrite Z.div_mul in M by lia. lia.
  - pose proof (entry_range cf (y - 1) T ltac:(lia)).
    destruct T as (L & F & Z0 & D). specialize (D (y - 1) y ltac:(lia) ltac:(lia) ltac:(lia)).
    split; [apply share_mono; lia|]. apply Z.div_le_upper_bound; [lia|]. nia.
Qed.

Lemma decode_ok s bs n cf : good s -> freq_table cf ->
  (bs = [] /\ cumul s <= 0 /\ arith_decode s bs n cf (Z.of_nat (length cf)) = Invalid) \/
  (bs <> [] \/ 0 < cumul s) /\
  exists y k s', arith_decode s bs n cf (Z.of_nat (length cf)) = Got (y, s', skipn k bs, n + Z.of_nat k) /\
    is_symbol cf y /\ good s' /\
    lower s cf y <= off s < upper s cf y /\
    width s' = 2 ^ Z.of_nat k * (upper s cf y - lower s cf y) /\
    (bs = [] -> off s' = 2 ^ Z.of_nat k * (off s - lower s cf y)) /\
    renorm 20 (a_val s) (a_low s + lower s cf y) (a_low s + upper s cf y - 1) bs n = Got (s', skipn k bs, n + Z.of_nat k).
Proof.
  intros G T. pose proof (good_width s G) as W. pose proof G as [G1 G2 G3 G4 G5 G6].
  unfold arith_decode.
  rewrite (w32_ok (a_high s - a_low s + 1)) by lia. cbn [obind].
  rewrite (w32_ok (a_val s - a_low s + 1)) by lia. cbn [obind].
  rewrite (shl32_ok (a_val s - a_low s + 1) 14) by lia. cbn [obind]. change (2 ^ 14) with 16384.
  rewrite (w32_ok _) by lia. cbn [obind].
  rewrite (proj2 (Z.eqb_neq _ _)) by lia. rewrite Z.quot_div_nonneg by lia.
  fold (cumul s). fold (width s) in *.
  assert (C0 : 0 <= cumul s) by (apply Z.div_pos; lia).
  destruct (search_ok cf (cumul s) T C0 32%nat (Z.of_nat (length cf)) 0) as (y & SE & Y & Y1 & Y2).
  { pose proof (proj1 T). lia. } { pose proof (proj1 T). lia. } { lia. } { lia. } { lia. }
  { destruct T as (_ & _ & Z0 & _). rewrite Z.add_0_l, Z0. exact C0. }
  destruct ((match bs with [] => true | _ => false end) && (cumul s <=? 0)) eqn:Q.
  { left. apply andb_true_iff in Q. destruct Q as [Q1 Q2]. destruct bs; [|discriminate].
    apply Z.leb_le in Q2. repeat split. exact Q2. }
  right. split.
  { destruct bs; [right|left; discriminate]. apply andb_false_iff in Q. destruct Q as [Q|Q]; [discriminate|].
    apply Z.leb_gt in Q. exact Q. }
  rewrite SE. cbn [obind].
  destruct (share_bounds s cf y G T Y) as (B1 & B2 & B3).
  assert (OL : lower s cf y <= off s).
  { unfold lower, off. apply (cum_ge (a_val s - a_low s) (width s) (entry cf y)); [unfold width; lia|exact Y1]. }
  assert (OU : off s < upper s cf y).
  { unfold upper. destruct (Z.eqb_spec y 0) as [E|E]; [unfold off, width; lia|].
    unfold is_symbol in Y. specialize (Y2 ltac:(lia)). unfold off.
    destruct (Z.lt_ge_cases (a_val s - a_low s) (width s * entry cf (y - 1) / 16384)) as [X|X]; [exact X|].
    apply (cum_ge _ (width s)) in X; [|unfold width; lia]. fold (width s) in *. unfold cumul in Y2. fold (width s) in Y2. lia. }
  assert (HI : (if y =? 0 then Got (a_high s) else
     olet c := tab cf (y - 1) in olet p := w32 (width s * c) in w32 (a_low s + Z.shiftr p 14 - 1)) = Got (a_low s + upper s cf y - 1)).
  { unfold upper. destruct (Z.eqb_spec y 0) as [E|E]; [f_equal; unfold width; lia|].
    unfold is_symbol in Y. rewrite tab_ok by lia. cbn [obind].
    pose proof (entry_range cf (y - 1) T ltac:(lia)).
    rewrite w32_ok by nia. cbn [obind]. rewrite Z.shiftr_div_pow2 by lia. change (2 ^ 14) with 16384.
    apply w32_ok. unfold upper in B2, B3. rewrite (proj2 (Z.eqb_neq y 0)) in B2, B3 by lia. lia. }
  rewrite HI. cbn [obind]. unfold is_symbol in Y.
  rewrite tab_ok by lia. cbn [obind]. pose proof (entry_range cf y T ltac:(lia)).
  rewrite w32_ok by nia. cbn [obind]. rewrite Z.shiftr_div_pow2 by lia. change (2 ^ 14) with 16384.
  fold (lower s cf y). rewrite w32_ok by lia. cbn [obind].
  destruct (renorm_ok 20 (a_val s) (a_low s + lower s cf y) (a_low s + upper s cf y - 1) bs n) as (k & v' & lo' & hi' & E & G' & R & V1 & V2).
  { lia. } { unfold off in OL. lia. } { unfold off in OU. lia. } { unfold width in B3. lia. }
  { change (2 ^ (Z.of_nat 20 - 1)) with 524288. nia. }
  exists y, k, (mkAst v' lo' hi'). rewrite E. cbn [obind].
  split; [reflexivity|]. split; [exact Y|]. split; [exact G'|]. split; [split; assumption|].
  unfold width at 1, off at 1. cbn [a_val a_low a_high] in *.
  split; [rewrite R; f_equal; lia|]. split; [|reflexivity].
  intros Q2. rewrite (V2 Q2). unfold off. f_equal. lia.
Qed.

(** ** The first symbol *)
Lemma take_bits_all n : forall bs acc, (n <= length bs)%nat ->
  take_bits n acc bs = (acc * 2 ^ Z.of_nat n + val_of (firstn n bs), skipn n bs).
Proof.
  induction n as [|n IH]; intros bs acc H.
  - destruct bs; cbn; f_equal; lia.
  - destruct bs as [|b bs]; [cbn in H; lia|]. cbn [take_bits length] in *. rewrite IH by lia.
    cbn [firstn skipn val_of]. rewrite firstn_length, Nat.min_l by lia.
    rewrite Nat2Z.inj_succ, Z.pow_succ_r by lia. f_equal. destruct b; cbn [bz Z.b2z]; lia.
Qed.

Lemma first_good bs : good (fst (first_symbol bs)) /\ snd (first_symbol bs) = skipn 16 bs.
Proof.
  unfold first_symbol. destruct (Nat.leb_spec 16 (length bs)) as [H|H].
  - rewrite take_bits_all by exact H. cbn [fst snd]. split; [|reflexivity].
    pose proof (val_of_range (firstn 16 bs)) as R. rewrite firstn_length, Nat.min_l in R by lia.
    change (2 ^ Z.of_nat 16) with 65536 in R. constructor; cbn [a_val a_low a_high]; lia.
  - rewrite take_bits_all by lia. cbn [fst snd]. rewrite firstn_all. split.
    + pose proof (val_of_range bs) as R. set (L := Z.of_nat (length bs)) in *.
      assert (P : 2 ^ L * 2 ^ (16 - L) = 65536) by (rewrite <- Z.pow_add_r by lia; replace (L + (16 - L)) with 16 by lia; reflexivity).
      assert (0 < 2 ^ (16 - L)) by (apply Z.pow_pos_nonneg; lia).
      constructor; cbn [a_val a_low a_high]; nia.
    + rewrite !skipn_all2 by lia. reflexivity.
Qed.
