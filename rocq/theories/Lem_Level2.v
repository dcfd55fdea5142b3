(** * Lem_Level2: the spectral decoder always finishes and stays inside its tables *)

From Coq Require Import ZArith List Lia Bool Sorted.
From Verif Require Import Bits ArithRom Arith Spec_Arith Lem_Arith.
Import ListNotations.
Open Scope Z_scope.

(** ** The tables *)
Fixpoint desc (l : list Z) : bool :=
  match l with
  | [] => true
  | a :: t => (match t with [] => true | b :: _ => b <? a end) && desc t
  end.
Lemma desc_head t : forall a, desc (a :: t) = true -> forall j, (j < length t)%nat -> nth j t 0 < a.
Proof.
  induction t as [|b t IH]; intros a H j J; [cbn in J; lia|].
  cbn [desc] in H. apply andb_true_iff in H. destruct H as [H1 H2]. apply Z.ltb_lt in H1.
  destruct j; [exact H1|]. cbn [nth length] in *. specialize (IH b H2 j ltac:(lia)). lia.
Qed.
Lemma desc_nth l : desc l = true -> forall i j, (i < j)%nat -> (j < length l)%nat -> nth j l 0 < nth i l 0.
Proof.
  induction l as [|a t IH]; intros H i j L J; [cbn in J; lia|].
  destruct i.
  - destruct j; [lia|]. cbn [nth length] in *. apply (desc_head t a H). lia.
  - destruct j; [lia|]. cbn [nth length] in *. cbn [desc] in H. apply andb_true_iff in H. apply IH; [exact (proj2 H)|lia|lia].
Qed.
Definition tableb (cf : list Z) : bool :=
  (2 <=? Z.of_nat (length cf)) && (Z.of_nat (length cf) <=? 32) && (entry cf 0 <? 16384) &&
  (entry cf (Z.of_nat (length cf) - 1) =? 0) && desc cf.
Lemma tableb_ok cf : tableb cf = true -> freq_table cf.
Proof.
  unfold tableb. intros H. repeat (apply andb_true_iff in H; destruct H as [H ?]).
  apply Z.leb_le in H. match goal with X : (_ <=? 32) = true |- _ => apply Z.leb_le in X end.
  repeat match goal with X : (_ <? _) = true |- _ => apply Z.ltb_lt in X | X : (_ =? _) = true |- _ => apply Z.eqb_eq in X end.
  split; [lia|]. split; [assumption|]. split; [assumption|].
  intros i j I L J. unfold entry. apply desc_nth; [assumption|lia|lia].
Qed.

Lemma cf_m_ok : Forall (fun cf => tableb cf && (Z.of_nat (length cf) =? 17) && (entry cf 15 <=? 15310) = true) ari_cf_m.
Proof. repeat (constructor; [reflexivity|]). constructor. Qed.
Lemma cf_r_ok : Forall (fun cf => tableb cf && (Z.of_nat (length cf) =? 4) = true) ari_cf_r.
Proof. repeat (constructor; [reflexivity|]). constructor. Qed.

Lemma cf_m_at p : 0 <= p < 64 -> exists cf, nth_error ari_cf_m (Z.to_nat p) = Some cf /\
  freq_table cf /\ length cf = 17%nat /\ entry cf 15 <= 15310 /\ entry cf 16 = 0.
Proof.
  intros P. destruct (nth_error ari_cf_m (Z.to_nat p)) as [cf|] eqn:E.
  - exists cf. split; [reflexivity|]. pose proof cf_m_ok as F. rewrite Forall_forall in F.
    specialize (F cf (nth_error_In _ _ E)). apply andb_true_iff in F. destruct F as [F F3].
    apply andb_true_iff in F. destruct F as [F1 F2]. apply Z.eqb_eq in F2. apply Z.leb_le in F3.
    pose proof (tableb_ok cf F1) as T. split; [exact T|]. split; [lia|]. split; [exact F3|].
    destruct T as (_ & _ & Z0 & _). rewrite F2 in Z0. exact Z0.
  - apply nth_error_None in E. change (length ari_cf_m) with 64%nat in E. lia.
Qed.
Lemma cf_r_at p : 0 <= p < 3 -> exists cf, nth_error ari_cf_r (Z.to_nat p) = Some cf /\
  freq_table cf /\ length cf = 4%nat.
Proof.
  intros P. destruct (nth_error ari_cf_r (Z.to_nat p)) as [cf|] eqn:E.
  - exists cf. split; [reflexivity|]. pose proof cf_r_ok as F. rewrite Forall_forall in F.
    specialize (F cf (nth_error_In _ _ E)). apply andb_true_iff in F. destruct F as [F1 F2].
    apply Z.eqb_eq in F2. split; [exact (tableb_ok cf F1)|lia].
  - apply nth_error_None in E. change (length ari_cf_r) with 3%nat in E. lia.
Qed.

Lemma hash_vals : Forall (fun v => (0 <=? v) && (v <? 64) = true) ari_hash_m_1.
Proof. apply Forall_forall; apply (proj1 (forallb_forall (fun v => (0 <=? v) && (v <? 64)) ari_hash_m_1)); vm_compute; reflexivity. Qed.
Lemma lookup_vals : Forall (fun v => (0 <=? v) && (v <? 64) = true) ari_lookup_m.
Proof. apply Forall_forall; apply (proj1 (forallb_forall (fun v => (0 <=? v) && (v <? 64)) ari_lookup_m)); vm_compute; reflexivity. Qed.
Lemma hash_len : length ari_hash_m = 742%nat. Proof. vm_compute. reflexivity. Qed.
Lemma hash1_len : length ari_hash_m_1 = 742%nat. Proof. vm_compute. reflexivity. Qed.
Lemma lookup_len : length ari_lookup_m = 742%nat. Proof. vm_compute. reflexivity. Qed.

Lemma tab_vals l i : Forall (fun v => (0 <=? v) && (v <? 64) = true) l -> 0 <= i < Z.of_nat (length l) ->
  exists p, tab l i = Got p /\ 0 <= p < 64.
Proof.
  intros F I. exists (entry l i). split; [apply tab_ok, I|].
  rewrite Forall_forall in F. specialize (F (entry l i)).
  assert (IN : In (entry l i) l) by (unfold entry; apply nth_In; lia).
  specialize (F IN). apply andb_true_iff in F. destruct F as [A B]. apply Z.leb_le in A. apply Z.ltb_lt in B. lia.
Qed.

Lemma get_pk_loop_ok c : forall fuel lo hi, -1 <= lo -> lo < hi -> hi <= 741 -> hi - lo <= 2 ^ (Z.of_nat fuel - 1) ->
  exists p, get_pk_loop fuel c lo hi = Got p /\ 0 <= p < 64.
Proof.
  induction fuel as [|fuel IH]; intros lo hi L LH H F.
  - change (2 ^ (Z.of_nat 0 - 1)) with 0 in F. lia.
  - cbn [get_pk_loop]. rewrite Z.gtb_ltb. destruct (Z.ltb_spec 1 (hi - lo)).
    + rewrite Z.shiftr_div_pow2 by lia. change (2 ^ 1) with 2.
      pose proof (Z.div_mod (hi - lo) 2 ltac:(lia)). pose proof (Z.mod_pos_bound (hi - lo) 2 ltac:(lia)).
      set (h := (hi - lo) / 2) in *.
      rewrite tab_ok by (rewrite hash_len; lia). cbn [obind].
      assert (F' : (hi - lo) <= 2 * 2 ^ (Z.of_nat fuel - 1)).
      { destruct fuel as [|f]; [change (2 ^ (Z.of_nat 1 - 1)) with 1 in F; lia|].
        replace (Z.of_nat (S (S f)) - 1) with (1 + (Z.of_nat (S f) - 1)) in F by lia.
        rewrite (Z.pow_add_r 2 1) in F by lia. exact F. }
      rewrite Z.gtb_ltb. destruct (Z.ltb_spec (entry ari_hash_m (lo + h)) c).
      * apply IH; lia.
      * destruct (Z.ltb_spec c (entry ari_hash_m (lo + h))).
        -- apply IH; try lia.
        -- apply tab_vals; [exact hash_vals|rewrite hash1_len; lia].
    + apply tab_vals; [exact lookup_vals|rewrite lookup_len; lia].
Qed.
Lemma get_pk_ok c : exists p, get_pk c = Got p /\ 0 <= p < 64.
Proof. unfold get_pk. apply get_pk_loop_ok; try lia. Qed.

(** ** Outcomes *)
Definition fine {A} (P : A -> Prop) (o : out A) : Prop :=
  match o with Got a => P a | Bad | Stuck => False | _ => True end.
Lemma fine_bind {A B} (P : A -> Prop) (Q : B -> Prop) o (f : A -> out B) :
  fine P o -> (forall a, P a -> fine Q (f a)) -> fine Q (obind o f).
Proof. destruct o; cbn; auto; contradiction. Qed.

Lemma cumul_off s : good s -> 0 < cumul s -> 0 < off s.
Proof.
  intros G C. pose proof (good_width s G) as W. unfold cumul in C.
  assert (~ off s <= 0); [|lia]. intros O. unfold off in O.
  rewrite (Z.div_small _ (a_high s - a_low s + 1)) in C; [lia|].
  destruct G as [? ? ? ? ? ?]. lia.
Qed.

(** ** The escape loop *)
Definition phi (bs : list bool) (s : ast) : Z :=
  64 * (Z.of_nat (length bs) + 17 - (match bs with [] => Z.log2 (off s) | _ => 0 end)) + width s / 1024.

Lemma phi_range bs s : good s -> 0 < phi bs s <= 64 * (Z.of_nat (length bs) + 18).
Proof.
  intros G. pose proof (good_width s G) as W. fold (width s) in W.
  assert (L : 0 <= Z.log2 (off s) < 16).
  { split; [apply Z.log2_nonneg|]. destruct (Z.le_gt_cases (off s) 0) as [O|O].
    - rewrite Z.log2_nonpos by exact O. lia.
    - apply Z.log2_lt_pow2; [exact O|]. change (2 ^ 16) with 65536. destruct G; unfold off; lia. }
  assert (D : 16 <= width s / 1024 <= 64).
  { split; [apply Z.div_le_lower_bound; lia|]. apply Z.lt_succ_r. apply Z.div_lt_upper_bound; lia. }
  unfold phi. destruct bs; [cbn [length]; lia|]. lia.
Qed.

Lemma escape_phi s bs n cf y k s' : good s -> freq_table cf -> length cf = 17%nat -> entry cf 15 <= 15310 -> entry cf 16 = 0 ->
  (bs <> [] \/ 0 < cumul s) -> good s' -> y = 16 ->
  width s' = 2 ^ Z.of_nat k * (upper s cf y - lower s cf y) ->
  (bs = [] -> off s' = 2 ^ Z.of_nat k * (off s - lower s cf y)) ->
  arith_decode s bs n cf 17 = Got (y, s', skipn k bs, n + Z.of_nat k) ->
  phi (skipn k bs) s' < phi bs s.
Proof.
  intros G T L15 E15 E16 NE G' -> WD OF _.
  pose proof (good_width s G) as W. fold (width s) in W.
  pose proof (good_width s' G') as W'. fold (width s') in W'.
  assert (D : 16 <= width s / 1024 <= 64).
  { split; [apply Z.div_le_lower_bound; lia|]. apply Z.lt_succ_r. apply Z.div_lt_upper_bound; lia. }
  assert (D' : 16 <= width s' / 1024 <= 64).
  { split; [apply Z.div_le_lower_bound; lia|]. apply Z.lt_succ_r. apply Z.div_lt_upper_bound; lia. }
  assert (LO : lower s cf 16 = 0) by (unfold lower; rewrite E16, Z.mul_0_r; reflexivity).
  rewrite LO in *. rewrite Z.sub_0_r in *.
  assert (UP : upper s cf 16 + 1024 <= width s).
  { unfold upper. change (16 =? 0) with false. cbn match. change (16 - 1) with 15.
    assert (width s * entry cf 15 / 16384 <= width s - 1024); [|lia].
    apply Z.lt_succ_r. apply Z.div_lt_upper_bound; [lia|]. nia. }
  assert (LOG : 0 <= Z.log2 (off s')) by apply Z.log2_nonneg.
  unfold phi. destruct k as [|k].
  - cbn [skipn]. change (2 ^ Z.of_nat 0) with 1 in *.
    assert (Q : width s' / 1024 + 1 <= width s / 1024).
    { replace (width s' / 1024 + 1) with ((width s' + 1 * 1024) / 1024) by (rewrite Z.div_add by lia; reflexivity).
      apply Z.div_le_mono; lia. }
    destruct bs; [|lia]. specialize (OF eq_refl). replace (off s') with (off s) by lia. lia.
  - destruct bs as [|b bs].
    + rewrite skipn_nil. destruct NE as [NE|NE]; [congruence|].
      pose proof (cumul_off s G NE) as O. specialize (OF eq_refl).
      replace (off s') with (off s * 2 ^ Z.of_nat (S k)) by lia.
      rewrite Z.log2_mul_pow2 by lia. lia.
    + cbn [skipn length]. pose proof (skipn_length k bs) as SL.
      destruct (skipn k bs); cbn [length] in *; lia.
Qed.

Lemma escapes_fine s1 : forall fuel lev s bs n,
  good s -> phi bs s < Z.of_nat fuel -> 0 <= lev -> lev + phi bs s < 2 ^ 31 ->
  fine (fun '(m, lev', s', bs', n') => 0 <= m < 16 /\ lev <= lev' < 2 ^ 31 /\ good s' /\
         (length bs' <= length bs)%nat /\ exists k : nat, bs' = skipn k bs /\ n' = n + Z.of_nat k)
    (escapes fuel s1 lev s bs n).
Proof.
  induction fuel as [|fuel IH]; intros lev s bs n G F L B.
  - pose proof (phi_range bs s G). lia.
  - cbn [escapes]. rewrite tab_ok by (change (length esc_nb_offset) with 8%nat; lia). cbn [obind].
    destruct (get_pk_ok (s1 + entry esc_nb_offset (Z.min lev 7))) as (p & EP & P). rewrite EP. cbn [obind].
    destruct (cf_m_at p P) as (cf & EC & T & LC & E15 & E16). rewrite EC.
    destruct (decode_ok s bs n cf G T) as [(-> & C & D)|(NE & y & k & s' & D & Y & G' & O & WD & OF & _)];
      rewrite LC in D; change (Z.of_nat 17) with 17 in D; rewrite D; [exact I|]. cbn [obind].
    unfold is_symbol in Y. rewrite LC in Y.
    destruct (Z.ltb_spec y 16) as [H|H].
    + cbn. pose proof (skipn_length k bs). pose proof (phi_range bs s G). split; [lia|]. split; [lia|]. split; [exact G'|].
      split; [lia|]. exists k. split; reflexivity.
    + pose proof (escape_phi s bs n cf y k s' G T LC E15 E16 NE G' ltac:(lia) WD OF D) as PH.
      pose proof (phi_range bs s G). pose proof (phi_range (skipn k bs) s' G').
      rewrite w32_ok by lia. cbn [obind].
      specialize (IH (lev + 1) s' (skipn k bs) (n + Z.of_nat k) G' ltac:(lia) ltac:(lia) ltac:(lia)).
      destruct (escapes fuel s1 (lev + 1) s' (skipn k bs) (n + Z.of_nat k)) as [[[[[m lev'] s''] bs''] n'']| | | | | |]; try exact IH.
      cbn in IH |- *. destruct IH as (I1 & I2 & I3 & I4 & k' & I5 & I6). pose proof (skipn_length k bs).
      split; [exact I1|]. split; [lia|]. split; [exact I3|]. split; [lia|].
      exists (k + k')%nat. rewrite I5, skipn_skipn_add. split; [reflexivity|lia].
Qed.

(** ** Low bits *)
Lemma land1 m : 0 <= Z.land m 1 <= 1.
Proof. change 1 with (Z.ones 1) at 1 2. rewrite Z.land_ones by lia. change (2 ^ 1) with 2. pose proof (Z.mod_pos_bound m 2 ltac:(lia)). change (Z.ones 1) with 1. lia. Qed.

Lemma grow_ok a bit : 0 <= a <= MAX_32 -> 0 <= bit <= 1 -> exists a', grow a bit = Got a' /\ 0 <= a' <= MAX_32.
Proof.
  intros A B. unfold grow. change (Z.shiftr MAX_32 1) with 1073741823. rewrite Z.gtb_ltb.
  destruct (Z.ltb_spec 1073741823 a); [exists MAX_32; split; [reflexivity|unfold MAX_32; lia]|].
  rewrite shl32_ok by lia. cbn [obind]. eexists. split; [reflexivity|].
  replace (a * 2 ^ 1) with (2 * a) by lia.
  assert (C : bit = 0 \/ bit = 1) by lia. destruct C as [-> | ->].
  - pose proof (lor_bit a false) as Q. cbn [bz] in Q. rewrite Q. unfold MAX_32. lia.
  - pose proof (lor_bit a true) as Q. cbn [bz] in Q. rewrite Q. unfold MAX_32. lia.
Qed.

Lemma lsb_range a b : 0 <= lsb_index a b < 3.
Proof. unfold lsb_index. destruct (a =? 0), (b =? 0); lia. Qed.

Lemma low_bits_fine : forall k a b s bs n, good s -> 0 <= a <= MAX_32 -> 0 <= b <= MAX_32 ->
  fine (fun '(a', b', s', bs', n') => 0 <= a' <= MAX_32 /\ 0 <= b' <= MAX_32 /\ good s' /\
         (length bs' <= length bs)%nat /\ exists k : nat, bs' = skipn k bs /\ n' = n + Z.of_nat k)
    (low_bits k a b s bs n).
Proof.
  induction k as [|k IH]; intros a b s bs n G A B.
  - cbn. split; [exact A|]. split; [exact B|]. split; [exact G|]. split; [lia|]. exists 0%nat. cbn. split; [reflexivity|lia].
  - cbn [low_bits].
    destruct (cf_r_at (lsb_index a b) (lsb_range a b)) as (cf & EC & T & LC). rewrite EC.
    destruct (decode_ok s bs n cf G T) as [(-> & C & D)|(NE & y & k0 & s' & D & Y & G' & _)];
      rewrite LC in D; change (Z.of_nat 4) with 4 in D; rewrite D; [exact I|]. cbn [obind].
    destruct (grow_ok a (Z.land y 1) A (land1 y)) as (a' & EA & A'). rewrite EA. cbn [obind].
    destruct (grow_ok b (Z.land (Z.shiftr y 1) 1) B (land1 _)) as (b' & EB & B'). rewrite EB. cbn [obind].
    specialize (IH a' b' s' (skipn k0 bs) (n + Z.of_nat k0) G' A' B').
    destruct (low_bits k a' b' s' (skipn k0 bs) (n + Z.of_nat k0)) as [[[[[a2 b2] s2] bs2] n2]| | | | | |]; try exact IH.
    cbn in IH |- *. destruct IH as (I1 & I2 & I3 & I4 & k' & I5 & I6). pose proof (skipn_length k0 bs).
    split; [exact I1|]. split; [exact I2|]. split; [exact I3|]. split; [lia|].
    exists (k0 + k')%nat. rewrite I5, skipn_skipn_add. split; [reflexivity|lia].
Qed.

(** ** Arrays and contexts *)

Lemma put_ok l i v : 0 <= i < Z.of_nat (length l) ->
  put l i v = Got (firstn (Z.to_nat i) l ++ v :: skipn (S (Z.to_nat i)) l) /\
  length (firstn (Z.to_nat i) l ++ v :: skipn (S (Z.to_nat i)) l) = length l.
Proof.
  intros H. unfold put. rewrite (proj2 (Z.ltb_ge _ _)) by lia. rewrite (proj2 (Z.leb_gt _ _)) by lia. cbn [orb].
  split; [reflexivity|]. rewrite app_length, firstn_length. cbn [length]. rewrite skipn_length. lia.
Qed.
Lemma put_ctx l i v : ctx l -> 0 <= i < 516 -> 0 <= v <= 15 -> exists l', put l i v = Got l' /\ ctx l'.
Proof.
  intros [L F] H V. destruct (put_ok l i v ltac:(rewrite L; lia)) as [E N]. rewrite E.
  eexists. split; [reflexivity|]. split; [congruence|].
  apply Forall_app. split; [|constructor; [exact V|]].
  - rewrite Forall_forall in *. intros x X. apply F. rewrite <- (firstn_skipn (Z.to_nat i) l). apply in_or_app; left; exact X.
  - rewrite Forall_forall in *. intros x X. apply F. rewrite <- (firstn_skipn (S (Z.to_nat i)) l). apply in_or_app; right; exact X.
Qed.
Lemma tab_ctx l i : ctx l -> 0 <= i < 516 -> exists v, tab l i = Got v /\ 0 <= v <= 15.
Proof.
  intros [L F] H. exists (entry l i). split; [apply tab_ok; rewrite L; lia|].
  rewrite Forall_forall in F. apply F. unfold entry. apply nth_In. lia.
Qed.

Lemma shift_context_fine : forall k i prev pres, ctx prev -> ctx pres -> 0 <= i -> i + Z.of_nat k <= 512 ->
  fine (fun '(prev', pres') => ctx prev' /\ ctx pres') (shift_context k i prev pres).
Proof.
  induction k as [|k IH]; intros i prev pres P Q I0 B; [cbn; auto|]. cbn [shift_context].
  destruct (tab_ctx pres (2 + i) Q ltac:(lia)) as (c & E & C). rewrite E. cbn [obind].
  destruct (put_ctx prev (2 + i) c P ltac:(lia) C) as (p' & E1 & P'). rewrite E1. cbn [obind].
  destruct (put_ctx pres (2 + i) 1 Q ltac:(lia) ltac:(lia)) as (q' & E2 & Q'). rewrite E2. cbn [obind].
  apply IH; try assumption; lia.
Qed.

Lemma get_context_fine prev pres c i : ctx prev -> ctx pres -> 0 <= c < 65536 -> 0 <= i < 512 ->
  fine (fun '(c', s1) => 0 <= c' < 65536 /\ 0 <= s1 < 131072) (get_context prev pres c i).
Proof.
  intros P Q C I0. unfold get_context.
  destruct (tab_ctx prev (2 + i + 1) P ltac:(lia)) as (p & E1 & P1). rewrite E1. cbn [obind].
  rewrite shl32_ok by lia. cbn [obind].
  destruct (tab_ctx pres (2 + i - 1) Q ltac:(lia)) as (x & E2 & X). rewrite E2. cbn [obind].
  assert (LN : 0 <= Z.land (Z.shiftr c 4 + p * 2 ^ 12) 65520 <= 65520).
  { split; [apply Z.land_nonneg; right; lia|].
    assert (H0 : 0 <= Z.land (Z.shiftr c 4 + p * 2 ^ 12) 65520) by (apply Z.land_nonneg; right; lia).
    pose proof (Z.land_ones (Z.shiftr c 4 + p * 2 ^ 12) 16 ltac:(lia)) as LO.
    set (z := Z.shiftr c 4 + p * 2 ^ 12) in *.
    assert (E : Z.land z 65520 = 16 * (Z.land z 65520 / 16)).
    { assert (Z.land z 65520 mod 16 = 0).
      { change 16 with (2 ^ 4). rewrite <- Z.land_ones by lia. rewrite <- Z.land_assoc.
        change (Z.land 65520 (Z.ones 4)) with 0. apply Z.land_0_r. }
      pose proof (Z.div_mod (Z.land z 65520) 16 ltac:(lia)). lia. }
    assert (Z.land z 65520 < 65536); [|pose proof (Z.div_lt_upper_bound (Z.land z 65520) 16 4096 ltac:(lia)); lia].
    replace 65520 with (Z.land 65520 (Z.ones 16)) by reflexivity. rewrite Z.land_assoc, Z.land_ones by lia.
    apply Z.mod_pos_bound. reflexivity. }
  rewrite Z.gtb_ltb. destruct (Z.ltb_spec 3 i); [|cbn [fine]; lia].
  destruct (tab_ctx pres (2 + i - 2) Q ltac:(lia)) as (y & E3 & Y). rewrite E3. cbn [obind].
  destruct (tab_ctx pres (2 + i - 3) Q ltac:(lia)) as (z & E4 & Zz). rewrite E4. cbn [obind].
  destruct (x + y + z <? 5); cbn [fine]; lia.
Qed.

Lemma pair_context_fine a b : 0 <= a -> 0 <= b -> fine (fun t => 0 <= t <= 15) (pair_context a b).
Proof.
  intros A B. unfold pair_context. destruct ((a >? _) && (b >? _)); [cbn; lia|].
  destruct (a + b + 1 >? MAX_32); cbn; [exact I|lia].
Qed.

Lemma pairs_fine fuel prev : ctx prev -> forall k i pres c q s bs n,
  ctx pres -> 0 <= c < 65536 -> 0 <= i -> i + Z.of_nat k <= 512 -> 2 * (i + Z.of_nat k) <= Z.of_nat (length q) ->
  Forall (fun v => 0 <= v <= MAX_32) q ->
  good s -> 64 * (Z.of_nat (length bs) + 18) < Z.of_nat fuel -> Z.of_nat fuel < 2 ^ 31 -> 0 <= n ->
  fine (fun '(q', pres', n') => length q' = length q /\ Forall (fun v => 0 <= v <= MAX_32) q' /\ ctx pres' /\ n <= n')
    (pairs fuel k i prev pres c q s bs n).
Proof.
  intros PV. induction k as [|k IH]; intros i pres c q s bs n P C I0 B QL QF G F F2 N; [cbn; auto with zarith|].
  cbn [pairs]. rewrite Nat2Z.inj_succ in *.
  pose proof (get_context_fine prev pres c i PV P C ltac:(lia)) as GC.
  destruct (get_context prev pres c i) as [[c' s1]| | | | | |]; try exact GC. cbn [obind]. cbn in GC. destruct GC as [C' S1].
  pose proof (phi_range bs s G) as PR.
  pose proof (escapes_fine s1 fuel 0 s bs n G ltac:(lia) ltac:(lia) ltac:(lia)) as ES.
  destruct (escapes fuel s1 0 s bs n) as [[[[[m lev] s'] bs'] n']| | | | | |]; try exact ES. cbn [obind]. cbn in ES.
  destruct ES as (M & LV & G' & LB & k1 & _ & N1).
  assert (PUTS : forall v w l, 0 <= v <= MAX_32 -> 0 <= w <= MAX_32 -> length l = length q -> Forall (fun v => 0 <= v <= MAX_32) l ->
    exists l1 l2, put l (2 * i) v = Got l1 /\ put l1 (2 * i + 1) w = Got l2 /\ length l2 = length q /\ Forall (fun v => 0 <= v <= MAX_32) l2).
  { assert (PF : forall l j v, 0 <= j < Z.of_nat (length l) -> 0 <= v <= MAX_32 -> Forall (fun v => 0 <= v <= MAX_32) l ->
      exists l1, put l j v = Got l1 /\ length l1 = length l /\ Forall (fun v => 0 <= v <= MAX_32) l1).
    { intros l j v J V FL. destruct (put_ok l j v J) as [E LE]. rewrite E. eexists. split; [reflexivity|]. split; [exact LE|].
      apply Forall_app. split; [|constructor; [exact V|]].
      - rewrite Forall_forall in *. intros x X. apply FL. rewrite <- (firstn_skipn (Z.to_nat j) l). apply in_or_app; left; exact X.
      - rewrite Forall_forall in *. intros x X. apply FL. rewrite <- (firstn_skipn (S (Z.to_nat j)) l). apply in_or_app; right; exact X. }
    intros v w l V W LL FL. destruct (PF l (2 * i) v ltac:(lia) V FL) as (l1 & E1 & L1 & F1).
    destruct (PF l1 (2 * i + 1) w ltac:(lia) W F1) as (l2 & E2 & L2 & F3'). exists l1, l2. repeat split; try assumption. lia. }
  destruct (Z.eqb_spec m 0) as [M0|M0].
  - rewrite Z.gtb_ltb. destruct (Z.ltb_spec 0 lev); [cbn; split; [reflexivity|]; split; [exact QF|]; split; [exact P|lia]|].
    destruct (PUTS 0 0 q ltac:(unfold MAX_32; lia) ltac:(unfold MAX_32; lia) eq_refl QF) as (l1 & l2 & E1 & E2 & L2 & F3').
    rewrite E1. cbn [obind]. rewrite E2. cbn [obind].
    destruct (put_ctx pres (2 + i) 1 P ltac:(lia) ltac:(lia)) as (p' & EP & P'). rewrite EP. cbn [obind].
    specialize (IH (i + 1) p' c' l2 s' bs' n' P' C' ltac:(lia) ltac:(lia) ltac:(lia) F3' G' ltac:(lia) F2 ltac:(lia)).
    destruct (pairs fuel k (i + 1) prev p' c' l2 s' bs' n') as [[[q3 p3] n3]| | | | | |]; try exact IH.
    cbn in IH |- *. destruct IH as (A1 & A2 & A3 & A4). split; [congruence|]. split; [exact A2|]. split; [exact A3|lia].
  - assert (MA : 0 <= Z.land m 3 <= MAX_32).
    { change 3 with (Z.ones 2). rewrite Z.land_ones by lia. change (2 ^ 2) with 4. pose proof (Z.mod_pos_bound m 4 ltac:(lia)). unfold MAX_32. lia. }
    assert (MB : 0 <= Z.shiftr m 2 <= MAX_32).
    { rewrite Z.shiftr_div_pow2 by lia. change (2 ^ 2) with 4. split; [apply Z.div_pos; lia|].
      apply Z.le_trans with m; [apply Z.div_le_upper_bound; lia|unfold MAX_32; lia]. }
    pose proof (low_bits_fine (Z.to_nat lev) (Z.land m 3) (Z.shiftr m 2) s' bs' n' G' MA MB) as LF.
    destruct (low_bits (Z.to_nat lev) (Z.land m 3) (Z.shiftr m 2) s' bs' n') as [[[[[a b] s2] bs2] n2]| | | | | |]; try exact LF.
    cbn [obind]. cbn in LF. destruct LF as (A & Bb & G2 & LB2 & k2 & _ & N2).
    destruct (PUTS a b q A Bb eq_refl QF) as (l1 & l2 & E1 & E2 & L2 & F3').
    rewrite E1. cbn [obind]. rewrite E2. cbn [obind].
    pose proof (pair_context_fine a b ltac:(lia) ltac:(lia)) as PC.
    destruct (pair_context a b) as [t| | | | | |]; try exact PC. cbn [obind]. cbn in PC.
    destruct (put_ctx pres (2 + i) t P ltac:(lia) PC) as (p' & EP & P'). rewrite EP. cbn [obind].
    specialize (IH (i + 1) p' c' l2 s2 bs2 n2 P' C' ltac:(lia) ltac:(lia) ltac:(lia) F3' G2 ltac:(lia) F2 ltac:(lia)).
    destruct (pairs fuel k (i + 1) prev p' c' l2 s2 bs2 n2) as [[[q3 p3] n3]| | | | | |]; try exact IH.
    cbn in IH |- *. destruct IH as (A1 & A2 & A3 & A4). split; [congruence|]. split; [exact A2|]. split; [exact A3|lia].
Qed.

Lemma signs_fine : forall q bs, Forall (fun v => 0 <= v <= MAX_32) q ->
  fine (fun '(q', bs') => length q' = length q /\ exists k, bs' = skipn k bs) (signs q bs).
Proof.
  induction q as [|t q IH]; intros bs H; [cbn; split; [reflexivity|exists 0%nat; reflexivity]|].
  pose proof (Forall_inv H) as T. cbv beta in T. cbn [signs]. unfold sign1.
  destruct (Z.eqb_spec t 0) as [T0|T0]; cbn [obind].
  - specialize (IH bs (Forall_inv_tail H)). destruct (signs q bs) as [[q' bs']| | | | | |]; try exact IH.
    cbn in IH |- *. destruct IH as [A B]. split; [lia|exact B].
  - destruct bs as [|b bs]; [exact I|].
    assert (X : exists r, (if t =? MAX_32 then Got (0, bs) else olet r := w32 (Z.min (2 * bz b * t) MAX_32 - t) in Got (r, bs)) = Got (r, bs)).
    { destruct (t =? MAX_32); [eauto|]. rewrite w32_ok; [cbn; eauto|].
      unfold MAX_32 in *. destruct b; cbn [bz]; lia. }
    destruct X as (r & ->). cbn [obind].
    specialize (IH bs (Forall_inv_tail H)). destruct (signs q bs) as [[q' bs']| | | | | |]; try exact IH.
    cbn in IH |- *. destruct IH as [A (k & B)]. split; [lia|]. exists (S k). exact B.
Qed.

Lemma level2_fine bs prev pres n pres_n : ctx prev -> ctx pres -> (n <= pres_n <= 512)%nat ->
  Z.of_nat (length bs) < 2 ^ 24 ->
  fine (fun '(q, prev', pres', bs') => length q = (2 * pres_n)%nat /\ ctx prev' /\ ctx pres' /\ exists k, bs' = skipn k bs)
    (level2 bs prev pres n pres_n).
Proof.
  intros P Q N B. unfold level2.
  pose proof (shift_context_fine pres_n 0 prev pres P Q ltac:(lia) ltac:(lia)) as SC.
  destruct (shift_context pres_n 0 prev pres) as [[prev' pres']| | | | | |]; try exact SC. cbn [obind]. cbn in SC. destruct SC as [P' Q'].
  destruct (first_good bs) as [G R]. destruct (first_symbol bs) as [s r]. cbn [fst snd] in G, R. subst r.
  destruct (tab_ctx prev' 2 P' ltac:(lia)) as (c0 & E & C0). rewrite E. cbn [obind].
  rewrite shl32_ok by lia. cbn [obind].
  assert (EN : Z.of_nat (enough bs) = 64 * (Z.of_nat (length bs) + 19)) by (unfold enough; lia).
  pose proof (skipn_length 16 bs) as SL.
  pose proof (pairs_fine (enough bs) prev' P' n 0 pres' (c0 * 2 ^ 12) (repeat 0 (2 * pres_n)) s (skipn 16 bs) 16 Q'
    ltac:(lia) ltac:(lia) ltac:(lia) ltac:(rewrite repeat_length; lia)
    ltac:(apply Forall_forall; intros x X; apply repeat_spec in X; subst; unfold MAX_32; lia)
    G ltac:(lia) ltac:(lia) ltac:(lia)) as PF.
  destruct (pairs (enough bs) n 0 prev' pres' (c0 * 2 ^ 12) (repeat 0 (2 * pres_n)) s (skipn 16 bs) 16) as [[[q pres2] cnt]| | | | | |]; try exact PF.
  cbn [obind]. cbn in PF. destruct PF as (LQ & FQ & CP & NC).
  destruct (cnt - (16 - 2) >? Z.of_nat (length bs)); [exact I|].
  assert (KS : exists k, (if cnt - (16 - 2) >? 0 then skipn (Z.to_nat (cnt - (16 - 2))) bs else bs) = skipn k bs).
  { destruct (cnt - (16 - 2) >? 0); [eauto|exists 0%nat; reflexivity]. }
  destruct KS as (k & ->).
  pose proof (signs_fine q (skipn k bs) FQ) as SF.
  destruct (signs q (skipn k bs)) as [[q' bs']| | | | | |]; try exact SF. cbn [obind]. cbn in SF |- *.
  destruct SF as (A & k' & Bk). split; [rewrite A, LQ, repeat_length; reflexivity|]. split; [exact P'|]. split; [exact CP|].
  exists (k + k')%nat. rewrite Bk, skipn_skipn_add. reflexivity.
Qed.
