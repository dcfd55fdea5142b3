(** * Lem_Lines: the spectral decoder inverts Spec_Lines *)

From Coq Require Import ZArith List Lia Bool.
From Verif Require Import Bits ArithRom Arith Spec_Arith Spec_Lines Lem_Arith Lem_ArithRT Lem_Level2.
Import ListNotations.
Open Scope Z_scope.

(** ** The model of a context *)
Definition l741 : list Z := firstn 741 ari_hash_m.
Lemma l741_desc : desc (map Z.opp l741) = true.
Proof. vm_compute. reflexivity. Qed.
Lemma l741_len : length l741 = 741%nat.
Proof. unfold l741. rewrite firstn_length, hash_len. reflexivity. Qed.
Lemma l741_entry i : 0 <= i < 741 -> entry ari_hash_m i = entry l741 i.
Proof.
  intros H. unfold entry, l741. rewrite <- (firstn_skipn 741 ari_hash_m) at 1. apply app_nth1.
  change (length l741 > Z.to_nat i)%nat. rewrite l741_len. lia.
Qed.
Lemma l741_mono i j : 0 <= i -> i < j -> j < 741 -> entry l741 i < entry l741 j.
Proof.
  intros A B C. pose proof (desc_nth _ l741_desc (Z.to_nat i) (Z.to_nat j) ltac:(lia)) as D.
  rewrite map_length, l741_len in D. specialize (D ltac:(lia)).
  change 0 with (Z.opp 0) in D. rewrite !map_nth in D. unfold entry. lia.
Qed.
Lemma count_below c : forall l k, (k <= length l)%nat ->
  (forall i, (i < k)%nat -> nth i l 0 < c) -> (forall i, (k <= i < length l)%nat -> c <= nth i l 0) ->
  length (filter (fun e => e <? c) l) = k.
Proof.
  induction l as [|x l IH]; intros k K A B; [cbn in *; lia|]. cbn [length filter] in *. destruct k as [|k].
  - pose proof (B 0%nat ltac:(lia)) as B0. cbn in B0. rewrite (proj2 (Z.ltb_ge _ _)) by lia.
    apply IH; [lia|lia|]. intros i I. apply (B (S i)). lia.
  - pose proof (A 0%nat ltac:(lia)) as A0. cbn in A0. rewrite (proj2 (Z.ltb_lt _ _)) by lia. cbn [length]. f_equal.
    apply IH; [lia| |]; intros i I; [apply (A (S i))|apply (B (S i))]; lia.
Qed.
Lemma count741 c k : 0 <= k <= 741 -> (forall i, 0 <= i < k -> entry l741 i < c) -> (forall i, k <= i < 741 -> c <= entry l741 i) ->
  Z.of_nat (length (filter (fun e => e <? c) l741)) = k.
Proof.
  intros K A B. rewrite (count_below c l741 (Z.to_nat k)); [lia|rewrite l741_len; lia| |].
  - intros i I. specialize (A (Z.of_nat i) ltac:(lia)). unfold entry in A. rewrite Nat2Z.id in A. exact A.
  - intros i I. rewrite l741_len in I. specialize (B (Z.of_nat i) ltac:(lia)). unfold entry in B. rewrite Nat2Z.id in B. exact B.
Qed.

Lemma get_pk_loop_model c : forall fuel lo hi, -1 <= lo -> lo < hi -> hi <= 741 -> hi - lo <= 2 ^ (Z.of_nat fuel - 1) ->
  (forall i, 0 <= i <= lo -> entry l741 i < c) -> (forall i, hi <= i < 741 -> c < entry l741 i) ->
  get_pk_loop fuel c lo hi = Got (model_no c).
Proof.
  induction fuel as [|fuel IH]; intros lo hi L LH H F A B; [exfalso; change (2 ^ (Z.of_nat 0 - 1)) with 0 in F; lia|].
  cbn [get_pk_loop]. rewrite Z.gtb_ltb, Z.shiftr_div_pow2 by lia. change (2 ^ 1) with 2.
  destruct (Z.ltb_spec 1 (hi - lo)) as [X|X].
  - pose proof (Z.div_mod (hi - lo) 2 ltac:(lia)) as DM. pose proof (Z.mod_pos_bound (hi - lo) 2 ltac:(lia)) as MB.
    set (idx := lo + (hi - lo) / 2) in *.
    rewrite tab_ok by (rewrite hash_len; lia). cbn [obind]. rewrite l741_entry by lia.
    assert (P : hi - lo <= 2 * 2 ^ (Z.of_nat fuel - 1)).
    { destruct fuel as [|f]; [change (2 ^ (Z.of_nat 1 - 1)) with 1 in F; lia|].
      replace (Z.of_nat (S (S f)) - 1) with (1 + (Z.of_nat (S f) - 1)) in F by lia.
      rewrite Z.pow_add_r in F by lia. change (2 ^ 1) with 2 in F. exact F. }
    rewrite Z.gtb_ltb. destruct (Z.ltb_spec (entry l741 idx) c) as [Y|Y].
    + apply IH; try lia; [|exact B]. intros i I. destruct (Z.eq_dec i idx) as [->|N]; [exact Y|].
      pose proof (l741_mono i idx ltac:(lia) ltac:(lia) ltac:(lia)). lia.
    + destruct (Z.ltb_spec c (entry l741 idx)) as [Y2|Y2].
      * apply IH; try lia; [exact A|]. intros i I. destruct (Z.eq_dec i idx) as [->|N]; [exact Y2|].
        pose proof (l741_mono idx i ltac:(lia) ltac:(lia) ltac:(lia)). lia.
      * rewrite tab_ok by (rewrite hash1_len; lia). f_equal. unfold model_no. fold l741.
        rewrite (count741 c idx); [| lia | | ].
        -- rewrite (proj2 (Z.ltb_lt _ _)) by lia. rewrite (proj2 (Z.eqb_eq _ _)) by lia. reflexivity.
        -- intros i I. pose proof (l741_mono i idx ltac:(lia) ltac:(lia) ltac:(lia)). lia.
        -- intros i I. destruct (Z.eq_dec i idx) as [->|N]; [lia|].
           pose proof (l741_mono idx i ltac:(lia) ltac:(lia) ltac:(lia)). lia.
  - assert (hi = lo + 1) as -> by lia. rewrite tab_ok by (rewrite lookup_len; lia). f_equal.
    unfold model_no. fold l741. rewrite (count741 c (lo + 1)); [|lia| |].
    + destruct (Z.ltb_spec (lo + 1) 741) as [Y|Y]; [|reflexivity]. cbn [andb].
      rewrite (proj2 (Z.eqb_neq _ _)); [reflexivity|]. specialize (B (lo + 1) ltac:(lia)). lia.
    + intros i I. apply A. lia.
    + intros i I. specialize (B i ltac:(lia)). lia.
Qed.

Lemma get_pk_model c : 0 <= c < 2 ^ 32 -> get_pk c = Got (model_no c).
Proof.
  intros H. unfold get_pk. rewrite Z.mod_small by exact H. apply get_pk_loop_model; try lia; vm_compute; discriminate.
Qed.

Definition cf17 (cf : list Z) : Prop := freq_table cf /\ length cf = 17%nat.
Lemma model_pk c j : 0 <= c < 131072 -> 0 <= j ->
  exists p, get_pk (c + entry esc_nb_offset (Z.min j 7)) = Got p /\ nth_error ari_cf_m (Z.to_nat p) = Some (model c j) /\ cf17 (model c j).
Proof.
  intros C J.
  assert (O : 0 <= entry esc_nb_offset (Z.min j 7) <= 917504).
  { assert (V : forallb (fun v => (0 <=? v) && (v <=? 917504)) esc_nb_offset = true) by reflexivity.
    rewrite forallb_forall in V. specialize (V (entry esc_nb_offset (Z.min j 7))).
    assert (In (entry esc_nb_offset (Z.min j 7)) esc_nb_offset) by (apply nth_In; change (length esc_nb_offset) with 8%nat; lia).
    specialize (V H). apply andb_true_iff in V. lia. }
  rewrite get_pk_model by lia. eexists. split; [reflexivity|].
  destruct (get_pk_ok (c + entry esc_nb_offset (Z.min j 7))) as (p & E & P). rewrite get_pk_model in E by lia.
  assert (EP : model_no (c + entry esc_nb_offset (Z.min j 7)) = p) by congruence.
  rewrite EP. destruct (cf_m_at p P) as (cf & EC & T & LC & _). rewrite EC.
  unfold model. rewrite EP, (nth_error_nth _ _ _ EC). split; [reflexivity|split; assumption].
Qed.
Lemma low_model_ok a b : nth_error ari_cf_r (Z.to_nat (lsb_index a b)) = Some (low_model a b) /\
  freq_table (low_model a b) /\ length (low_model a b) = 4%nat.
Proof.
  destruct (cf_r_at (lsb_index a b) (lsb_range a b)) as (cf & EC & T & LC). rewrite EC.
  assert (low_model a b = cf) as ->.
  { unfold low_model. rewrite <- (nth_error_nth _ _ [] EC). unfold lsb_index. destruct (a =? 0), (b =? 0); reflexivity. }
  auto.
Qed.

(** ** Following the encoder *)
Definition ok (w : list bool) (e : enc) : Prop :=
  exists l, Forall coded l /\ inside w (enc_all l e) /\ (16 + e_cnt (enc_all l e) < length w)%nat.

Lemma all_nil e : enc_all [] e = e.
Proof. reflexivity. Qed.
Lemma all_app l1 l2 e : enc_all (l1 ++ l2) e = enc_all l2 (enc_all l1 e).
Proof. apply fold_left_app. Qed.
Lemma ok_back w p e : Forall coded p -> ok w (enc_all p e) -> ok w e.
Proof.
  intros F (l & FL & I & N). exists (p ++ l). rewrite all_app. split; [apply Forall_app; split; assumption|]. split; assumption.
Qed.
Lemma ok_inside w e : ready e -> ok w e -> inside w e /\ (16 + e_cnt e < length w)%nat.
Proof.
  intros R (l & F & I & N). split; [exact (all_inside w l e F R I)|].
  exact (Nat.le_lt_trans _ _ _ (proj1 (Nat.add_le_mono_l _ _ 16) (all_cnt l e)) N).
Qed.
Lemma one w e cf y s bs n : ready e -> coded (cf, y) -> sync w e s bs n -> ok w (enc_step e (cf, y)) ->
  ready (enc_step e (cf, y)) /\
  exists s' bs' n', arith_decode s bs n cf (Z.of_nat (length cf)) = Got (y, s', bs', n') /\ sync w (enc_step e (cf, y)) s' bs' n'.
Proof.
  intros R [T Y] SY OK. cbn [fst snd] in T, Y. pose proof (step_ready e cf y R T Y) as R'. split; [exact R'|].
  destruct (ok_inside w _ R' OK) as [IN _].
  assert (OK0 : ok w e) by (apply (ok_back w [(cf, y)]); [constructor; [split; assumption|constructor]|exact OK]).
  destruct (ok_inside w _ R OK0) as [_ LN].
  destruct (step_sync w e cf y s bs n R T Y SY IN (sync_more w e s bs n SY LN)) as (s' & bs' & n' & D & S' & _).
  exists s', bs', n'. split; assumption.
Qed.

Lemma esc_coded c : 0 <= c < 131072 -> forall k j, 0 <= j -> Forall coded (esc_syms c j k).
Proof.
  intros C. induction k as [|k IH]; intros j J; [constructor|]. cbn [esc_syms]. constructor; [|apply IH; lia].
  destruct (model_pk c j C J) as (p & _ & _ & T & L). split; cbn [fst snd]; [exact T|]. unfold is_symbol. rewrite L. lia.
Qed.

Lemma escapes_sync w c m : 0 <= c < 131072 -> 0 <= m < 16 -> forall k fuel j e s bs n,
  (k < fuel)%nat -> 0 <= j -> j + Z.of_nat k < 2 ^ 31 -> ready e -> sync w e s bs n ->
  ok w (enc_all (esc_syms c j k ++ [(model c (j + Z.of_nat k), m)]) e) ->
  ready (enc_all (esc_syms c j k ++ [(model c (j + Z.of_nat k), m)]) e) /\
  exists s' bs' n', escapes fuel c j s bs n = Got (m, j + Z.of_nat k, s', bs', n') /\
    sync w (enc_all (esc_syms c j k ++ [(model c (j + Z.of_nat k), m)]) e) s' bs' n'.
Proof.
  intros C M. induction k as [|k IH]; intros fuel j e s bs n F J JB R SY OK; destruct fuel as [|fuel]; try lia.
  - cbn [esc_syms app] in *. change (Z.of_nat 0) with 0 in *. rewrite Z.add_0_r in *. rewrite all_eq in *.
    rewrite all_nil in *.
    cbn [escapes]. rewrite tab_ok by (change (length esc_nb_offset) with 8%nat; lia). cbn [obind].
    destruct (model_pk c j C J) as (p & EP & EC & T & L). rewrite EP. cbn [obind]. rewrite EC.
    destruct (one w e (model c j) m s bs n R) as (R' & s' & bs' & n' & D & S'); try assumption.
    { split; cbn [fst snd]; [exact T|]. unfold is_symbol. rewrite L. lia. }
    rewrite L in D. change (Z.of_nat 17) with 17 in D. rewrite D. cbn [obind]. rewrite (proj2 (Z.ltb_lt _ _)) by lia.
    split; [exact R'|]. exists s', bs', n'. split; [reflexivity|exact S'].
  - cbn [esc_syms app] in *. rewrite all_eq in *.
    replace (j + Z.of_nat (S k)) with (j + 1 + Z.of_nat k) in * by lia.
    cbn [escapes]. rewrite tab_ok by (change (length esc_nb_offset) with 8%nat; lia). cbn [obind].
    destruct (model_pk c j C J) as (p & EP & EC & T & L). rewrite EP. cbn [obind]. rewrite EC.
    destruct (one w e (model c j) 16 s bs n R) as (R' & s' & bs' & n' & D & S'); try assumption.
    { split; cbn [fst snd]; [exact T|]. unfold is_symbol. rewrite L. lia. }
    { apply ok_back in OK; [exact OK|]. apply Forall_app. split; [apply esc_coded; lia|].
      destruct (model_pk c (j + 1 + Z.of_nat k) C ltac:(lia)) as (p2 & _ & _ & T2 & L2).
      constructor; [|constructor]. split; cbn [fst snd]; [exact T2|]. unfold is_symbol. rewrite L2. lia. }
    rewrite L in D. change (Z.of_nat 17) with 17 in D. rewrite D. cbn [obind]. change (16 <? 16) with false. cbn match.
    rewrite w32_ok by lia. cbn [obind]. apply IH; try assumption; lia.
Qed.

(** ** Low bits *)
Lemma half a j : 0 <= a -> a / 2 ^ Z.of_nat j = 2 * (a / 2 ^ Z.of_nat (S j)) + (a / 2 ^ Z.of_nat j) mod 2.
Proof.
  intros A. assert (P : 0 < 2 ^ Z.of_nat j) by (apply Z.pow_pos_nonneg; lia).
  replace (2 ^ Z.of_nat (S j)) with (2 ^ Z.of_nat j * 2) by (rewrite Nat2Z.inj_succ, Z.pow_succ_r by lia; lia).
  rewrite <- Z.div_div by lia. apply Z.div_mod. lia.
Qed.

Lemma grow_bit a bit : 0 <= a <= 536870911 -> 0 <= bit <= 1 -> grow a bit = Got (2 * a + bit).
Proof.
  intros A B. unfold grow. change (Z.shiftr MAX_32 1) with 1073741823. rewrite Z.gtb_ltb, (proj2 (Z.ltb_ge _ _)) by lia.
  rewrite shl32_ok by lia. cbn [obind]. replace (a * 2 ^ 1) with (2 * a) by lia. f_equal.
  assert (C : bit = 0 \/ bit = 1) by lia. destruct C as [-> | ->]; [exact (lor_bit a false)|exact (lor_bit a true)].
Qed.

Lemma low_coded a b : forall j, Forall coded (low_syms j a b).
Proof.
  induction j as [|j IH]; [constructor|]. cbn [low_syms]. constructor; [|exact IH].
  destruct (low_model_ok (a / 2 ^ Z.of_nat (S j)) (b / 2 ^ Z.of_nat (S j))) as (_ & T & L).
  split; cbn [fst snd]; [exact T|]. unfold is_symbol. rewrite L.
  pose proof (Z.mod_pos_bound (a / 2 ^ Z.of_nat j) 2 ltac:(lia)). pose proof (Z.mod_pos_bound (b / 2 ^ Z.of_nat j) 2 ltac:(lia)). lia.
Qed.

Lemma bits2 x y : 0 <= x <= 1 -> 0 <= y <= 1 -> Z.land (x + 2 * y) 1 = x /\ Z.land (Z.shiftr (x + 2 * y) 1) 1 = y.
Proof.
  intros X Y. assert (CX : x = 0 \/ x = 1) by lia. assert (CY : y = 0 \/ y = 1) by lia.
  destruct CX as [-> | ->], CY as [-> | ->]; split; reflexivity.
Qed.

Lemma div_small30 a j : 0 <= a < 2 ^ 30 -> 0 <= a / 2 ^ Z.of_nat (S j) <= 536870911.
Proof.
  intros A. assert (P : 2 <= 2 ^ Z.of_nat (S j)).
  { rewrite Nat2Z.inj_succ, Z.pow_succ_r by lia. pose proof (Z.pow_pos_nonneg 2 (Z.of_nat j) ltac:(lia) ltac:(lia)). lia. }
  split; [apply Z.div_pos; lia|]. apply Z.lt_succ_r. apply Z.div_lt_upper_bound; [lia|]. change (2 ^ 30) with 1073741824 in A. lia.
Qed.

Lemma low_sync w a b : 0 <= a < 2 ^ 30 -> 0 <= b < 2 ^ 30 -> forall j e s bs n,
  ready e -> sync w e s bs n -> ok w (enc_all (low_syms j a b) e) ->
  ready (enc_all (low_syms j a b) e) /\
  exists s' bs' n', low_bits j (a / 2 ^ Z.of_nat j) (b / 2 ^ Z.of_nat j) s bs n = Got (a, b, s', bs', n') /\
    sync w (enc_all (low_syms j a b) e) s' bs' n'.
Proof.
  intros A B. induction j as [|j IH]; intros e s bs n R SY OK.
  - change (2 ^ Z.of_nat 0) with 1. rewrite !Z.div_1_r. split; [exact R|]. exists s, bs, n. split; [reflexivity|exact SY].
  - cbn [low_syms] in *. rewrite all_eq in *. cbn [low_bits].
    destruct (low_model_ok (a / 2 ^ Z.of_nat (S j)) (b / 2 ^ Z.of_nat (S j))) as (EC & T & L). rewrite EC.
    pose proof (Z.mod_pos_bound (a / 2 ^ Z.of_nat j) 2 ltac:(lia)) as MA. pose proof (Z.mod_pos_bound (b / 2 ^ Z.of_nat j) 2 ltac:(lia)) as MB.
    pose proof (half a j ltac:(lia)) as HA. pose proof (half b j ltac:(lia)) as HB.
    pose proof (div_small30 a j A) as DA. pose proof (div_small30 b j B) as DB.
    destruct (one w e _ _ s bs n R (Forall_inv (low_coded a b (S j))) SY) as (R' & s' & bs' & n' & D & S').
    { apply ok_back in OK; [exact OK|]. apply low_coded. }
    rewrite L in D. change (Z.of_nat 4) with 4 in D. rewrite D. cbn [obind].
    destruct (bits2 ((a / 2 ^ Z.of_nat j) mod 2) ((b / 2 ^ Z.of_nat j) mod 2) ltac:(lia) ltac:(lia)) as [B1 B2].
    rewrite B1, B2. rewrite grow_bit by lia. cbn [obind]. rewrite grow_bit by lia. cbn [obind].
    rewrite <- HA, <- HB. apply IH; assumption.
Qed.

(** ** Contexts *)
Lemma entry_set l i j v : 0 <= i < Z.of_nat (length l) -> 0 <= j -> entry (set_at l i v) j = if j =? i then v else entry l j.
Proof.
  intros I J. unfold entry, set_at. destruct (Z.eqb_spec j i) as [->|N].
  - rewrite app_nth2; rewrite firstn_length, Nat.min_l by lia; [|lia]. rewrite Nat.sub_diag. reflexivity.
  - destruct (Z.lt_ge_cases j i).
    + rewrite app_nth1 by (rewrite firstn_length, Nat.min_l by lia; lia).
      rewrite <- (firstn_skipn (Z.to_nat i) l) at 2. rewrite app_nth1 by (rewrite firstn_length, Nat.min_l by lia; lia). reflexivity.
    + rewrite app_nth2; rewrite firstn_length, Nat.min_l by lia; [|lia].
      replace (Z.to_nat j - Z.to_nat i)%nat with (S (Z.to_nat j - S (Z.to_nat i))) by lia. cbn [nth].
      rewrite <- (firstn_skipn (S (Z.to_nat i)) l) at 2.
      rewrite app_nth2; rewrite firstn_length, Nat.min_l by lia; [|lia]. reflexivity.
Qed.
Lemma set_length l i v : 0 <= i < Z.of_nat (length l) -> length (set_at l i v) = length l.
Proof. intros I. exact (proj2 (put_ok l i v I)). Qed.
Lemma put_set l i v : 0 <= i < Z.of_nat (length l) -> put l i v = Got (set_at l i v).
Proof. intros I. exact (proj1 (put_ok l i v I)). Qed.
Lemma ctx_set l i v : ctx l -> 0 <= i < 516 -> 0 <= v <= 15 -> ctx (set_at l i v).
Proof.
  intros C I V. destruct (put_ctx l i v C I V) as (l' & E & C'). rewrite put_set in E by (rewrite (proj1 C); lia).
  congruence.
Qed.
Lemma entry_ctx l i : ctx l -> 0 <= i < 516 -> 0 <= entry l i <= 15.
Proof.
  intros C I. destruct (tab_ctx l i C I) as (v & E & V). rewrite tab_ok in E by (rewrite (proj1 C); lia). congruence.
Qed.

(** The running value c_val of the decoder before pair i. *)
Definition running (prev cur : list Z) (i : Z) : Z :=
  if i =? 0 then 4096 * entry prev 2
  else 4096 * entry prev (i + 2) + 256 * entry prev (i + 1) + 16 * (if i =? 1 then 0 else entry prev i) + entry cur i.

Lemma mask a b c x : 0 <= a <= 15 -> 0 <= b <= 15 -> 0 <= c <= 15 -> 0 <= x <= 15 ->
  Z.land (4096 * a + 256 * b + 16 * c + x) 65520 = 4096 * a + 256 * b + 16 * c.
Proof.
  intros A B C X. apply Z.bits_inj'. intros k K. rewrite Z.land_spec.
  set (h := 256 * a + 16 * b + c).
  replace (4096 * a + 256 * b + 16 * c + x) with (x + h * 2 ^ 4) by (unfold h; lia).
  replace (4096 * a + 256 * b + 16 * c) with (h * 2 ^ 4) by (unfold h; lia).
  destruct (Z.lt_ge_cases k 4) as [L|L].
  - rewrite Z.mul_pow2_bits_low by lia.
    assert (Z.testbit 65520 k = false) as ->; [|apply andb_false_r].
    assert (Q : k = 0 \/ k = 1 \/ k = 2 \/ k = 3) by lia. destruct Q as [-> | [-> | [-> | ->]]]; reflexivity.
  - replace (Z.testbit (x + h * 2 ^ 4) k) with (Z.testbit (h * 2 ^ 4) k).
    2:{ replace k with ((k - 4) + 4) by lia. rewrite <- !Z.div_pow2_bits by lia. f_equal.
        rewrite Z.div_add by lia. rewrite Z.div_mul by lia. rewrite (Z.div_small x) by (change (2 ^ 4) with 16; lia). lia. }
    destruct (Z.lt_ge_cases k 16) as [M|M].
    + assert (Z.testbit 65520 k = true) as ->; [|apply andb_true_r].
      replace 65520 with (Z.ones 12 * 2 ^ 4) by reflexivity. rewrite Z.mul_pow2_bits by lia. apply Z.ones_spec_low. lia.
    + assert (Z.testbit (h * 2 ^ 4) k = false) as ->; [|reflexivity].
      rewrite Z.mul_pow2_bits by lia. destruct (Z.eq_dec h 0) as [->|N]; [apply Z.bits_0|].
      apply Z.bits_above_log2; [unfold h; lia|]. apply Z.log2_lt_pow2; [unfold h in *; lia|].
      apply Z.lt_le_trans with (2 ^ 12); [unfold h; change (2 ^ 12) with 4096; lia|]. apply Z.pow_le_mono_r; lia.
Qed.

Lemma get_context_model prev cur i : ctx prev -> ctx cur -> 0 <= i < 512 ->
  get_context prev cur (running prev cur i) i = Got (running prev cur (i + 1), context prev cur i) /\
  0 <= context prev cur i < 131072.
Proof.
  intros P C I. unfold get_context.
  pose proof (entry_ctx prev (i + 3) P ltac:(lia)) as P3. pose proof (entry_ctx prev (i + 2) P ltac:(lia)) as P2.
  pose proof (entry_ctx prev (i + 1) P ltac:(lia)) as P1. pose proof (entry_ctx prev i P ltac:(lia)) as P0.
  pose proof (entry_ctx cur (i + 1) C ltac:(lia)) as C1. pose proof (entry_ctx cur i C ltac:(lia)) as C0.
  rewrite tab_ok by (rewrite (proj1 P); lia). cbn [obind]. replace (2 + i + 1) with (i + 3) by lia.
  rewrite shl32_ok by lia. cbn [obind]. rewrite tab_ok by (rewrite (proj1 C); lia). cbn [obind]. replace (2 + i - 1) with (i + 1) by lia.
  change (2 ^ 12) with 4096.
  set (c1 := if i =? 0 then 0 else entry prev (i + 1)).
  assert (C1R : 0 <= c1 <= 15) by (unfold c1; destruct (i =? 0); lia).
  assert (E : Z.land (Z.shiftr (running prev cur i) 4 + entry prev (i + 3) * 4096) 65520 =
     4096 * entry prev (i + 3) + 256 * entry prev (i + 2) + 16 * c1).
  { rewrite Z.shiftr_div_pow2 by lia. change (2 ^ 4) with 16. unfold running, c1.
    destruct (Z.eqb_spec i 0) as [->|N].
    - replace (4096 * entry prev 2) with ((256 * entry prev 2) * 16) by lia. rewrite Z.div_mul by lia.
      change (0 + 3) with 3 in *. change (0 + 2) with 2 in *.
      rewrite <- (mask (entry prev 3) (entry prev 2) 0 0) by lia. f_equal. lia.
    - set (d := if i =? 1 then 0 else entry prev i).
      assert (DR : 0 <= d <= 15) by (unfold d; destruct (i =? 1); lia).
      replace (4096 * entry prev (i + 2) + 256 * entry prev (i + 1) + 16 * d + entry cur i)
        with (entry cur i + (256 * entry prev (i + 2) + 16 * entry prev (i + 1) + d) * 16) by lia.
      rewrite Z.div_add, (Z.div_small (entry cur i)) by lia. rewrite Z.add_0_l.
      rewrite <- (mask (entry prev (i + 3)) (entry prev (i + 2)) (entry prev (i + 1)) d) by lia. f_equal. lia. }
  rewrite E.
  assert (RN : running prev cur (i + 1) = 4096 * entry prev (i + 3) + 256 * entry prev (i + 2) + 16 * c1 + entry cur (i + 1)).
  { unfold running, c1. rewrite (proj2 (Z.eqb_neq (i + 1) 0)) by lia. replace (i + 1 + 2) with (i + 3) by lia. replace (i + 1 + 1) with (i + 2) by lia.
    destruct (Z.eqb_spec i 0), (Z.eqb_spec (i + 1) 1); try lia; reflexivity. }
  rewrite <- RN. unfold context. fold c1. rewrite <- RN.
  assert (RB : 0 <= running prev cur (i + 1) < 65536) by (rewrite RN; lia).
  rewrite Z.gtb_ltb. destruct (Z.ltb_spec 3 i) as [X|X].
  - pose proof (entry_ctx cur (i - 1) C ltac:(lia)) as CM.
    rewrite tab_ok by (rewrite (proj1 C); lia). cbn [obind]. rewrite tab_ok by (rewrite (proj1 C); lia). cbn [obind].
    replace (2 + i - 2) with i by lia. replace (2 + i - 3) with (i - 1) by lia. cbn [andb].
    destruct (_ <? 5); split; try lia; f_equal; f_equal; lia.
  - cbn [andb]. split; [f_equal; f_equal; lia|lia].
Qed.

(** ** Pairs *)
Definition mag (p : Z * Z) : Prop := 0 <= fst p < 2 ^ 30 /\ 0 <= snd p < 2 ^ 30.

Lemma lows_spec a b : 0 <= a < 2 ^ 30 -> 0 <= b < 2 ^ 30 -> let k := lows_of a b in
  (k <= 28)%nat /\ 0 <= a / 2 ^ Z.of_nat k <= 3 /\ 0 <= b / 2 ^ Z.of_nat k <= 3 /\
  (a / 2 ^ Z.of_nat k + 4 * (b / 2 ^ Z.of_nat k) = 0 -> k = 0%nat /\ a = 0 /\ b = 0).
Proof.
  intros A B k. set (M := Z.max a b).
  assert (LG : Z.log2 M < 30).
  { destruct (Z.eq_dec M 0) as [->|N]; [reflexivity|]. apply Z.log2_lt_pow2; unfold M in *; lia. }
  assert (UP : M < 2 ^ (Z.of_nat k + 2)).
  { destruct (Z.eq_dec M 0) as [->|N]; [apply Z.pow_pos_nonneg; lia|].
    assert (0 < M) by (unfold M in *; lia). pose proof (Z.log2_spec M ltac:(lia)) as [_ S].
    apply Z.lt_le_trans with (2 ^ Z.succ (Z.log2 M)); [exact S|]. apply Z.pow_le_mono_r; [lia|].
    unfold k, lows_of. fold M. lia. }
  rewrite Z.pow_add_r in UP by lia. change (2 ^ 2) with 4 in UP.
  assert (P : 0 < 2 ^ Z.of_nat k) by (apply Z.pow_pos_nonneg; lia).
  split; [unfold k, lows_of; fold M; lia|].
  assert (QA : 0 <= a / 2 ^ Z.of_nat k <= 3).
  { split; [apply Z.div_pos; lia|]. apply Z.lt_succ_r, Z.div_lt_upper_bound; unfold M in UP; lia. }
  assert (QB : 0 <= b / 2 ^ Z.of_nat k <= 3).
  { split; [apply Z.div_pos; lia|]. apply Z.lt_succ_r, Z.div_lt_upper_bound; unfold M in UP; lia. }
  split; [exact QA|]. split; [exact QB|]. intros E.
  assert (EA : a / 2 ^ Z.of_nat k = 0) by lia. assert (EB : b / 2 ^ Z.of_nat k = 0) by lia.
  assert (LA : a < 2 ^ Z.of_nat k) by (destruct (Z.lt_ge_cases a (2 ^ Z.of_nat k)); [assumption|pose proof (Z.div_le_lower_bound a (2 ^ Z.of_nat k) 1 P ltac:(lia)); lia]).
  assert (LB : b < 2 ^ Z.of_nat k) by (destruct (Z.lt_ge_cases b (2 ^ Z.of_nat k)); [assumption|pose proof (Z.div_le_lower_bound b (2 ^ Z.of_nat k) 1 P ltac:(lia)); lia]).
  assert (LM : M < 2 ^ Z.of_nat k) by (unfold M; lia).
  destruct k as [|k'] eqn:K; [change (2 ^ Z.of_nat 0) with 1 in *; repeat split; lia|]. exfalso.
  assert (Z.log2 M < Z.of_nat (S k')).
  { destruct (Z.eq_dec M 0) as [->|N]; [cbn; lia|]. apply Z.log2_lt_pow2; unfold M in *; lia. }
  assert (KE : lows_of a b = S k') by exact K. unfold lows_of in KE. fold M in KE. lia.
Qed.

Lemma size_range a b : 0 <= a -> 0 <= b -> 0 <= size_of a b <= 15.
Proof. unfold size_of. lia. Qed.

Lemma m16 c j m : 0 <= c < 131072 -> 0 <= j -> 0 <= m <= 16 -> coded (model c j, m).
Proof.
  intros C J M. destruct (model_pk c j C J) as (p & _ & _ & T & L). split; cbn [fst snd]; [exact T|].
  unfold is_symbol. rewrite L. lia.
Qed.
Lemma pair_coded c a b : 0 <= c < 131072 -> mag (a, b) -> Forall coded (pair_syms c a b).
Proof.
  intros C [A B]. cbn [fst snd] in A, B. pose proof (lows_spec a b A B) as (_ & QA & QB & _). unfold pair_syms. apply Forall_app. split; [apply esc_coded; lia|].
  constructor; [apply m16; lia|]. apply low_coded.
Qed.
Lemma lines_coded prev : ctx prev -> forall n l cur i, ctx cur -> 0 <= i -> i + Z.of_nat n <= 512 -> Forall mag l ->
  Forall coded (line_syms prev cur i l n).
Proof.
  intros P. induction n as [|n IH]; intros l cur i C I N F; [constructor|].
  pose proof (get_context_model prev cur i P C ltac:(lia)) as [_ CR]. cbn [line_syms].
  destruct l as [|[a b] l].
  - constructor; [apply m16; lia|]. constructor; [apply m16; lia|constructor].
  - pose proof (Forall_inv F) as M. apply Forall_app. split; [apply pair_coded; assumption|].
    apply IH; try lia; [|exact (Forall_inv_tail F)]. destruct M as [A B]. cbn [fst snd] in A, B.
    apply ctx_set; [exact C|lia|apply size_range; lia].
Qed.

Lemma set_two pre x y z a b i : length pre = Z.to_nat (2 * i) -> 0 <= i ->
  put (pre ++ x :: y :: z) (2 * i) a = Got (pre ++ a :: y :: z) /\
  put (pre ++ a :: y :: z) (2 * i + 1) b = Got (pre ++ a :: b :: z).
Proof.
  intros L I. split.
  - rewrite put_set by (rewrite app_length; cbn [length]; lia). unfold set_at. f_equal. rewrite <- L.
    rewrite firstn_app, firstn_all, Nat.sub_diag, firstn_O, app_nil_r. f_equal. f_equal.
    rewrite skipn_app, skipn_all2 by lia. replace (S (length pre) - length pre)%nat with 1%nat by lia. reflexivity.
  - rewrite put_set by (rewrite app_length; cbn [length]; lia). unfold set_at. f_equal.
    replace (Z.to_nat (2 * i + 1)) with (length pre + 1)%nat by lia.
    rewrite firstn_app_2. cbn [firstn]. rewrite <- app_assoc. cbn [app]. f_equal. f_equal. f_equal.
    rewrite skipn_app, skipn_all2 by lia. replace (S (length pre + 1) - length pre)%nat with 2%nat by lia. reflexivity.
Qed.

Lemma land3 x y : 0 <= x <= 3 -> 0 <= y <= 3 -> Z.land (x + 4 * y) 3 = x /\ Z.shiftr (x + 4 * y) 2 = y.
Proof.
  intros X Y. split.
  - change 3 with (Z.ones 2). rewrite Z.land_ones by lia. change (2 ^ 2) with 4.
    replace (x + 4 * y) with (x + y * 4) by lia. rewrite Z.mod_add by lia. apply Z.mod_small. lia.
  - rewrite Z.shiftr_div_pow2 by lia. change (2 ^ 2) with 4. replace (x + 4 * y) with (x + y * 4) by lia.
    rewrite Z.div_add by lia. rewrite Z.div_small by lia. lia.
Qed.

Lemma pair_context_size a b : 0 <= a < 2 ^ 30 -> 0 <= b < 2 ^ 30 -> pair_context a b = Got (size_of a b).
Proof.
  intros A B. unfold pair_context, size_of. change (Z.shiftr MAX_32 1) with 1073741823.
  change (2 ^ 30) with 1073741824 in *. rewrite !Z.gtb_ltb, (proj2 (Z.ltb_ge 1073741823 a)) by lia. cbn [andb].
  rewrite (proj2 (Z.ltb_ge _ _)) by (unfold MAX_32; lia). reflexivity.
Qed.

Lemma sync_end w e s bs n : sync w e s bs n -> n = 16 + Z.of_nat (e_cnt e).
Proof. intros []. assumption. Qed.

Lemma pairs_sync w fuel prev : ctx prev -> (32 <= fuel)%nat -> forall n l cur i pre r e s bs cnt,
  ctx cur -> 0 <= i -> i + Z.of_nat n <= 512 -> (length l <= n)%nat -> (n <= r)%nat -> Forall mag l ->
  length pre = Z.to_nat (2 * i) -> ready e -> sync w e s bs cnt ->
  ok w (enc_all (line_syms prev cur i l n) e) ->
  pairs fuel n i prev cur (running prev cur i) (pre ++ repeat 0 (2 * r)) s bs cnt =
    Got (pre ++ flat l ++ repeat 0 (2 * (r - length l)), line_ctx cur i l,
         16 + Z.of_nat (e_cnt (enc_all (line_syms prev cur i l n) e))).
Proof.
  intros P FU. induction n as [|n IH]; intros l cur i pre r e s bs cnt C I N LL NR F LP R SY OK.
  - destruct l; [|cbn in LL; lia]. cbn [pairs line_syms line_ctx flat flat_map app length]. rewrite all_nil, Nat.sub_0_r.
    do 2 f_equal. exact (sync_end w e s bs cnt SY).
  - pose proof (get_context_model prev cur i P C ltac:(lia)) as [GC CR].
    cbn [pairs]. rewrite GC. cbn [obind]. set (c := context prev cur i) in *.
    destruct l as [|[a b] l].
    + cbn [line_syms] in OK |- *. fold c in OK |- *.
      destruct (escapes_sync w c 0 CR ltac:(lia) 1 fuel 0 e s bs cnt ltac:(lia) ltac:(lia) ltac:(lia) R SY OK)
        as (R' & s' & bs' & n' & E & S').
      rewrite E. cbn [obind]. change (0 =? 0) with true. change (0 + Z.of_nat 1 >? 0) with true. cbn match.
      cbn [line_ctx flat flat_map app length]. rewrite Nat.sub_0_r. do 2 f_equal. exact (sync_end w _ _ _ _ S').
    + pose proof (Forall_inv F) as [A B]. cbn [fst snd] in A, B. cbn [length] in LL.
      destruct (lows_spec a b A B) as (K & QA & QB & Q0). set (k := lows_of a b) in *.
      assert (CT : ctx (set_at cur (i + 2) (size_of a b))) by (apply ctx_set; [exact C|lia|apply size_range; lia]).
      cbn [line_syms] in OK |- *. fold c in OK |- *. rewrite all_app in *.
      set (rest := line_syms prev (set_at cur (i + 2) (size_of a b)) (i + 1) l n) in *.
      assert (RC : Forall coded rest) by (apply lines_coded; try assumption; try lia; exact (Forall_inv_tail F)).
      pose proof (ok_back w _ _ RC OK) as OK1.
      unfold pair_syms in OK, OK1 |- *. fold k in OK, OK1 |- *.
      set (m := a / 2 ^ Z.of_nat k + 4 * (b / 2 ^ Z.of_nat k)) in *.
      replace (esc_syms c 0 k ++ (model c (Z.of_nat k), m) :: low_syms k a b)
        with ((esc_syms c 0 k ++ [(model c (0 + Z.of_nat k), m)]) ++ low_syms k a b) in * by (rewrite <- app_assoc; reflexivity).
      rewrite all_app in *.
      pose proof (ok_back w _ _ (low_coded a b k) OK1) as OK0.
      destruct (escapes_sync w c m CR ltac:(lia) k fuel 0 e s bs cnt ltac:(lia) ltac:(lia) ltac:(lia) R SY OK0)
        as (R1 & s1 & bs1 & n1 & E1 & S1).
      rewrite E1. cbn [obind]. rewrite Z.add_0_l in *.
      destruct (low_sync w a b A B k _ s1 bs1 n1 R1 S1 OK1) as (R2 & s2 & bs2 & n2 & E2 & S2).
      destruct r as [|r]; [lia|]. replace (2 * S r)%nat with (S (S (2 * r))) by lia. cbn [repeat].
      assert (RUN : forall v, running prev cur (i + 1) = running prev (set_at cur (i + 2) v) (i + 1)).
      { intros v. unfold running. rewrite (entry_set cur (i + 2) (i + 1)) by (rewrite ?(proj1 C); lia).
        rewrite (proj2 (Z.eqb_neq (i + 1) (i + 2))) by lia. reflexivity. }
      assert (FIN : forall s3 bs3 n3, sync w (enc_all (low_syms k a b) (enc_all (esc_syms c 0 k ++ [(model c (Z.of_nat k), m)]) e)) s3 bs3 n3 ->
         pairs fuel n (i + 1) prev (set_at cur (i + 2) (size_of a b)) (running prev cur (i + 1)) (pre ++ a :: b :: repeat 0 (2 * r)) s3 bs3 n3 =
         Got (pre ++ flat ((a, b) :: l) ++ repeat 0 (2 * (S r - length ((a, b) :: l))), line_ctx cur i ((a, b) :: l),
           16 + Z.of_nat (e_cnt (enc_all rest (enc_all (low_syms k a b) (enc_all (esc_syms c 0 k ++ [(model c (Z.of_nat k), m)]) e)))))).
      { intros s3 bs3 n3 S3. rewrite (RUN (size_of a b)).
        replace (pre ++ a :: b :: repeat 0 (2 * r)) with ((pre ++ [a; b]) ++ repeat 0 (2 * r)) by (rewrite <- app_assoc; reflexivity).
        rewrite (IH l (set_at cur (i + 2) (size_of a b)) (i + 1) (pre ++ [a; b]) r
          (enc_all (low_syms k a b) (enc_all (esc_syms c 0 k ++ [(model c (Z.of_nat k), m)]) e)) s3 bs3 n3 CT); try assumption; try lia.
        - cbn [length line_ctx]. replace (S r - S (length l))%nat with (r - length l)%nat by lia.
          rewrite <- app_assoc. reflexivity.
        - exact (Forall_inv_tail F).
        - rewrite app_length. cbn [length]. lia. }
      destruct (Z.eqb_spec m 0) as [M0|M0].
      * destruct (Q0 M0) as (K0 & EA & EB).
        assert (GT : Z.of_nat k >? 0 = false) by (rewrite K0; reflexivity). rewrite GT.
        assert (LO : low_syms k a b = []) by (rewrite K0; reflexivity).
        rewrite LO, all_nil in FIN. rewrite LO, all_nil. clearbody k m rest. subst a b.
        destruct (set_two pre 0 0 (repeat 0 (2 * r)) 0 0 i LP I) as [T1 T2].
        rewrite T1. cbn [obind]. rewrite T2. cbn [obind].
        rewrite put_set by (rewrite (proj1 C); lia). cbn [obind]. replace (2 + i) with (i + 2) by lia.
        change (size_of 0 0) with 1 in *. apply FIN. exact S1.
      * destruct (land3 _ _ QA QB) as [L1 L2]. fold m in L1, L2. rewrite L1, L2. rewrite Nat2Z.id. rewrite E2. cbn [obind].
        destruct (set_two pre 0 0 (repeat 0 (2 * r)) a b i LP I) as [T1 T2].
        rewrite T1. cbn [obind]. rewrite T2. cbn [obind].
        rewrite pair_context_size by assumption. cbn [obind].
        rewrite put_set by (rewrite (proj1 C); lia). cbn [obind]. replace (2 + i) with (i + 2) by lia.
        apply FIN. exact S2.
Qed.

(** ** The context arrays *)
Lemma put_mid p x t v i : length p = Z.to_nat i -> 0 <= i -> put (p ++ x :: t) i v = Got (p ++ v :: t).
Proof.
  intros L I. rewrite put_set by (rewrite app_length; cbn [length]; lia). unfold set_at. rewrite <- L. f_equal.
  rewrite firstn_app, firstn_all, Nat.sub_diag, firstn_O, app_nil_r. f_equal. f_equal.
  rewrite skipn_app, skipn_all2 by lia. replace (S (length p) - length p)%nat with 1%nat by lia. reflexivity.
Qed.
Lemma tab_mid p x t i : length p = Z.to_nat i -> 0 <= i -> tab (p ++ x :: t) i = Got x.
Proof.
  intros L I. rewrite tab_ok by (rewrite app_length; cbn [length]; lia). unfold entry. rewrite <- L, app_nth2, Nat.sub_diag by lia. reflexivity.
Qed.
Lemma shift_closed : forall k i p1 p2 p3 q1 q2 q3, 0 <= i -> length p1 = Z.to_nat (2 + i) -> length q1 = Z.to_nat (2 + i) ->
  length p2 = k -> length q2 = k ->
  shift_context k i (p1 ++ p2 ++ p3) (q1 ++ q2 ++ q3) = Got (p1 ++ q2 ++ p3, q1 ++ repeat 1 k ++ q3).
Proof.
  induction k as [|k IH]; intros i p1 p2 p3 q1 q2 q3 I LP LQ P2 Q2.
  - destruct p2; [|discriminate]. destruct q2; [|discriminate]. reflexivity.
  - destruct p2 as [|x p2]; [discriminate|]. destruct q2 as [|y q2]; [discriminate|].
    injection P2 as P2. injection Q2 as Q2. cbn [shift_context app].
    rewrite tab_mid by (try assumption; lia). cbn [obind]. rewrite put_mid by (try assumption; lia). cbn [obind].
    rewrite put_mid by (try assumption; lia). cbn [obind].
    replace (p1 ++ y :: p2 ++ p3) with ((p1 ++ [y]) ++ p2 ++ p3) by (rewrite <- app_assoc; reflexivity).
    replace (q1 ++ 1 :: q2 ++ q3) with ((q1 ++ [1]) ++ q2 ++ q3) by (rewrite <- app_assoc; reflexivity).
    rewrite IH; try assumption; try (rewrite app_length; cbn [length]; lia); try lia.
    rewrite <- !app_assoc. reflexivity.
Qed.
Lemma shift_aged m prev pres : ctx prev -> ctx pres -> (m <= 512)%nat ->
  shift_context m 0 prev pres = Got (aged m prev pres, blank m pres).
Proof.
  intros [LP _] [LQ _] M. unfold aged, blank.
  rewrite <- (firstn_skipn 2 prev) at 1. rewrite <- (firstn_skipn m (skipn 2 prev)) at 1.
  rewrite <- (firstn_skipn 2 pres) at 1. rewrite <- (firstn_skipn m (skipn 2 pres)) at 1.
  rewrite !skipn_skipn_add. apply shift_closed; try lia; rewrite ?firstn_length, ?skipn_length; lia.
Qed.

(** ** Signs *)
Definition lines30 (l : list Z) : Prop := Forall (fun x => Z.abs x < 2 ^ 30) l.
Lemma signs_back : forall xs rest, lines30 xs -> signs (map Z.abs xs) (sign_bits xs ++ rest) = Got (xs, rest).
Proof.
  induction xs as [|x xs IH]; intros rest F; [reflexivity|].
  pose proof (Forall_inv F) as X. cbv beta in X. change (2 ^ 30) with 1073741824 in X.
  specialize (IH rest (Forall_inv_tail F)).
  cbn [map signs]. unfold sign1. unfold sign_bits. cbn [flat_map]. fold (sign_bits xs).
  destruct (Z.eqb_spec x 0) as [->|N].
  - change (Z.abs 0 =? 0) with true. cbn match. cbn [obind app]. rewrite IH. reflexivity.
  - rewrite (proj2 (Z.eqb_neq (Z.abs x) 0)) by lia. cbn [app].
    rewrite (proj2 (Z.eqb_neq (Z.abs x) MAX_32)) by (unfold MAX_32; lia).
    unfold MAX_32. rewrite w32_ok by (destruct (0 <? x); cbn [bz]; lia). cbn [obind]. rewrite IH. cbn [obind].
    do 2 f_equal. f_equal. destruct (Z.ltb_spec 0 x); cbn [bz]; lia.
Qed.
Lemma sign_bits_zeros l k : sign_bits (l ++ repeat 0 k) = sign_bits l.
Proof.
  unfold sign_bits. rewrite flat_map_app. replace (flat_map _ (repeat 0 k)) with (@nil bool); [apply app_nil_r|].
  induction k as [|k IH]; [reflexivity|exact IH].
Qed.
Lemma flat_mags l : flat (mags l) = map Z.abs (flat l).
Proof. induction l as [|[a b] l IH]; [reflexivity|]. cbn. f_equal. f_equal. exact IH. Qed.

Lemma small_mags l : Forall small l -> Forall mag (mags l).
Proof.
  intros F. unfold mags. apply Forall_map. eapply Forall_impl; [|exact F]. intros [a b] [A B]. split; cbn [fst snd] in *; lia.
Qed.
Lemma small_lines l k : Forall small l -> lines30 (flat l ++ repeat 0 k).
Proof.
  intros F. apply Forall_app. split.
  - induction l as [|[a b] l IH]; [constructor|]. destruct (Forall_inv F) as [A B]. cbn [fst snd] in A, B.
    constructor; [exact A|]. constructor; [exact B|]. exact (IH (Forall_inv_tail F)).
  - apply Forall_forall. intros x X. apply repeat_spec in X. subst. reflexivity.
Qed.
Lemma ctx_aged m prev pres : ctx prev -> ctx pres -> (m <= 512)%nat -> ctx (aged m prev pres) /\ ctx (blank m pres).
Proof.
  intros P Q M. pose proof (shift_context_fine m 0 prev pres P Q ltac:(lia) ltac:(lia)) as S.
  rewrite shift_aged in S by assumption. exact S.
Qed.
Lemma flat_length l : length (flat l) = (2 * length l)%nat.
Proof. induction l as [|[a b] l IH]; [reflexivity|]. cbn. cbn in IH. fold (flat l). rewrite IH. lia. Qed.

Lemma lines_roundtrip prev pres l n m rest : ctx prev -> ctx pres -> (length l <= n <= m)%nat -> (m <= 512)%nat ->
  Forall small l -> (15 <= length (sign_bits (flat l) ++ rest))%nat ->
  level2 (line_bits prev pres l n m ++ rest) prev pres n m =
    Got (flat l ++ repeat 0 (2 * (m - length l)), aged m prev pres, line_ctx (blank m pres) 0 (mags l), rest).
Proof.
  intros P Q LN M F RL. unfold line_bits. rewrite <- app_assoc.
  destruct (ctx_aged m prev pres P Q M) as [PA QB].
  set (syms := line_syms (aged m prev pres) (blank m pres) 0 (mags l) n).
  set (w := encode syms ++ sign_bits (flat l) ++ rest). set (e := enc_all syms enc0).
  assert (CD : Forall coded syms) by (apply lines_coded; try assumption; try lia; apply small_mags, F).
  assert (EL : length (encode syms) = (e_cnt e + 2)%nat) by apply code_length.
  assert (LW : length w = (e_cnt e + 2 + length (sign_bits (flat l) ++ rest))%nat) by (unfold w; rewrite app_length, EL; reflexivity).
  assert (RE : ready e) by (apply all_ready; [exact CD|exact ready0]).
  assert (OK : ok w e).
  { exists []. rewrite all_nil. split; [constructor|]. split; [apply code_inside, RE|lia]. }
  unfold level2. rewrite shift_aged by assumption. cbn [obind].
  pose proof (first_sync w ltac:(lia)) as FS. destruct (first_symbol w) as [s r].
  pose proof (entry_ctx _ 2 PA ltac:(lia)) as E2.
  rewrite tab_ok by (rewrite (proj1 PA); lia). cbn [obind]. rewrite shl32_ok by lia. cbn [obind].
  assert (RU : entry (aged m prev pres) 2 * 2 ^ 12 = running (aged m prev pres) (blank m pres) 0).
  { unfold running. change (0 =? 0) with true. cbn match. change (2 ^ 12) with 4096. lia. }
  rewrite RU.
  assert (LM : length (mags l) = length l) by apply map_length.
  pose proof (pairs_sync w (enough w) (aged m prev pres) PA ltac:(unfold enough; lia) n (mags l) (blank m pres) 0 [] m enc0 s r 16
    QB ltac:(lia) ltac:(lia) ltac:(lia) ltac:(lia) (small_mags l F) eq_refl ready0 FS) as PS.
  fold syms in PS. fold e in PS. specialize (PS OK). cbn [app] in PS. rewrite PS. cbn [obind].
  replace (16 + Z.of_nat (e_cnt e) - (16 - 2)) with (Z.of_nat (length (encode syms))) by lia.
  rewrite !Z.gtb_ltb. rewrite (proj2 (Z.ltb_ge _ _)) by lia. rewrite (proj2 (Z.ltb_lt _ _)) by lia. rewrite Nat2Z.id.
  assert (SK : skipn (length (encode syms)) w = sign_bits (flat l) ++ rest).
  { unfold w. rewrite skipn_app, skipn_all, Nat.sub_diag. reflexivity. }
  rewrite SK, LM, flat_mags.
  replace (map Z.abs (flat l) ++ repeat 0 (2 * (m - length l))) with (map Z.abs (flat l ++ repeat 0 (2 * (m - length l)))).
  2:{ rewrite map_app. f_equal. generalize (2 * (m - length l))%nat. induction n0 as [|k IH]; [reflexivity|]. cbn. f_equal. exact IH. }
  rewrite <- (sign_bits_zeros (flat l) (2 * (m - length l))).
  rewrite signs_back by (apply small_lines, F). reflexivity.
Qed.

(** ** Sequences of symbols *)
Lemma decode_all_ok : forall cfs s bs n, good s -> Forall freq_table cfs ->
  match decode_all s bs n cfs with
  | Got (ys, s', bs', n') => Forall2 is_symbol cfs ys /\ good s' /\ exists k : nat, bs' = skipn k bs /\ n' = n + Z.of_nat k
  | Invalid => True
  | _ => False
  end.
Proof.
  induction cfs as [|cf cfs IH]; intros s bs n G F.
  - cbn. split; [constructor|]. split; [exact G|]. exists 0%nat. cbn. split; [reflexivity|lia].
  - cbn [decode_all].
    destruct (decode_ok s bs n cf G (Forall_inv F)) as [(_ & _ & E)|(_ & y & k & s' & E & Y & G' & _)]; rewrite E; [exact I|].
    cbn [obind]. specialize (IH s' (skipn k bs) (n + Z.of_nat k) G' (Forall_inv_tail F)).
    destruct (decode_all s' (skipn k bs) (n + Z.of_nat k) cfs) as [[[[ys s2] bs2] n2]| | | | | |]; try exact IH.
    cbn [obind]. destruct IH as (A & B & k2 & C & D). split; [constructor; assumption|]. split; [exact B|].
    exists (k + k2)%nat. rewrite C, skipn_skipn_add. split; [reflexivity|lia].
Qed.

Lemma good_plain s : good s -> 0 <= a_low s /\ a_low s <= a_val s /\ a_val s <= a_high s /\ a_high s <= 65535 /\
  16384 < a_high s - a_low s + 1.
Proof. intros G. pose proof (good_width s G). destruct G. lia. Qed.

Lemma symbols_ok cfs bs : Forall freq_table cfs ->
  match decode_all (fst (first_symbol bs)) (snd (first_symbol bs)) 16 cfs with
  | Got (ys, s, bs', n) => Forall2 is_symbol cfs ys /\
      (0 <= a_low s /\ a_low s <= a_val s /\ a_val s <= a_high s /\ a_high s <= 65535 /\ 16384 < a_high s - a_low s + 1) /\
      exists k : nat, bs' = skipn (16 + k) bs /\ n = 16 + Z.of_nat k
  | Invalid => True
  | _ => False
  end.
Proof.
  intros F. destruct (first_good bs) as [G R]. pose proof (decode_all_ok cfs _ (snd (first_symbol bs)) 16 G F) as D. revert D.
  generalize (fst (first_symbol bs)). intros s0. rewrite R.
  destruct (decode_all s0 (skipn 16 bs) 16 cfs) as [[[[ys s] bs'] n]| | | | | |]; try exact (fun x => x).
  intros (A & B & k & C & D). split; [exact A|]. split; [exact (good_plain s B)|]. exists k. rewrite C, skipn_skipn_add. split; [reflexivity|exact D].
Qed.

Lemma tables_ok : Forall freq_table ari_cf_m /\ Forall freq_table ari_cf_r.
Proof.
  split; (eapply Forall_impl; [|first [exact cf_m_ok | exact cf_r_ok]]); intros cf H; cbv beta in H.
  - apply andb_true_iff in H. destruct H as [H _]. apply andb_true_iff in H. apply tableb_ok. exact (proj1 H).
  - apply andb_true_iff in H. apply tableb_ok. exact (proj1 H).
Qed.

Lemma roundtrip_plain l rest : Forall (fun x => freq_table (fst x) /\ is_symbol (fst x) (snd x)) l -> (15 <= length rest)%nat ->
  exists s' n, decode_all (fst (first_symbol (encode l ++ rest))) (snd (first_symbol (encode l ++ rest))) 16 (map fst l) =
      Got (map snd l, s', skipn (Z.to_nat n) (encode l ++ rest), n) /\
    n - 14 = Z.of_nat (length (encode l)).
Proof.
  intros F L. destruct (roundtrip l rest F L) as (s & r & s' & E & n & D & N). rewrite E. exists s', n. split; assumption.
Qed.

Definition ones516 : list Z := 0 :: 0 :: repeat 1 514.
Lemma ctx_list l : (Nat.eqb (length l) 516 && forallb (fun v => (0 <=? v) && (v <=? 15)) l) = true -> ctx l.
Proof.
  intros H. apply andb_true_iff in H. destruct H as [A B]. apply Nat.eqb_eq in A. split; [exact A|].
  apply Forall_forall. intros x X. rewrite forallb_forall in B. specialize (B x X). apply andb_true_iff in B. lia.
Qed.
Lemma ones_ctx : ctx ones516. Proof. apply ctx_list. vm_compute. reflexivity. Qed.

(** The escape loop with 29 escapes and low bits up to 2^31 - 1. *)
Definition over_bits : list bool := line_bits ones516 ones516 [(2147483647, 0)] 1 1.
Lemma over_reached : level2 over_bits ones516 ones516 1 1 = Over.
Proof. vm_compute. reflexivity. Qed.
Lemma over_length : length over_bits = 183%nat.
Proof. vm_compute. reflexivity. Qed.

Definition pres121 : list Z := 0 :: 0 :: 1 :: 2 :: repeat 1 512.
Lemma pres_ctx : ctx pres121. Proof. apply ctx_list. vm_compute. reflexivity. Qed.
Lemma short_rejected : level2 (line_bits ones516 pres121 [(0, 0); (0, 0)] 3 3) ones516 pres121 3 3 = Invalid.
Proof. vm_compute. reflexivity. Qed.

Lemma level2_ends bs prev pres n pres_n : ctx prev -> ctx pres -> (n <= pres_n <= 512)%nat ->
  Z.of_nat (length bs) < 2 ^ 24 -> level2 bs prev pres n pres_n <> Stuck.
Proof.
  intros P Q N B E. pose proof (level2_fine bs prev pres n pres_n P Q N B) as F. rewrite E in F. exact F.
Qed.
Lemma escapes_end c s bs n fuel : good s -> Z.of_nat (length bs) < 2 ^ 24 ->
  64 * (Z.of_nat (length bs) + 18) < Z.of_nat fuel -> escapes fuel c 0 s bs n <> Stuck /\ escapes fuel c 0 s bs n <> Bad.
Proof.
  intros G B F. pose proof (phi_range bs s G) as R.
  pose proof (escapes_fine c fuel 0 s bs n G ltac:(lia) ltac:(lia) ltac:(lia)) as E.
  split; intros X; rewrite X in E; exact E.
Qed.
