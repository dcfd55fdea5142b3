(** * Lem_PcmOut: proofs about the output conversion *)

From Coq Require Import ZArith List Lia Bool SpecFloat Permutation.
From Verif Require Import F32 Lem_F32 Pcm Spec_Pcm.
Import ListNotations.
Open Scope Z_scope.

Definition U := 2 ^ 149.
Lemma U_pos : 0 < U. Proof. reflexivity. Qed.

Lemma quot_opp a : Z.quot (- a) U = - Z.quot a U.
Proof. apply Z.quot_opp_l. pose proof U_pos; lia. Qed.

Lemma shiftl_units m e : -149 <= e -> Z.shiftl (Zpos m) e = Z.quot (Zpos m * 2 ^ (e + 149)) U.
Proof.
  intros E. assert (P : 0 < 2 ^ (e + 149)) by (apply Z.pow_pos_nonneg; lia).
  rewrite Z.quot_div_nonneg by (pose proof U_pos; nia).
  destruct (Z.le_gt_cases 0 e) as [H|H].
  - rewrite Z.shiftl_mul_pow2 by lia. rewrite Z.pow_add_r by lia.
    rewrite Z.mul_assoc. change (2 ^ 149) with U. rewrite Z.div_mul by (pose proof U_pos; lia). reflexivity.
  - rewrite Z.shiftl_div_pow2 by lia. unfold U.
    replace 149 with (- e + (e + 149)) at 2 by lia. rewrite (Z.pow_add_r 2 (- e)) by lia.
    rewrite Z.div_mul_cancel_r; [reflexivity| |lia]. apply Z.pow_nonzero; lia.
Qed.

Lemma trunc_units y u : okx y -> units y = Some u -> trunc y = Some (Z.quot u U).
Proof.
  destruct y as [s|s| |s m e]; try discriminate; cbn [okx units trunc]; intros O E; apply some_inj in E; subst u.
  - reflexivity.
  - rewrite shiftl_units by (destruct O; lia). f_equal. destruct s; cbn [cond_Zopp].
    + symmetry. apply quot_opp.
    + reflexivity.
Qed.

Lemma quot_mono a b : a <= b -> Z.quot a U <= Z.quot b U.
Proof. intros. apply Z.quot_le_mono; [exact U_pos|assumption]. Qed.
Lemma quot_int n : Z.quot (n * U) U = n.
Proof. apply Z.quot_mul. pose proof U_pos; lia. Qed.

(** Limiting and truncating. *)
Lemma lim_conv lo hi L H y u :
  okx lo -> okx hi -> units lo = Some (L * U) -> units hi = Some (H * U) -> L < 0 < H ->
  okx y -> units y = Some u ->
  trunc (limit lo hi y) = Some (Z.max L (Z.min H (Z.quot u U))).
Proof.
  intros OL OH UL UH LH OY UY. unfold limit.
  rewrite (f_lt_units _ _ _ _ OY OL UY UL), (f_lt_units _ _ _ _ OH OY UH UY).
  destruct (Z.ltb_spec u (L * U)) as [A|A].
  - rewrite (trunc_units _ _ OL UL), quot_int. f_equal.
    assert (Z.quot u U <= L) by (rewrite <- (quot_int L); apply quot_mono; lia). lia.
  - destruct (Z.ltb_spec (H * U) u) as [B|B].
    + rewrite (trunc_units _ _ OH UH), quot_int. f_equal.
      assert (H <= Z.quot u U) by (rewrite <- (quot_int H); apply quot_mono; lia). lia.
    + rewrite (trunc_units _ _ OY UY). f_equal.
      assert (Z.quot u U <= H) by (rewrite <- (quot_int H); apply quot_mono; lia).
      assert (L <= Z.quot u U) by (rewrite <- (quot_int L); apply quot_mono; lia). lia.
Qed.

Lemma lim_inf lo hi L H s :
  okx lo -> okx hi -> units lo = Some (L * U) -> units hi = Some (H * U) ->
  trunc (limit lo hi (S754_infinity s)) = Some (if s then L else H).
Proof.
  intros OL OH UL UH. unfold limit, f_lt, SFltb.
  destruct lo as [?|?| |? ? ?]; try discriminate; destruct hi as [?|?| |? ? ?]; try discriminate;
    destruct s; cbn [SFcompare];
    first [rewrite (trunc_units _ _ OL UL), quot_int | rewrite (trunc_units _ _ OH UH), quot_int]; reflexivity.
Qed.

(** The product with 2^k. *)
Lemma mul_conv k x v : 0 <= k <= 16 -> float32 x -> value149 x = Some v ->
  (okx (f_mul x (two_to k)) /\ units (f_mul x (two_to k)) = Some (v * 2 ^ k)) \/
  (exists s, f_mul x (two_to k) = S754_infinity s /\
     if s then v * 2 ^ k <= - (2 ^ 128 * U) else 2 ^ 128 * U <= v * 2 ^ k).
Proof.
  intros K F E. destruct x as [s|s| |s m e]; try discriminate; cbn [value149] in E; apply some_inj in E; subst v.
  - left. split; [exact I|]. cbn [f_mul SFmul two_to units]. f_equal.
  - pose proof (valid_ok _ _ _ F) as O.
    destruct (mul_two_to s m e k O K) as (m' & e' & E1 & E2 & E3 & E4 & E5).
    assert (V : (if s then -1 else 1) * Zpos m * 2 ^ (e + 149) * 2 ^ k = cond_Zopp s (Zpos m' * 2 ^ (e' + 149))).
    { rewrite E5. destruct s; cbn [cond_Zopp]; ring. }
    rewrite E1, V. destruct (Z.leb_spec e' 104) as [H|H].
    + left. split; [|reflexivity]. cbn [okx]. unfold okf. repeat split; assumption.
    + right. exists s. split; [reflexivity|].
      assert (2 ^ 23 <= Zpos m') by (apply E4; lia).
      assert (2 ^ 105 * U <= 2 ^ (e' + 149)).
      { unfold U. rewrite <- Z.pow_add_r by lia. apply Z.pow_le_mono_r; lia. }
      assert (2 ^ 128 * U <= Zpos m' * 2 ^ (e' + 149)).
      { replace (2 ^ 128 * U) with (2 ^ 23 * (2 ^ 105 * U)) by (rewrite Z.mul_assoc; reflexivity).
        pose proof U_pos. apply Z.mul_le_mono_nonneg; try lia. }
      destruct s; cbn [cond_Zopp]; lia.
Qed.

Lemma units_value x : units x = value149 x.
Proof. destruct x as [?|?| |[] m e]; try reflexivity; cbn [units value149 cond_Zopp]; f_equal; ring. Qed.

Lemma to_int_in lo hi y n : trunc y = Some n -> lo <= n <= hi -> to_int lo hi y = Some n.
Proof.
  intros E H. unfold to_int. rewrite E.
  rewrite (proj2 (Z.leb_le lo n)), (proj2 (Z.leb_le n hi)) by lia. reflexivity.
Qed.

Lemma byte_mod n k : 0 <= k -> byte n k = (n / 2 ^ k) mod 256.
Proof. intros. unfold byte. rewrite Z.shiftr_div_pow2 by assumption.
  change 255 with (Z.ones 8). rewrite Z.land_ones by lia. reflexivity. Qed.

Lemma bytes2 n : [byte n 0; byte n 8] = le_bytes 2 n.
Proof. rewrite !byte_mod by lia. cbn [le_bytes]. rewrite Z.pow_0_r, Z.div_1_r. reflexivity. Qed.
Lemma bytes3 n : [byte n 0; byte n 8; byte n 16] = le_bytes 3 n.
Proof. rewrite !byte_mod by lia. cbn [le_bytes]. rewrite Z.pow_0_r, Z.div_1_r, !Z.div_div by lia. reflexivity. Qed.
Lemma bytes4 n : [byte n 0; byte n 8; byte n 16; byte n 24] = le_bytes 4 n.
Proof. rewrite !byte_mod by lia. cbn [le_bytes]. rewrite Z.pow_0_r, Z.div_1_r, !Z.div_div by lia. reflexivity. Qed.

(** Below positive full scale: sample * 2^16 is less than 2^31. *)
Definition below_full_scale (x : f32) : Prop :=
  match x with
  | S754_nan => False
  | S754_infinity s => s = true
  | _ => exists v, value149 x = Some v /\ v < 2 ^ 15 * 2 ^ 149
  end.

Definition sizes3 (b : Z) := b = 16 \/ b = 24 \/ b = 32.

Lemma word_fun b x n n' : word_of b x n -> word_of b x n' -> n = n'.
Proof.
  unfold word_of. destruct x as [?|?| |? ? ?]; intros A B; try congruence; try tauto;
    destruct A as (v & A1 & A2), B as (w & B1 & B2); congruence.
Qed.

Lemma lo24 : units MIN_FLT_VAL_24 = Some (-8388608 * U). Proof. vm_compute. reflexivity. Qed.
Lemma hi24 : units MAX_FLT_VAL_24 = Some (8388607 * U). Proof. vm_compute. reflexivity. Qed.
Lemma lo16 : units MIN_FLT_VAL_16 = Some (-32768 * U). Proof. vm_compute. reflexivity. Qed.
Lemma hi16 : units MAX_FLT_VAL_16 = Some (32767 * U). Proof. vm_compute. reflexivity. Qed.
Lemma lo32 : units MIN_FLT_VAL_32 = Some (-2147483648 * U). Proof. vm_compute. reflexivity. Qed.
Lemma hi32 : units MAX_FLT_VAL_32 = Some (2147483648 * U). Proof. vm_compute. reflexivity. Qed.
Lemma ok_const : Forall okx [MIN_FLT_VAL_24; MAX_FLT_VAL_24; MIN_FLT_VAL_16; MAX_FLT_VAL_16; MIN_FLT_VAL_32; MAX_FLT_VAL_32].
Proof. repeat constructor; vm_compute; congruence. Qed.
Lemma mul24 : MUL_FAC_PCM_24 = two_to 8. Proof. reflexivity. Qed.
Lemma mul32 : MUL_FAC_PCM_32 = two_to 16. Proof. reflexivity. Qed.

Ltac okc := pose proof ok_const as OKC; inversion OKC as [|? ? K1 OKC1]; inversion OKC1 as [|? ? K2 OKC2];
  inversion OKC2 as [|? ? K3 OKC3]; inversion OKC3 as [|? ? K4 OKC4]; inversion OKC4 as [|? ? K5 OKC5];
  inversion OKC5 as [|? ? K6 OKC6]; clear OKC OKC1 OKC2 OKC3 OKC4 OKC5 OKC6; subst.

Lemma put16_ok x : float32 x -> x <> S754_nan -> exists n, word_of 16 x n /\ put16 x = Some (le_bytes 2 n).
Proof.
  intros F N. okc. unfold put16. destruct x as [s|s| |s m e]; [| |congruence|].
  - exists 0. split; [exists 0; split; reflexivity|]. reflexivity.
  - exists (if s then -32768 else 32767). split; [reflexivity|].
    rewrite (to_int_in _ _ _ (if s then -32768 else 32767)); [rewrite bytes2; reflexivity| |destruct s; lia].
    apply lim_inf; [exact K3|exact K4|exact lo16|exact hi16].
  - set (x := S754_finite s m e) in *.
    assert (exists v, value149 x = Some v) as (v & V) by (subst x; eexists; reflexivity).
    exists (Z.max (-32768) (Z.min 32767 (Z.quot v U))). split.
    + unfold word_of. subst x. exists v. split; [exact V|]. rewrite Z.pow_0_r, Z.mul_1_r. reflexivity.
    + rewrite (to_int_in _ _ _ (Z.max (-32768) (Z.min 32767 (Z.quot v U)))); [rewrite bytes2; reflexivity| |lia].
      apply lim_conv; [exact K3|exact K4|exact lo16|exact hi16|lia|exact (valid_ok _ _ _ F)|].
      rewrite units_value. exact V.
Qed.

Lemma put24_ok x : float32 x -> x <> S754_nan -> exists n, word_of 24 x n /\ put24 x = Some (le_bytes 3 n).
Proof.
  intros F N. okc. unfold put24. rewrite mul24. destruct x as [s|s| |s m e]; [| |congruence|].
  - exists 0. split; [exists 0; split; reflexivity|]. reflexivity.
  - exists (if s then -8388608 else 8388607). split; [reflexivity|].
    rewrite (to_int_in _ _ _ (if s then -8388608 else 8388607)); [rewrite bytes3; reflexivity| |destruct s; lia].
    cbn [f_mul SFmul two_to]. rewrite xorb_false_r.
    apply lim_inf; [exact K1|exact K2|exact lo24|exact hi24].
  - set (x := S754_finite s m e) in *.
    assert (exists v, value149 x = Some v) as (v & V) by (subst x; eexists; reflexivity).
    exists (Z.max (-8388608) (Z.min 8388607 (Z.quot (v * 2 ^ 8) U))). split.
    + unfold word_of. subst x. exists v. split; [exact V|]. reflexivity.
    + rewrite (to_int_in _ _ _ (Z.max (-8388608) (Z.min 8388607 (Z.quot (v * 2 ^ 8) U)))); [rewrite bytes3; reflexivity| |lia].
      destruct (mul_conv 8 x v ltac:(lia) F V) as [[O E]|(t & E & B)].
      * apply lim_conv; [exact K1|exact K2|exact lo24|exact hi24|lia|exact O|exact E].
      * rewrite E. rewrite (lim_inf _ _ _ _ t K1 K2 lo24 hi24). f_equal. destruct t.
        -- apply quot_mono in B. rewrite quot_opp, quot_int in B. lia.
        -- apply quot_mono in B. rewrite quot_int in B. lia.
Qed.

Lemma put32_ok x : float32 x -> below_full_scale x -> exists n, word_of 32 x n /\ put32 x = Some (le_bytes 4 n).
Proof.
  intros F N. okc. unfold put32. rewrite mul32. destruct x as [s|s| |s m e]; [| |destruct N|].
  - exists 0. split; [exists 0; split; reflexivity|]. reflexivity.
  - cbn in N. subst s. exists (-2147483648). split; [reflexivity|].
    rewrite (to_int_in _ _ _ (-2147483648)); [rewrite bytes4; reflexivity| |lia].
    cbn [f_mul SFmul two_to]. rewrite xorb_false_r.
    apply (lim_inf _ _ _ _ true K5 K6 lo32 hi32).
  - set (x := S754_finite s m e) in *. destruct N as (v & V & LT).
    assert (Q : Z.quot (v * 2 ^ 16) U <= 2147483647).
    { assert (v * 2 ^ 16 < 2147483648 * U) by (unfold U; lia).
      assert (v * 2 ^ 16 <= 2147483648 * U - 1) by lia. apply quot_mono in H0.
      assert (Z.quot (2147483648 * U - 1) U = 2147483647) by (vm_compute; reflexivity). lia. }
    exists (Z.max (-2147483648) (Z.min 2147483647 (Z.quot (v * 2 ^ 16) U))). split.
    + unfold word_of. subst x. exists v. split; [exact V|]. reflexivity.
    + rewrite (to_int_in _ _ _ (Z.max (-2147483648) (Z.min 2147483647 (Z.quot (v * 2 ^ 16) U)))); [rewrite bytes4; reflexivity| |lia].
      destruct (mul_conv 16 x v ltac:(lia) F V) as [[O E]|(t & E & B)].
      * rewrite (lim_conv _ _ _ _ _ _ K5 K6 lo32 hi32 ltac:(lia) O E). f_equal. lia.
      * rewrite E. rewrite (lim_inf _ _ _ _ t K5 K6 lo32 hi32). f_equal. destruct t.
        -- apply quot_mono in B. rewrite quot_opp, quot_int in B. lia.
        -- exfalso. apply quot_mono in B. rewrite quot_int in B. lia.
Qed.

(** At or above full scale the conversion to 32 bits is undefined. *)
Lemma put32_full x v : float32 x -> value149 x = Some v -> 2 ^ 15 * 2 ^ 149 <= v -> put32 x = None.
Proof.
  intros F V GE. okc. unfold put32. rewrite mul32.
  assert (T : trunc (limit MIN_FLT_VAL_32 MAX_FLT_VAL_32 (f_mul x (two_to 16))) = Some 2147483648).
  { destruct (mul_conv 16 x v ltac:(lia) F V) as [[O E]|(t & E & B)].
    - rewrite (lim_conv _ _ _ _ _ _ K5 K6 lo32 hi32 ltac:(lia) O E). f_equal.
      assert (2147483648 <= Z.quot (v * 2 ^ 16) U).
      { rewrite <- (quot_int 2147483648). apply quot_mono. unfold U. lia. } lia.
    - rewrite E. rewrite (lim_inf _ _ _ _ t K5 K6 lo32 hi32). destruct t; [|reflexivity].
      exfalso. pose proof U_pos. unfold U in *. lia. }
  unfold to_int. rewrite T. reflexivity.
Qed.

Lemma put_nan b : put b S754_nan = None.
Proof. unfold put. destruct (b =? 24); [reflexivity|]. destruct (b =? 16); reflexivity. Qed.

(** ** The channel map *)
Lemma get_some {A} (l : list A) i d : 0 <= i < Z.of_nat (length l) -> get l i = Some (nth (Z.to_nat i) l d).
Proof. intros H. unfold get. rewrite (proj2 (Z.leb_le 0 i)) by lia. apply nth_error_nth'. lia. Qed.

Lemma set_some {A} (l : list A) i v : 0 <= i < Z.of_nat (length l) ->
  exists l', set l i v = Some l' /\ length l' = length l /\
    get l' i = Some v /\ (forall j, j <> i -> get l' j = get l j).
Proof.
  intros H. unfold set. rewrite (proj2 (Z.leb_le 0 i)), (proj2 (Z.ltb_lt i _)) by lia. cbn [andb].
  assert (LF : length (firstn (Z.to_nat i) l) = Z.to_nat i) by (rewrite firstn_length; lia).
  eexists. split; [reflexivity|]. split; [|split].
  - rewrite app_length, LF. cbn [length]. rewrite skipn_length. lia.
  - unfold get. rewrite (proj2 (Z.leb_le 0 i)) by lia. rewrite nth_error_app2 by lia.
    rewrite LF, Nat.sub_diag. reflexivity.
  - intros j NE. unfold get. destruct (Z.leb_spec 0 j) as [J|J]; [|reflexivity].
    destruct (Z.lt_ge_cases j i) as [L|L].
    + rewrite nth_error_app1 by lia. rewrite <- (firstn_skipn (Z.to_nat i) l) at 2.
      rewrite nth_error_app1 by lia. reflexivity.
    + rewrite nth_error_app2 by lia. rewrite LF.
      replace (Z.to_nat j - Z.to_nat i)%nat with (S (Z.to_nat j - S (Z.to_nat i))) by lia. cbn [nth_error].
      rewrite <- (firstn_skipn (S (Z.to_nat i)) l) at 2.
      rewrite nth_error_app2 by (rewrite firstn_length; lia).
      f_equal. rewrite firstn_length. lia.
Qed.

Lemma get_nth {A} (l : list A) i v d : get l i = Some v -> nth (Z.to_nat i) l d = v.
Proof. unfold get. destruct (0 <=? i); [|discriminate]. intros. eapply nth_error_nth; eassumption. Qed.

Lemma dest_ext l l' c : get l c = get l' c -> 0 <= c < Z.of_nat (length l) -> length l' = length l ->
  dest l c = dest l' c.
Proof.
  intros E H L. unfold dest. rewrite (get_some l c (-1)), (get_some l' c (-1)) in E by lia.
  injection E as E. rewrite E. reflexivity.
Qed.

Lemma place_ok : forall k ch map pos,
  0 <= ch -> ch + Z.of_nat k <= Z.of_nat (length map) ->
  (forall c, ch <= c < ch + Z.of_nat k -> 0 <= dest map c < Z.of_nat (length pos)) ->
  exists map' pos', place k ch map pos = Some (map', pos') /\ length map' = length map /\
    length pos' = length pos /\
    (forall c, get map' c = if (ch <=? c) && (c <? ch + Z.of_nat k) then Some (dest map c) else get map c) /\
    (forall c, ch <= c < ch + Z.of_nat k ->
       (forall c', c < c' < ch + Z.of_nat k -> dest map c' <> dest map c) -> get pos' (dest map c) = Some c) /\
    (forall j, (forall c, ch <= c < ch + Z.of_nat k -> dest map c <> j) -> get pos' j = get pos j).
Proof.
  induction k as [|k IH]; intros ch map pos C L D.
  - exists map, pos. repeat split; try lia.
    + intros c. destruct (Z.leb_spec ch c), (Z.ltb_spec c (ch + Z.of_nat 0)); cbn [andb]; try lia; reflexivity.
  - cbn [place]. rewrite (get_some map ch (-1)) by lia.
    set (v := nth (Z.to_nat ch) map (-1)).
    assert (M : exists map1, (if v =? -1 then set map ch ch else Some map) = Some map1 /\
       length map1 = length map /\ get map1 ch = Some (dest map ch) /\ forall j, j <> ch -> get map1 j = get map j).
    { unfold dest. fold v. destruct (Z.eqb_spec v (-1)) as [E|E].
      - destruct (set_some map ch ch ltac:(lia)) as (l' & A1 & A2 & A3 & A4).
        exists l'. repeat split; assumption.
      - exists map. repeat split. subst v. apply get_some. lia. }
    destruct M as (map1 & M1 & M2 & M3 & M4). rewrite M1, M3.
    destruct (set_some pos (dest map ch) ch) as (pos1 & P1 & P2 & P3 & P4).
    { apply D. lia. }
    rewrite P1.
    assert (DX : forall c, ch < c < ch + Z.of_nat (S k) -> dest map1 c = dest map c).
    { intros c H. symmetry. apply dest_ext; [symmetry; apply M4; lia|lia|lia]. }
    destruct (IH (ch + 1) map1 pos1) as (map' & pos' & E1 & E2 & E3 & E4 & E5 & E6); try lia.
    { intros c H. rewrite DX by lia. rewrite P2. apply D. lia. }
    exists map', pos'. split; [exact E1|]. split; [lia|]. split; [lia|]. split; [|split].
    + intros c. rewrite E4. destruct (Z.eq_dec c ch) as [->|NE].
      * rewrite (proj2 (Z.leb_gt (ch + 1) ch)) by lia. cbn [andb].
        rewrite (proj2 (Z.leb_le ch ch)), (proj2 (Z.ltb_lt ch _)) by lia. cbn [andb]. exact M3.
      * destruct (Z.leb_spec (ch + 1) c), (Z.leb_spec ch c); try lia; cbn [andb].
        -- replace (ch + 1 + Z.of_nat k) with (ch + Z.of_nat (S k)) by lia.
           destruct (Z.ltb_spec c (ch + Z.of_nat (S k))); [rewrite DX by lia; reflexivity|apply M4; lia].
        -- apply M4; lia.
    + intros c H U'. destruct (Z.eq_dec c ch) as [->|NE].
      * rewrite E6; [exact P3|]. intros c H'. rewrite DX by lia. apply U'. lia.
      * rewrite <- DX by lia. apply E5; [lia|]. intros c' H'. rewrite !DX by lia. apply U'. lia.
    + intros j H. rewrite E6; [|intros c H'; rewrite DX by lia; apply H; lia].
      apply P4. intro E. apply (H ch); [lia|congruence].
Qed.

Lemma get_oob {A} (l : list A) i : i < 0 \/ Z.of_nat (length l) <= i -> get l i = None.
Proof.
  intros H. unfold get. destruct (Z.leb_spec 0 i); [|reflexivity]. apply nth_error_None. lia.
Qed.
Lemma set_oob {A} (l : list A) i v : i < 0 \/ Z.of_nat (length l) <= i -> set l i v = None.
Proof.
  intros H. unfold set. destruct (Z.leb_spec 0 i), (Z.ltb_spec i (Z.of_nat (length l))); cbn [andb]; try lia; reflexivity.
Qed.

(** A map entry outside the table is an access outside the table. *)
Lemma place_oob : forall k ch map pos c,
  0 <= ch -> ch + Z.of_nat k <= Z.of_nat (length map) -> ch <= c < ch + Z.of_nat k ->
  dest map c < 0 \/ Z.of_nat (length pos) <= dest map c -> place k ch map pos = None.
Proof.
  induction k as [|k IH]; intros ch map pos c C L H O; [lia|].
  cbn [place]. rewrite (get_some map ch (-1)) by lia.
  set (v := nth (Z.to_nat ch) map (-1)).
  assert (M : exists map1, (if v =? -1 then set map ch ch else Some map) = Some map1 /\
     length map1 = length map /\ get map1 ch = Some (dest map ch) /\ forall j, j <> ch -> get map1 j = get map j).
  { unfold dest. fold v. destruct (Z.eqb_spec v (-1)) as [E|E].
    - destruct (set_some map ch ch ltac:(lia)) as (l' & A1 & A2 & A3 & A4).
      exists l'. repeat split; assumption.
    - exists map. repeat split. subst v. apply get_some. lia. }
  destruct M as (map1 & M1 & M2 & M3 & M4). rewrite M1, M3.
  destruct (Z.eq_dec c ch) as [->|NE]; [rewrite set_oob by assumption; reflexivity|].
  destruct (set pos (dest map ch) ch) as [pos1|] eqn:P1; [|reflexivity].
  assert (LP : length pos1 = length pos).
  { destruct (Z.lt_ge_cases (dest map ch) 0); [rewrite set_oob in P1 by lia; discriminate|].
    destruct (Z.lt_ge_cases (dest map ch) (Z.of_nat (length pos))); [|rewrite set_oob in P1 by lia; discriminate].
    destruct (set_some pos (dest map ch) ch ltac:(lia)) as (q & Q1 & Q2 & _). congruence. }
  apply (IH (ch + 1) map1 pos1 c); try lia. rewrite LP.
  replace (dest map1 c) with (dest map c); [exact O|]. apply dest_ext; [symmetry; apply M4; lia|lia|lia].
Qed.

(** ** Interleaving *)
Lemma put_word b x n : sizes3 b -> float32 x -> (b = 32 -> below_full_scale x) -> word_of b x n ->
  put b x = Some (le_bytes (Z.to_nat (b / 8)) n).
Proof.
  intros [-> | [-> | ->]] F FS W.
  - destruct (put16_ok x F) as (m & A & B); [intros ->; exact W|].
    rewrite (word_fun _ _ _ _ W A). exact B.
  - destruct (put24_ok x F) as (m & A & B); [intros ->; exact W|].
    rewrite (word_fun _ _ _ _ W A). exact B.
  - destruct (put32_ok x F (FS eq_refl)) as (m & A & B).
    rewrite (word_fun _ _ _ _ W A). exact B.
Qed.

Lemma put_channels_ok b pos x w : sizes3 b -> forall k ch,
  (forall j, ch <= j < ch + Z.of_nat k -> exists c, get pos j = Some c /\ float32 (x c) /\
     (b = 32 -> below_full_scale (x c)) /\ word_of b (x c) (w j)) ->
  put_channels k ch b pos x =
  Some (flat_map (fun j => le_bytes (Z.to_nat (b / 8)) (w (ch + Z.of_nat j))) (seq 0 k)).
Proof.
  intros SB. induction k as [|k IH]; intros ch H; [reflexivity|].
  cbn [put_channels]. destruct (H ch ltac:(lia)) as (c & G & F & FS & W).
  rewrite G, (put_word b _ _ SB F FS W).
  rewrite (IH (ch + 1)) by (intros j Hj; apply H; lia). f_equal.
  cbn [seq flat_map]. f_equal; [do 2 f_equal; lia|].
  rewrite <- seq_shift, flat_map_concat_map, flat_map_concat_map, map_map. f_equal.
  apply map_ext. intros a. do 2 f_equal. lia.
Qed.

Lemma put_samples_ok b pos x w nch : sizes3 b -> forall k s,
  (forall j t, 0 <= j < Z.of_nat nch -> s <= t < s + Z.of_nat k -> exists c, get pos j = Some c /\ float32 (x c t) /\
     (b = 32 -> below_full_scale (x c t)) /\ word_of b (x c t) (w j t)) ->
  put_samples k s nch b pos x =
  Some (flat_map (fun i => flat_map (fun j => le_bytes (Z.to_nat (b / 8)) (w (Z.of_nat j) (s + Z.of_nat i))) (seq 0 nch)) (seq 0 k)).
Proof.
  intros SB. induction k as [|k IH]; intros s H; [reflexivity|].
  cbn [put_samples]. rewrite (put_channels_ok b pos _ (fun j => w j s) SB) by (intros j Hj; apply H; lia).
  rewrite (IH (s + 1)) by (intros j t Hj Ht; apply H; lia). f_equal.
  cbn [seq flat_map]. f_equal.
  - apply flat_map_ext. intros a. do 2 f_equal. lia.
  - rewrite <- seq_shift, flat_map_concat_map, flat_map_concat_map, map_map. f_equal.
    apply map_ext. intros a. apply flat_map_ext. intros j. do 2 f_equal. lia.
Qed.

Lemma le_bytes_len k n : length (le_bytes k n) = k.
Proof. revert n. induction k; intros; cbn; [|rewrite IHk]; reflexivity. Qed.

Lemma flat_len {A} (f : nat -> list A) c : (forall i, length (f i) = c) -> forall k s,
  length (flat_map f (seq s k)) = (k * c)%nat.
Proof. intros H. induction k; intros; cbn; [|rewrite app_length, IHk, H]; reflexivity. Qed.

Lemma interleaved_len b nch w d n : sizes3 b -> 0 <= nch ->
  Z.of_nat (length (interleaved b nch w d n)) = nch * Z.max 0 (n - d) * (b / 8).
Proof.
  intros SB N. unfold interleaved. rewrite (flat_len _ (Z.to_nat nch * Z.to_nat (b / 8))%nat).
  - rewrite !Nat2Z.inj_mul. rewrite (Z2Nat.id nch) by lia. rewrite (Z2Nat.id (b / 8)) by (destruct SB as [-> | [-> | ->]]; vm_compute; congruence).
    assert (Z.of_nat (Z.to_nat (n - d)) = Z.max 0 (n - d)) by lia. rewrite H. ring.
  - intros i. apply flat_len. intros. apply le_bytes_len.
Qed.

Lemma sat_ok b n d nch map x p w :
  sizes3 b -> 0 <= d -> 0 <= nch <= 24 -> nch <= Z.of_nat (length map) -> inverse_map map nch p ->
  (forall c s, 0 <= c < nch -> d <= s < n -> float32 (x c s) /\ (b = 32 -> below_full_scale (x c s))) ->
  (forall j s, 0 <= j < nch -> d <= s < n -> word_of b (x (p j) s) (w j s)) ->
  exists o, samples_sat n b x map d nch = Some o /\
    po_bytes o = interleaved b nch w d n /\
    po_count o = Z.of_nat (length (po_bytes o)) /\
    po_delay o = Z.max 0 (d - n) /\
    length (po_map o) = length map /\
    (forall c, 0 <= c < nch -> dest (po_map o) c = dest map c) /\
    (forall c, nch <= c -> nth (Z.to_nat c) (po_map o) 0 = nth (Z.to_nat c) map 0).
Proof.
  intros SB D N LM INV FX W. unfold samples_sat.
  destruct (place_ok (Z.to_nat nch) 0 map (repeat 0 24)) as (map' & pos' & E1 & E2 & E3 & E4 & E5 & E6); try lia.
  { intros c H. destruct (INV c ltac:(lia)) as [[A B] _]. rewrite repeat_length. lia. }
  assert (PS : forall j, 0 <= j < nch -> get pos' j = Some (p j)).
  { intros j H. destruct (INV j H) as [_ [A B]]. rewrite <- B at 1. apply E5; [lia|].
    intros c' H' E. destruct (INV c' ltac:(lia)) as [[_ C1] _].
    destruct (INV (p j) ltac:(lia)) as [[_ C2] _]. rewrite E, C2 in C1. lia. }
  assert (PUT : put_samples (Z.to_nat (n - d)) d (Z.to_nat nch) b pos' x = Some (interleaved b nch w d n)).
  { unfold interleaved. rewrite (put_samples_ok b pos' x w); [reflexivity|exact SB|].
    intros j t H1 H2. exists (p j). split; [apply PS; lia|].
    destruct (INV j ltac:(lia)) as [_ [A _]].
    destruct (FX (p j) t A ltac:(lia)) as [F1 F2]. split; [exact F1|]. split; [exact F2|]. apply W; lia. }
  rewrite E1, PUT.
  assert (S8 : Z.shiftr b 3 = b / 8) by (rewrite Z.shiftr_div_pow2 by lia; reflexivity).
  assert (G : forall num dl, let o := mkPO (interleaved b nch w d n) map' dl (num * Z.shiftr b 3) in
     num = nch * Z.max 0 (n - d) -> dl = Z.max 0 (d - n) ->
    po_bytes o = interleaved b nch w d n /\ po_count o = Z.of_nat (length (po_bytes o)) /\
    po_delay o = Z.max 0 (d - n) /\ length (po_map o) = length map /\
    (forall c, 0 <= c < nch -> dest (po_map o) c = dest map c) /\
    (forall c, nch <= c -> nth (Z.to_nat c) (po_map o) 0 = nth (Z.to_nat c) map 0)).
  { intros num dl o HN HD. subst o. cbn [po_bytes po_count po_delay po_map].
    split; [reflexivity|]. split; [rewrite interleaved_len by (assumption || lia); rewrite HN, S8; ring|].
    split; [exact HD|]. split; [exact E2|]. split.
    - intros c H. unfold dest at 1. specialize (E4 c).
      rewrite (proj2 (Z.leb_le 0 c)), (proj2 (Z.ltb_lt c _)) in E4 by lia. cbn [andb] in E4.
      rewrite (get_nth _ _ _ (-1) E4). destruct (INV c H) as [[A _] _].
      destruct (Z.eqb_spec (dest map c) (-1)); [lia|reflexivity].
    - intros c H. specialize (E4 c). rewrite (proj2 (Z.ltb_ge c _)), andb_false_r in E4 by lia.
      destruct (Z.lt_ge_cases c (Z.of_nat (length map))) as [H'|H'].
      + rewrite (get_some map c 0) in E4 by lia. exact (get_nth _ _ _ 0 E4).
      + rewrite !nth_overflow by lia. reflexivity. }
  destruct (Z.leb_spec d n) as [H|H]; (eexists; split; [reflexivity|]); apply G; try lia.
  - f_equal. lia.
Qed.

Lemma sat_oob b n d nch map x c : 0 <= c < nch -> nch <= Z.of_nat (length map) ->
  ~ 0 <= dest map c < 24 -> samples_sat n b x map d nch = None.
Proof.
  intros H L O. unfold samples_sat.
  rewrite (place_oob (Z.to_nat nch) 0 map (repeat 0 24) c) by (rewrite ?repeat_length; lia).
  destruct (d <=? n); reflexivity.
Qed.

(** ** How many bytes are written, whatever the samples are *)
Lemma put_len b x l : sizes3 b -> put b x = Some l -> Z.of_nat (length l) = b / 8.
Proof.
  unfold put. intros [-> | [-> | ->]]; cbn [Z.eqb Pos.eqb]; unfold put16, put24, put32;
    match goal with |- context [to_int ?a ?b ?c] => destruct (to_int a b c) end; intros E; inversion E; reflexivity.
Qed.

Lemma put_channels_len b pos x : sizes3 b -> forall k ch l, put_channels k ch b pos x = Some l ->
  Z.of_nat (length l) = Z.of_nat k * (b / 8).
Proof.
  intros SB. induction k as [|k IH]; intros ch l; cbn [put_channels]; [intros E; inversion E; reflexivity|].
  destruct (get pos ch) as [c|]; [|discriminate]. destruct (put b (x c)) as [l1|] eqn:E1; [|discriminate].
  destruct (put_channels k (ch + 1) b pos x) as [l2|] eqn:E2; [|discriminate]. intros E. inversion E.
  rewrite app_length, Nat2Z.inj_add, (put_len _ _ _ SB E1), (IH _ _ E2). lia.
Qed.

Lemma put_samples_len b pos x nch : sizes3 b -> forall k s l, put_samples k s nch b pos x = Some l ->
  Z.of_nat (length l) = Z.of_nat k * (Z.of_nat nch * (b / 8)).
Proof.
  intros SB. induction k as [|k IH]; intros s l; cbn [put_samples]; [intros E; inversion E; reflexivity|].
  destruct (put_channels nch 0 b pos (fun c => x c s)) as [l1|] eqn:E1; [|discriminate].
  destruct (put_samples k (s + 1) nch b pos x) as [l2|] eqn:E2; [|discriminate]. intros E. inversion E.
  rewrite app_length, Nat2Z.inj_add, (put_channels_len _ _ _ SB _ _ _ E1), (IH _ _ E2). lia.
Qed.

Lemma sat_len b n d nch map x o : sizes3 b -> 0 <= nch -> 0 <= d -> samples_sat n b x map d nch = Some o ->
  po_count o = Z.of_nat (length (po_bytes o)) /\ po_count o = Z.max 0 (n - d) * nch * (b / 8) /\
  po_delay o = Z.max 0 (d - n).
Proof.
  intros SB N D. unfold samples_sat.
  assert (S8 : Z.shiftr b 3 = b / 8) by (rewrite Z.shiftr_div_pow2 by lia; reflexivity). rewrite S8.
  destruct (Z.leb_spec d n) as [H|H];
  (destruct (place (Z.to_nat nch) 0 map (repeat 0 24)) as [[map' pos']|]; [|discriminate];
   destruct (put_samples (Z.to_nat (n - d)) d (Z.to_nat nch) b pos' x) as [l|] eqn:E; [|discriminate];
   intros G; inversion G; clear G; cbn [po_count po_bytes po_delay];
   rewrite (put_samples_len _ _ _ _ SB _ _ _ E), (Z2Nat.id nch) by lia).
  - rewrite (Z2Nat.id (n - d)), (Z.max_r 0 (n - d)), (Z.max_l 0 (d - n)) by lia. split; [ring|]. split; [ring|reflexivity].
  - replace (Z.of_nat (Z.to_nat (n - d))) with 0 by lia. rewrite (Z.max_l 0 (n - d)), (Z.max_r 0 (d - n)) by lia.
    split; [ring|]. split; [ring|reflexivity].
Qed.

Lemma units_len b n nch : sizes3 b -> 0 <= nch -> 0 <= n -> forall us map d bs c, 0 <= d ->
  put_units us n b map d nch = Some (bs, c) ->
  c = Z.of_nat (length bs) /\ c = Z.max 0 (Z.of_nat (length us) * n - d) * nch * (b / 8).
Proof.
  intros SB N NN. induction us as [|x us IH]; intros map d bs c D; cbn [put_units].
  - intros E; inversion E. cbn [length Z.of_nat]. rewrite Z.max_l by lia. split; ring.
  - destruct (samples_sat n b x map d nch) as [o|] eqn:E1; [|discriminate].
    destruct (put_units us n b (po_map o) (po_delay o) nch) as [[bs' c']|] eqn:E2; [|discriminate].
    intros E; inversion E; clear E.
    destruct (sat_len _ _ _ _ _ _ _ SB N D E1) as (A1 & A2 & A3).
    assert (D' : 0 <= po_delay o) by lia.
    destruct (IH _ _ _ _ D' E2) as [B1 B2].
    rewrite app_length, Nat2Z.inj_add. split; [lia|].
    rewrite A3 in B2. change (length (x :: us)) with (S (length us)).
    assert (Q : Z.max 0 (Z.of_nat (S (length us)) * n - d) =
      Z.max 0 (n - d) + Z.max 0 (Z.of_nat (length us) * n - Z.max 0 (d - n))).
    { rewrite Nat2Z.inj_succ. assert (0 <= Z.of_nat (length us) * n) by nia. lia. }
    rewrite Q. rewrite A2, B2. ring.
Qed.
