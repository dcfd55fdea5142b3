(** * Lem_Hoa: HOA configuration and rendering matrix *)

From Coq Require Import ZArith List Lia Bool.
From Verif Require Import Bits BitBuf Prog Asi Escape Wp Wlp Cicp Hoa Leaf.
Import ListNotations.
Open Scope Z_scope.

(** ** ceil(log2) *)
Lemma clog_loop_spec : forall fuel c inp,
  0 <= c -> (0 < c -> 2 ^ (c - 1) < inp) -> inp <= 2 ^ (c + Z.of_nat fuel) ->
  let r := clog_loop fuel c inp in 0 <= r /\ inp <= 2 ^ r /\ (0 < r -> 2 ^ (r - 1) < inp).
Proof.
  induction fuel as [|f IH]; intros c inp Hc Hl Hu; cbn [clog_loop].
  - cbn in Hu. rewrite Z.add_0_r in Hu. auto.
  - destruct (Z.ltb_spec (2 ^ c) inp).
    + apply IH; [lia| |].
      * intros _. replace (c + 1 - 1) with c by lia. exact H.
      * replace (c + 1 + Z.of_nat f) with (c + Z.of_nat (S f)) by lia. exact Hu.
    + auto.
Qed.

Lemma clog2_spec n : n <= 2 ^ 31 -> 0 <= clog2 n /\ n <= 2 ^ clog2 n /\ (0 < clog2 n -> 2 ^ (clog2 n - 1) < n).
Proof. intros H. apply clog_loop_spec; [lia|lia|exact H]. Qed.

Lemma clog2_up n : n <= 2 ^ 31 -> clog2 n = Z.log2_up n.
Proof.
  intros H. destruct (clog2_spec n H) as (H1 & H2 & H3).
  destruct (Z.ltb_spec 0 (clog2 n)) as [Hp|Hp].
  - symmetry. specialize (H3 Hp). apply Z.log2_up_unique; [lia|].
    replace (Z.pred (clog2 n)) with (clog2 n - 1) by lia. lia.
  - assert (clog2 n = 0) as E by lia. rewrite E in *. symmetry. apply Z.log2_up_eqn0. change (2 ^ 0) with 1 in H2. lia.
Qed.

Lemma clog2_le n k : 0 <= k <= 31 -> n <= 2 ^ k -> 0 <= clog2 n <= k.
Proof.
  intros Hk H. assert (2 ^ k <= 2 ^ 31) by (apply Z.pow_le_mono_r; lia).
  rewrite clog2_up by lia. split; [apply Z.log2_up_nonneg|].
  transitivity (Z.log2_up (2 ^ k)); [apply Z.log2_up_le_mono; lia|].
  rewrite Z.log2_up_pow2; lia.
Qed.

(** ** The HOA configuration *)
Lemma wp_hoa_esc (Q : Z -> Prop) : (forall v, 0 <= v -> Q v) -> wp hoa_esc Q.
Proof. intros H. unfold hoa_esc. wps; apply H; lia. Qed.

Lemma wp_pred_ids bits n : forall fuel i (Q : Z -> Prop),
  1 <= i -> (1 <= bits /\ n <= i + Z.of_nat fuel - 1 \/ n <= 1 /\ 3 <= i + Z.of_nat fuel) -> 0 <= bits ->
  1 <= Z.of_nat fuel ->
  (forall j, i <= j -> (forall k, i <= k < j -> k * bits + Z.log2_up k < n) -> n <= j * bits + Z.log2_up j -> Q j) ->
  n <= 2 ^ 20 -> i + Z.of_nat fuel <= 2 ^ 31 ->
  wp (pred_ids fuel i bits n) Q.
Proof.
  induction fuel as [|f IH]; intros i Q Hi Hn Hb0 Hf HQ Hn20 H31; cbn [pred_ids]; [lia|].
  rewrite clog2_up by lia.
  destruct (Z.ltb_spec (i * bits + Z.log2_up i) n) as [Hlt|Hge].
  - assert (L0 := Z.log2_up_nonneg i).
    assert (Hf' : 1 <= Z.of_nat f).
    { destruct f; [exfalso|lia]. destruct Hn as [Hn|[Hn1 Hn2]].
      - nia.
      - assert (2 <= i) by lia. assert (1 <= Z.log2_up i); [|nia].
        change 1 with (Z.log2_up 2). apply Z.log2_up_le_mono. lia. }
    apply IH; try lia.
    intros j Hj Hk Hnj. apply HQ; [lia| |exact Hnj].
    intros k Hk'. destruct (Z.eq_dec k i) as [->|]; [exact Hlt|]. apply Hk. lia.
  - apply HQ; [lia| |lia]. intros k Hk. lia.
Qed.

(** What an accepted HOA configuration satisfies, with the widths of the standard. *)
Record hoa_ok (h0 h : hoac) : Prop := {
  ho_order : 0 <= h_order h <= 6;
  ho_coef : h_coef h = (h_order h + 1) ^ 2;
  ho_ntc : h_ntc h = h_ntc h0;
  ho_amb : -1 <= h_minamb h <= h_order h;
  ho_ambn : (h_minamb h + 1) ^ 2 <= h_ntc h \/ h_minamb h = -1;
  ho_minco : h_minco h = (h_minamb h + 1) ^ 2;
  ho_addl : h_addl h = Z.max 0 (h_ntc h - h_minco h);
  ho_maxco : h_maxco h = (h_maxord h + 1) ^ 2;
  ho_maxadd : h_maxadd h = h_maxco h - h_minco h /\ 0 <= h_maxadd h;
  ho_full : h_minamb h = h_order h -> h_maxord h = h_order h;
  ho_dob : h_minamb h < h_order h ->
     h_dob h = Z.log2_up (h_order h - h_minamb h + 1) /\ 0 <= h_do h < 2 ^ h_dob h /\
     h_maxord h = h_do h + h_minamb h;
  ho_vqb : h_vqb h = Z.log2_up (Z.log2_up (h_coef h + 1)) /\ 0 <= h_nvv h < 2 ^ h_vqb h;
  ho_aab : h_aab h = Z.log2_up (h_maxadd h);
  ho_apb : h_apb h = Z.log2_up (h_coef h);
  ho_napb : exists i, 1 <= i /\ h_napb h = Z.log2_up (Z.max 1 (i - 1)) /\
     h_coef h <= i * h_apb h + Z.log2_up i /\
     (forall k, 1 <= k < i -> k * h_apb h + Z.log2_up k < h_coef h);
  ho_mgc : 0 <= h_mgc h <= 7;
  ho_gcb : h_gcb h = Z.log2_up (Z.log2_up (3 * h_coef h / 2) + h_mgc h + 1);
  ho_cvv : 0 <= h_cvv h <= 2;
  ho_off : h_off h = if h_cvv h =? 0 then 1 else h_minco h + 1;
  ho_vvl : h_vvl h = h_coef h - h_off h + 1;
  ho_il : h_il h = Z.log2_up (h_coef h);
  ho_sit : In (h_sit h) [0; 64; 128; 256; 384; 512; 768; 1024] }.

Lemma sq_le a n : 0 <= a -> 0 <= n -> a <= Z.sqrt n -> a ^ 2 <= n.
Proof. intros Ha Hn H. destruct (Z.sqrt_spec n Hn). rewrite Z.pow_2_r. nia. Qed.

Lemma wp_fill_config h0 : 0 <= h_ntc h0 ->
  wp (fill_config h0) (fun r => match r with Ok h => hoa_ok h0 h | Er _ => True end).
Proof.
  intros Hntc. unfold fill_config.
  apply wp_bindi, wp_hoa_esc. intros order Ho.
  destruct (Z.ltb_spec 6 order); [exact I|]. cbv zeta.
  apply wp_bindi. wp1. apply wp_bindi. wp1. apply wp_bindi.
  apply (wp_mono _ (fun _ => True)); [|destruct (v0 =? 0); wps; exact I]. intros ref _.
  apply wp_bindi, wp_hoa_esc. intros va Hva.
  destruct (Z.ltb_spec (Z.min (Z.sqrt (h_ntc h0) - 1) order) (va - 1)) as [|Hamb]; [exact I|].
  do 4 (apply wp_bindi; wp1). rename v1 into single, v2 into cit, v3 into sim, v4 into cvv.
  destruct (Z.leb_spec 3 cvv); [exact I|]. do 2 (apply wp_bindi; wp1). rename v1 into mgc, v2 into fli.
  destruct (Z.leb_spec 3 fli); [exact I|]. destruct (negb (h_ccfl h0 =? 1024)); [exact I|].
  apply wp_bindi, wp_aget; [cbn; lia|]. intros sit Hsit. apply nth_error_In in Hsit.
  assert (Hc : 1 <= (order + 1) * (order + 1) <= 49) by nia.
  apply wp_bindi.
  apply (wp_mono _ (fun r => let '(dob, dord, maxord) := r in
    (va - 1 = order -> maxord = order) /\
    (va - 1 < order -> dob = Z.log2_up (order - (va - 1) + 1) /\ 0 <= dord < 2 ^ dob /\ maxord = dord + (va - 1)) /\
    -1 <= maxord <= 14)).
  2:{ destruct (Z.leb_spec order (va - 1)).
      - cbn. lia.
      - assert (L := clog2_le (order - (va - 1) + 1) 3 ltac:(lia) ltac:(change (2 ^ 3) with 8; lia)).
        apply wp_bindi, wp_rd; [lia|]. intros d Hd.
        assert (2 ^ clog2 (order - (va - 1) + 1) <= 2 ^ 3) by (apply Z.pow_le_mono_r; lia).
        change (2 ^ 3) with 8 in *. apply wp_ret.
        rewrite <- clog2_up by (change (2 ^ 31) with 2147483648; lia). repeat split; lia. }
  intros [[dob dord] maxord] (M1 & M2 & M3).
  destruct (Z.ltb_spec ((maxord + 1) * (maxord + 1) - (va - 1 + 1) * (va - 1 + 1)) 0); [exact I|].
  set (coef := (order + 1) * (order + 1)) in *.
  assert (L1 := clog2_le (coef + 1) 6 ltac:(lia) ltac:(change (2 ^ 6) with 64; lia)).
  assert (L2 := clog2_le (clog2 (coef + 1)) 3 ltac:(lia) ltac:(change (2 ^ 3) with 8; lia)).
  apply wp_bindi, wp_rd; [lia|]. intros nvv Hnvv.
  destruct (7 <? nvv); [exact I|].
  apply wp_bindi. apply (wp_mono _ (fun _ => True)); [|destruct (va - 1 =? 1); wps; exact I]. intros psd _.
  destruct (_ && _); [exact I|]. do 3 (apply wp_bindi; wp1).
  destruct (0 <? v3); [exact I|]. apply wp_bindi. wp1. destruct (0 <? v4); [exact I|].
  assert (L3 := clog2_le coef 6 ltac:(lia) ltac:(change (2 ^ 6) with 64; lia)).
  apply wp_bindi, wp_pred_ids.
  all: try lia.
  { destruct (Z.eq_dec coef 1); [right; lia|]. left. split; [|lia].
    destruct (clog2_spec coef) as (P1 & P2 & P3); [change (2 ^ 31) with 2147483648; lia|].
    destruct (Z.eq_dec (clog2 coef) 0) as [E|]; [rewrite E in P2; change (2 ^ 0) with 1 in P2; lia|lia]. }
  intros i Hi Hk Hn. apply wp_ret.
  assert (U : forall n, n <= 1000000 -> clog2 n = Z.log2_up n).
  { intros n Hn'. apply clog2_up. change (2 ^ 31) with 2147483648. lia. }
  assert (Hi2 : i <= 1000).
  { destruct (Z.leb_spec i 1000); [assumption|exfalso].
    destruct (Z.eq_dec (clog2 coef) 0) as [E0|].
    - assert (K := Hk 2 ltac:(lia)). rewrite E0 in K. change (Z.log2_up 2) with 1 in K.
      destruct (clog2_spec coef) as (P1 & P2 & P3); [change (2 ^ 31) with 2147483648; lia|].
      rewrite E0 in P2. change (2 ^ 0) with 1 in P2. lia.
    - assert (K := Hk 100 ltac:(lia)). assert (Z0 := Z.log2_up_nonneg 100). nia. }
  constructor; cbn [h_order h_coef h_ntc h_minamb h_minco h_addl h_maxco h_maxadd h_maxord h_dob h_do h_vqb h_nvv
    h_aab h_apb h_napb h_mgc h_gcb h_cvv h_off h_vvl h_il h_sit].
  - lia.
  - unfold coef. rewrite Z.pow_2_r. reflexivity.
  - reflexivity.
  - lia.
  - destruct (Z.eq_dec va 0); [right; lia|left]. apply sq_le; lia.
  - rewrite Z.pow_2_r. reflexivity.
  - reflexivity.
  - rewrite Z.pow_2_r. reflexivity.
  - split; [reflexivity|lia].
  - exact M1.
  - intros K. destruct (M2 K) as (K1 & K2 & K3). auto.
  - rewrite <- (U (coef + 1)) by lia. split; [apply U; lia|exact Hnvv].
  - apply U. nia.
  - apply U. lia.
  - exists i. split; [lia|]. split.
    + destruct (Z.ltb_spec (i - 1) 1).
      * rewrite Z.max_l by lia. reflexivity.
      * rewrite Z.max_r by lia. apply U. lia.
    + split; [exact Hn|]. intros k Hk'. apply Hk. exact Hk'.
  - lia.
  - assert (3 * coef / 2 <= 1000) by (apply Z.div_le_upper_bound; lia).
    assert (0 <= 3 * coef / 2) by (apply Z.div_pos; lia).
    assert (L4 := clog2_le (3 * coef / 2) 10 ltac:(lia) ltac:(change (2 ^ 10) with 1024; lia)).
    rewrite <- (U (3 * coef / 2)) by lia. apply U. lia.
  - lia.
  - assert (C : cvv = 0 \/ cvv = 1 \/ cvv = 2) by lia. destruct C as [->|[->| ->]]; reflexivity.
  - assert (C : cvv = 0 \/ cvv = 1 \/ cvv = 2) by lia. destruct C as [->|[->| ->]]; reflexivity.
  - apply U. lia.
  - exact Hsit.
Qed.
