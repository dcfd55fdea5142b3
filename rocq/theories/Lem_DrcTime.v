(** * Lem_DrcTime: the table of time differences *)
From Coq Require Import ZArith List Lia Bool ZifyBool.
From Verif Require Import Bits BitBuf Prog Wp Asi Leaf Loud Config DrcCfg DrcGain Lem_DrcUv Spec_DrcGain.
Import ListNotations.
Open Scope Z_scope.

(** ** Filling the table *)
Lemma tput_in l i e : 0 <= i < zlen l -> exists l', tput (Done l) i e = Done l' /\ zlen l' = zlen l /\
  forall k, nth_error l' k = if Z.of_nat k =? i then Some e else nth_error l k.
Proof.
  intros Hi. cbn [tput].
  replace ((0 <=? i) && (i <? zlen l)) with true by (symmetry; apply andb_true_intro; split; [apply Z.leb_le|apply Z.ltb_lt]; lia).
  eexists; split; [reflexivity|].
  unfold zlen in *. assert (Hn : (Z.to_nat i < length l)%nat) by lia.
  split.
  - rewrite app_length, firstn_length. cbn [length]. rewrite skipn_length. lia.
  - intros k. destruct (Z.eqb_spec (Z.of_nat k) i) as [<-|Hk].
    + rewrite Nat2Z.id in *. rewrite nth_error_app2; rewrite firstn_length; [|lia].
      replace (k - Nat.min k (length l))%nat with 0%nat by lia. reflexivity.
    + destruct (Nat.lt_ge_cases k (Z.to_nat i)).
      * rewrite nth_error_app1 by (rewrite firstn_length; lia). rewrite <- (firstn_skipn (Z.to_nat i) l) at 2.
        rewrite nth_error_app1 by (rewrite firstn_length; lia). reflexivity.
      * rewrite nth_error_app2; rewrite firstn_length; [|lia].
        destruct (k - Nat.min (Z.to_nat i) (length l))%nat as [|q] eqn:Q; [lia|]. cbn [nth_error].
        rewrite <- (firstn_skipn (S (Z.to_nat i)) l) at 2. rewrite nth_error_app2; rewrite firstn_length; [|lia].
        f_equal. lia.
Qed.

Lemma down_in base g f (Hf1 : forall n, fst (f n) = n + base) (Hf2 : forall n, snd (f n) = g n) : forall k l, 0 <= base -> base + Z.of_nat k < zlen l ->
  exists l', down k f (Done l) = Done l' /\ zlen l' = zlen l /\
  forall i, nth_error l' i = if (base <=? Z.of_nat i) && (Z.of_nat i <=? base + Z.of_nat k)
                             then Some (g (Z.of_nat i - base)) else nth_error l i.
Proof.
  induction k as [|k IH]; intros l Hb Hl.
  - destruct (tput_in l (Z.of_nat 0 + base) (g (Z.of_nat 0))) as (l' & E & L & N); [lia|].
    exists l'. cbn [down]. rewrite Hf1, Hf2, E. split; [reflexivity|]. split; [exact L|].
    intros i. rewrite N. destruct (Z.eqb_spec (Z.of_nat i) (Z.of_nat 0 + base)).
    + replace ((base <=? Z.of_nat i) && (Z.of_nat i <=? base + Z.of_nat 0)) with true by lia.
      replace (Z.of_nat i - base) with (Z.of_nat 0) by lia. reflexivity.
    + replace ((base <=? Z.of_nat i) && (Z.of_nat i <=? base + Z.of_nat 0)) with false by lia. reflexivity.
  - destruct (tput_in l (Z.of_nat (S k) + base) (g (Z.of_nat (S k)))) as (l1 & E & L & N); [lia|].
    destruct (IH l1) as (l' & E' & L' & N'); [lia|lia|].
    exists l'. cbn [down]. rewrite Hf1, Hf2, E. split; [exact E'|]. split; [lia|].
    intros i. rewrite N', N.
    destruct (Z.eqb_spec (Z.of_nat i) (Z.of_nat (S k) + base)) as [Ei|Ei].
    + replace ((base <=? Z.of_nat i) && (Z.of_nat i <=? base + Z.of_nat k)) with false by lia.
      replace ((base <=? Z.of_nat i) && (Z.of_nat i <=? base + Z.of_nat (S k))) with true by lia.
      f_equal. f_equal. lia.
    + destruct ((base <=? Z.of_nat i) && (Z.of_nat i <=? base + Z.of_nat k)) eqn:C1;
      destruct ((base <=? Z.of_nat i) && (Z.of_nat i <=? base + Z.of_nat (S k))) eqn:C2; try reflexivity; lia.
Qed.

Lemma down_out base f (Hf1 : forall n, fst (f n) = n + base) : forall k l, zlen l <= base + Z.of_nat k -> down k f (Done l) = UB UOob.
Proof.
  assert (U : forall k f, down k f (UB UOob) = UB UOob) by (induction k; intros; cbn; auto).
  intros k l H.
  assert (T : forall e, tput (Done l) (Z.of_nat k + base) e = UB UOob).
  { intros e. cbn [tput]. destruct (Z.ltb_spec (Z.of_nat k + base) (zlen l)); [lia|]. rewrite andb_false_r. reflexivity. }
  destruct k; cbn [down]; rewrite Hf1, T; auto.
Qed.

Lemma time_width_spec nmax : 1 <= nmax <= 1024 -> time_width 30 1 nmax = Z.log2_up (2 * nmax).
Proof.
  intros H.
  assert (G : forall fuel v, 1 <= v -> (2 ^ (v - 1) < 2 * nmax) -> 2 * nmax <= 2 ^ (v + Z.of_nat fuel) ->
    let r := time_width fuel v nmax in 1 <= r /\ 2 ^ (r - 1) < 2 * nmax <= 2 ^ r).
  { induction fuel as [|f IH]; intros v Hv Hl Hu; cbn [time_width].
    - cbn zeta. rewrite Z.add_0_r in Hu. lia.
    - destruct (Z.ltb_spec (2 ^ v) (2 * nmax)).
      + apply IH; [lia| |]. { replace (v + 1 - 1) with v by lia. lia. }
        replace (v + 1 + Z.of_nat f) with (v + Z.of_nat (S f)) by lia. exact Hu.
      + cbn zeta. lia. }
  specialize (G 30%nat 1). cbn zeta in G. destruct G as (G1 & G2 & G3); [lia|change (2 ^ (1 - 1)) with 1; lia|change (1 + Z.of_nat 30) with 31; change (2 ^ 31) with 2147483648; lia|].
  set (r := time_width 30 1 nmax) in *.
  symmetry. apply Z.log2_up_unique; [lia|].
  replace (Z.pred r) with (r - 1) by lia. lia.
Qed.

Definition time_entry (nmax i : Z) : entry :=
  if i =? 0 then (-1, -1, -1)
  else if i =? 1 then (2, 0, 1)
  else if i <=? 5 then (4, 4 + (i - 2), i)
  else if i <=? 13 then (5, 16 + (i - 6), i)
  else (2 + Z.log2_up (2 * nmax), 3 * 2 ^ Z.log2_up (2 * nmax) + (i - 14), i).

Lemma create_in old nmax : zlen old = 526 -> 7 <= nmax <= 262 ->
  exists tb, create_time_tbl old nmax = Done tb /\ zlen tb = 526 /\
  forall i, nth_error tb i = if Z.of_nat i <=? 2 * nmax then Some (time_entry nmax (Z.of_nat i)) else nth_error old i.
Proof.
  intros Hl Hn. unfold create_time_tbl. cbv zeta. rewrite time_width_spec by lia.
  replace (2 * nmax - 14 <? 0) with false by lia.
  destruct (down_in 14 (fun n => (2 + Z.log2_up (2 * nmax), 3 * 2 ^ Z.log2_up (2 * nmax) + n, n + 14)) (fun n => (n + 14, (fun n => (2 + Z.log2_up (2 * nmax), 3 * 2 ^ Z.log2_up (2 * nmax) + n, n + 14)) n)) ltac:(reflexivity) ltac:(reflexivity) (Z.to_nat (2 * nmax - 14)) old)
    as (t1 & E1 & L1 & N1); [lia|lia|].
  rewrite E1. clear E1.
  destruct (down_in 6 (fun n => (5, 16 + n, n + 6)) (fun n => (n + 6, (fun n => (5, 16 + n, n + 6)) n)) ltac:(reflexivity) ltac:(reflexivity) 7 t1) as (t2 & E2 & L2 & N2); [lia|lia|].
  rewrite E2. clear E2.
  destruct (down_in 2 (fun n => (4, 4 + n, n + 2)) (fun n => (n + 2, (fun n => (4, 4 + n, n + 2)) n)) ltac:(reflexivity) ltac:(reflexivity) 3 t2) as (t3 & E3 & L3 & N3); [lia|lia|].
  rewrite E3. clear E3.
  destruct (tput_in t3 1 (2, 0, 1)) as (t4 & E4 & L4 & N4); [lia|]. rewrite E4. clear E4.
  destruct (tput_in t4 0 (-1, -1, -1)) as (t5 & E5 & L5 & N5); [lia|]. rewrite E5. clear E5.
  exists t5. split; [reflexivity|]. split; [lia|].
  intros i. rewrite N5, N4, N3, N2, N1. unfold time_entry.
  destruct (Z.leb_spec (Z.of_nat i) (2 * nmax)) as [Hi|Hi].
  - destruct (Z.eqb_spec (Z.of_nat i) 0); [reflexivity|].
    destruct (Z.eqb_spec (Z.of_nat i) 1); [reflexivity|].
    destruct (Z.leb_spec (Z.of_nat i) 5).
    { replace ((2 <=? Z.of_nat i) && (Z.of_nat i <=? 2 + Z.of_nat 3)) with true by lia.
      repeat f_equal; lia. }
    replace ((2 <=? Z.of_nat i) && (Z.of_nat i <=? 2 + Z.of_nat 3)) with false by lia.
    destruct (Z.leb_spec (Z.of_nat i) 13).
    { replace ((6 <=? Z.of_nat i) && (Z.of_nat i <=? 6 + Z.of_nat 7)) with true by lia.
      repeat f_equal; lia. }
    replace ((6 <=? Z.of_nat i) && (Z.of_nat i <=? 6 + Z.of_nat 7)) with false by lia.
    replace ((14 <=? Z.of_nat i) && (Z.of_nat i <=? 14 + Z.of_nat (Z.to_nat (2 * nmax - 14)))) with true by lia.
    replace (Z.of_nat i - 14 + 14) with (Z.of_nat i) by lia. reflexivity.
  - replace (Z.of_nat i =? 0) with false by lia. replace (Z.of_nat i =? 1) with false by lia.
    replace ((2 <=? Z.of_nat i) && (Z.of_nat i <=? 2 + Z.of_nat 3)) with false by lia.
    replace ((6 <=? Z.of_nat i) && (Z.of_nat i <=? 6 + Z.of_nat 7)) with false by lia.
    replace ((14 <=? Z.of_nat i) && (Z.of_nat i <=? 14 + Z.of_nat (Z.to_nat (2 * nmax - 14)))) with false by lia.
    reflexivity.
Qed.

Lemma create_out old nmax : zlen old = 526 -> 263 <= nmax -> create_time_tbl old nmax = UB UOob.
Proof.
  intros Hl Hn. unfold create_time_tbl. cbv zeta. replace (2 * nmax - 14 <? 0) with false by lia.
  rewrite (down_out 14) by (reflexivity || lia).
  assert (U : forall k f, down k f (UB UOob) = UB UOob) by (induction k; intros; cbn; auto).
  rewrite !U. reflexivity.
Qed.

(** ** The time resolution *)
Lemma delta_tmin_cases rate : 1000 <= rate <= 48000 ->
  (rate < 3000 /\ delta_tmin rate = 2) \/ (3000 <= rate < 7000 /\ delta_tmin rate = 4) \/ (7000 <= rate < 15000 /\ delta_tmin rate = 8)
  \/ (15000 <= rate < 31000 /\ delta_tmin rate = 16) \/ (31000 <= rate /\ delta_tmin rate = 32).
Proof.
  intros H. unfold delta_tmin.
  assert (B : 1 <= (rate + 1000) / 2000 <= 24).
  { split; [apply Z.div_le_lower_bound; lia|]. apply Z.lt_succ_r. apply Z.div_lt_upper_bound; lia. }
  assert (M := Z.mul_div_le (rate + 1000) 2000 ltac:(lia)).
  assert (U := Z.mul_succ_div_gt (rate + 1000) 2000 ltac:(lia)).
  remember ((rate + 1000) / 2000) as lb.
  replace 31%nat with (6 + 25)%nat by reflexivity. cbn [double_until plus].
  repeat match goal with |- context [?a <=? lb] => destruct (Z.leb_spec a lb) end; lia.
Qed.

(** What the reader relies on: entry 1 is the shortest code, some later entry is empty. *)
Definition table_good (tb : list entry) : Prop :=
  zlen tb = 526 /\ nth_error tb 1 = Some (2, 0, 1) /\
  (exists i0, (1 < i0)%nat /\ nth_error tb i0 = Some (0, 0, 0)) /\
  (forall i sz c v, nth_error tb i = Some (sz, c, v) -> sz <= 24 /\ (1 <= sz -> 1 <= v <= 512)).

Definition table_for (nmax : Z) (tb : list entry) : Prop :=
  zlen tb = 526 /\ forall i, (Z.of_nat i <= 2 * nmax) -> nth_error tb i = Some (time_entry nmax (Z.of_nat i)).

Definition table_inv (tb : list entry) (tmin : Z) : Prop :=
  (tmin = 4 \/ tmin = 8 \/ tmin = 16 \/ tmin = 32) /\
  table_for (1024 / tmin) tb /\
  (forall i, (513 <= i < 526)%nat -> nth_error tb i = Some (0, 0, 0)) /\
  (forall i sz c v, nth_error tb i = Some (sz, c, v) -> sz <= 24 /\ (1 <= sz -> 1 <= v <= 512)).

Lemma log2_up_small n : 1 <= n <= 512 -> 0 <= Z.log2_up n <= 9.
Proof.
  intros H. split; [apply Z.log2_up_nonneg|].
  change 9 with (Z.log2_up 512). apply Z.log2_up_le_mono. lia.
Qed.

Lemma init_inv old rate tm tb : zlen old = 526 -> 3000 <= rate <= 48000 ->
  (forall i, (513 <= i < 526)%nat -> nth_error old i = Some (0, 0, 0)) ->
  (forall i sz c v, nth_error old i = Some (sz, c, v) -> sz <= 24 /\ (1 <= sz -> 1 <= v <= 512)) ->
  init_dec old rate = Done (Ok (tm, tb)) -> table_inv tb tm.
Proof.
  intros Hl Hr Hz Hv H. unfold init_dec in H. replace (rate <? 1000) with false in H by lia. cbv zeta in H.
  assert (T : delta_tmin rate = 4 \/ delta_tmin rate = 8 \/ delta_tmin rate = 16 \/ delta_tmin rate = 32)
    by (destruct (delta_tmin_cases rate); lia).
  set (d := delta_tmin rate) in *.
  assert (N : 32 <= FRAME_MAX / d <= 256) by (destruct T as [-> | [-> | [-> | ->]]]; vm_compute; split; discriminate).
  destruct (create_in old (FRAME_MAX / d) Hl ltac:(lia)) as (t & E & L & F). rewrite E in H.
  injection H as <- <-. split; [exact T|]. change 1024 with FRAME_MAX.
  split; [split; [exact L|]|split].
  - intros i Hi. rewrite F. destruct (Z.leb_spec (Z.of_nat i) (2 * (FRAME_MAX / d))); [reflexivity|lia].
  - intros i Hi. rewrite F. destruct (Z.leb_spec (Z.of_nat i) (2 * (FRAME_MAX / d))); [lia|auto].
  - intros i sz c v. rewrite F. destruct (Z.leb_spec (Z.of_nat i) (2 * (FRAME_MAX / d))); [|apply Hv].
    assert (W := log2_up_small (2 * (FRAME_MAX / d)) ltac:(lia)).
    clear T F Hv Hz. remember (Z.log2_up (2 * (FRAME_MAX / d))) as w. remember (FRAME_MAX / d) as nm.
    intros G. injection G as G.
    assert (E1 : esize (time_entry nm (Z.of_nat i)) = sz) by (rewrite G; reflexivity).
    assert (E3 : evalue (time_entry nm (Z.of_nat i)) = v) by (rewrite G; reflexivity).
    clear G. unfold time_entry in E1, E3. rewrite <- Heqw in E1, E3.
    repeat match type of E1 with context [if ?b then _ else _] => destruct b eqn:? end; unfold esize, evalue in *; cbn [fst snd] in *; lia.
Qed.

Lemma table_of_inv tb tm : table_of tb tm -> table_inv tb tm.
Proof.
  induction 1 as [rate tm tb Hr E|old tm0 rate tm tb Ho IH Hr E].
  - apply (init_inv zero_table rate); auto.
    + intros i Hi. unfold zero_table. rewrite nth_error_repeat by lia. reflexivity.
    + intros i sz c v G. apply nth_error_In, repeat_spec in G. injection G; intros; subst. lia.
  - destruct IH as (_ & (L & _) & Z0 & V). apply (init_inv old rate); auto.
Qed.

Lemma inv_good tb tm : table_inv tb tm -> table_good tb.
Proof.
  intros (T & (L & F) & Z0 & V). split; [exact L|]. split; [|split; [exists 513%nat; split; [lia|apply Z0; lia]|exact V]].
  rewrite F; [reflexivity|]. destruct T as [-> | [-> | [-> | ->]]]; vm_compute; discriminate.
Qed.

(** ** Reading any bits with a good table *)
Lemma uv_bits_wp (Q : Z * Z -> Prop) : forall fuel sz k nb code, 0 <= k ->
  (forall nb' code', nb <= nb' -> (nb <= sz -> nb' <= sz) -> (k < sz - nb -> (0 < fuel)%nat -> nb < nb') -> Q (nb', code')) ->
  wp (uv_bits fuel sz k nb code) Q.
Proof.
  induction fuel as [|f IH]; intros sz k nb code Hk HQ; cbn [uv_bits].
  - apply HQ; lia.
  - destruct (Z.ltb_spec k (sz - nb)).
    + wp1. wp1. apply IH; [lia|]. intros nb' code' L1 L2 _. apply HQ; lia.
    + apply HQ; lia.
Qed.

Section Wp.
Variables (tb : list entry) (i0 : nat).
Hypothesis Hl : zlen tb = 526.
Hypothesis H1 : nth_error tb 1 = Some (2, 0, 1).
Hypothesis Hi0 : (1 < i0)%nat.
Hypothesis H0 : nth_error tb i0 = Some (0, 0, 0).
Hypothesis Hv : forall i sz c v, nth_error tb i = Some (sz, c, v) -> sz <= 24 /\ (1 <= sz -> 1 <= v <= 512).

Lemma i0_in : (i0 < length tb)%nat.
Proof. apply nth_error_Some. congruence. Qed.

Lemma uv_inner_wp : forall fuel i nb code (Q : uvstep -> Prop), (i <= i0)%nat -> (i0 - i < fuel)%nat -> 1 <= nb ->
  (forall v, 1 <= v <= 512 -> Q (UFound v)) ->
  (forall i' sz c v, (i <= i' <= i0)%nat -> nth_error tb i' = Some (sz, c, v) -> nb <> sz -> Q (UMove (Z.of_nat i'))) ->
  wp (uv_inner fuel tb (Z.of_nat i) nb code) Q.
Proof.
  assert (I := i0_in).
  induction fuel as [|f IH]; intros i nb code Q Hi Hf Hn QF QM; [lia|]. cbn [uv_inner]. wp1.
  destruct (nth_error tb i) as [[[sz c] v]|] eqn:E; [|apply nth_error_None in E; lia].
  unfold aget. replace (0 <=? Z.of_nat i) with true by lia. rewrite Nat2Z.id, E. cbn [wp].
  destruct (Z.eqb_spec nb sz) as [->|Hne].
  - destruct (Hv i sz c v E) as (_ & V).
    destruct (code =? c); [apply QF; auto|].
    assert (i <> i0) by (intros ->; rewrite H0 in E; injection E; intros; lia).
    unfold zlen. destruct (Z.ltb_spec (Z.of_nat (length tb)) (Z.of_nat i + 1)); [lia|].
    replace (Z.of_nat i + 1) with (Z.of_nat (S i)) by lia. apply IH; auto; try lia.
    intros i' s' c' v' ? ? ?. apply (QM i' s' c' v'); auto; lia.
  - apply (QM i sz c v); auto.
Qed.

Lemma uv_outer_wp (Q : res Z -> Prop) : (forall e, e <> 0 -> Q (Er e)) -> (forall v, 1 <= v <= 512 -> Q (Ok v)) ->
  forall fuel i nb code sz c v, (1 <= i <= i0)%nat -> nth_error tb i = Some (sz, c, v) -> nb <> sz ->
  0 <= nb -> (1 <= nb \/ i = 1%nat) -> nb <= 24 -> (25 - nb <= Z.of_nat fuel) ->
  wp (uv_outer fuel true tb (Z.of_nat i) nb code) Q.
Proof.
  assert (I := i0_in). intros QE QO.
  induction fuel as [|f IH]; intros i nb code sz c v Hi E Hne Hn Hb Hm Hf; [lia|].
  cbn [uv_outer]. unfold zlen. destruct (Z.ltb_spec (Z.of_nat i) (Z.of_nat (length tb))); [|lia].
  wp1. unfold aget. replace (0 <=? Z.of_nat i) with true by lia. rewrite Nat2Z.id, E. cbn [wp].
  destruct (Z.ltb_spec sz nb); [apply QE; discriminate|].
  assert (S := proj1 (Hv i sz c v E)).
  wp1. apply uv_bits_wp; [lia|]. intros nb' code' L1 L2 L3. cbv beta iota.
  wp1. apply uv_inner_wp; try lia.
  - intros w Hw. apply QO, Hw.
  - intros i' s' c' v' Hi' E' Hne'. apply (IH i' nb' code' s' c' v'); auto; lia.
Qed.
End Wp.

Lemma time_value_wp tb (Q : res Z -> Prop) : table_good tb -> (forall e, e <> 0 -> Q (Er e)) ->
  (forall v, 1 <= v <= 512 -> Q (Ok v)) -> wp (update_value true tb) Q.
Proof.
  intros (L & E1 & (i0 & Hi & H0) & V) QE QO. unfold update_value. change 1 with (Z.of_nat 1).
  eapply (uv_outer_wp tb i0) with (sz := 2) (c := 0) (v := 1); eauto; lia.
Qed.

(** ** Reading a time codeword *)
Lemma log2_up_fits n d : 1 < n -> 0 <= d < n -> 0 <= d < 2 ^ Z.log2_up n.
Proof. intros H1 H2. assert (X := Z.log2_up_spec n H1). lia. Qed.

Lemma time_value_rt tb nmax d rest A (f : res Z -> prog A) : table_for nmax tb -> 7 <= nmax <= 256 -> 1 <= d <= 2 * nmax ->
  runA (bind (update_value true tb) f) (enc_time nmax d ++ rest) = runA (f (Ok d)) rest.
Proof.
  intros (L & F) Hn Hd.
  assert (W := log2_up_small (2 * nmax) ltac:(lia)).
  assert (W2 : 4 <= Z.log2_up (2 * nmax)). { change 4 with (Z.log2_up 14). apply Z.log2_up_le_mono. lia. }
  set (w := Z.log2_up (2 * nmax)) in *.
  assert (Fd : forall i e, nth_error tb i = Some e -> (1 <= i)%nat -> Z.of_nat i <= d -> e = time_entry nmax (Z.of_nat i)).
  { intros i e E H1 H2. rewrite F in E by lia. congruence. }
  assert (Ed : nth_error tb (Z.to_nat d) = Some (time_entry nmax d)). { rewrite F by lia. rewrite Z2Nat.id by lia. reflexivity. }
  assert (Vd : evalue (time_entry nmax d) = d).
  { unfold time_entry, evalue. repeat match goal with |- context [if ?b then _ else _] => destruct b eqn:? end; cbn; lia. }
  rewrite <- Vd at 2.
  apply (uv_rt tb 1 (Z.to_nat d)) with (e := time_entry nmax d); auto; try lia.
  - (* length *) unfold time_entry, enc_time, esize. fold w.
    repeat match goal with |- context [if ?b then _ else _] => destruct b eqn:? end; rewrite ?app_length, ?bits_of_length; cbn [length fst]; lia.
  - (* value *)
    unfold time_entry, enc_time, ecode. fold w.
    destruct (Z.eqb_spec d 1) as [->|]; [reflexivity|]. replace (d =? 0) with false by lia.
    destruct (Z.leb_spec d 5); [|destruct (Z.leb_spec d 13)]; rewrite val_of_app, bits_of_length; cbn [fst snd];
      rewrite val_bits_of; cbn [val_of length].
    + change (2 ^ Z.of_nat 1) with 2; change (2 ^ Z.of_nat 0) with 1; change (2 ^ Z.of_nat 2) with 4; lia.
    + change (2 ^ Z.of_nat 2) with 4. lia.
    + change (2 ^ Z.of_nat 1) with 2; change (2 ^ Z.of_nat 0) with 1; change (2 ^ Z.of_nat 3) with 8; lia.
    + change (2 ^ Z.of_nat 3) with 8. lia.
    + change (2 ^ Z.of_nat 1) with 2; change (2 ^ Z.of_nat 0) with 1. rewrite Z2Nat.id by lia. lia.
    + rewrite Z2Nat.id by lia. assert (X := log2_up_fits (2 * nmax) (d - 14) ltac:(lia) ltac:(lia)). fold w in X. exact X.
  - unfold enc_time. fold w. repeat match goal with |- context [if ?b then _ else _] => destruct b eqn:? end; rewrite ?app_length, ?bits_of_length; cbn [length]; lia.
  - (* sizes *)
    intros i ei Hi Ei. rewrite (Fd i ei Ei) by lia. unfold time_entry, esize. fold w.
    repeat match goal with |- context [if ?b then _ else _] => destruct b eqn:? end; cbn [fst]; lia.
  - intros i a b Hi Ea Eb. rewrite (Fd i a Ea), (Fd (S i) b Eb) by lia. unfold time_entry, esize. fold w.
    repeat match goal with |- context [if ?b then _ else _] => destruct b eqn:? end; cbn [fst]; lia.
  - (* different *)
    intros i a Hi Ea. rewrite (Fd i a Ea) by lia.
    assert (P3 : forall a b l, val_of (firstn 2 (a :: b :: l)) = (if a then 2 else 0) + (if b then 1 else 0)) by (intros [] [] ?; reflexivity).
    unfold time_entry, ecode, esize. fold w.
    replace (Z.of_nat i =? 0) with false by lia.
    destruct (Z.eqb_spec (Z.of_nat i) 1) as [E1|E1]; cbn [fst snd].
    + unfold enc_time. replace (d =? 1) with false by lia. change (Z.to_nat 2) with 2%nat.
      destruct (d <=? 5); [|destruct (d <=? 13)]; cbn [app]; rewrite P3; lia.
    + destruct (Z.leb_spec (Z.of_nat i) 5) as [E5|E5]; cbn [fst snd].
      * unfold enc_time. replace (d =? 1) with false by lia. change (Z.to_nat 4) with 4%nat.
        destruct (Z.leb_spec d 5).
        { rewrite firstn_all2 by (rewrite app_length, bits_of_length; cbn; lia). rewrite val_of_app, bits_of_length, val_bits_of by (change (2 ^ Z.of_nat 2) with 4; lia).
          cbn [val_of length]. change (2 ^ Z.of_nat 2) with 4; change (2 ^ Z.of_nat 0) with 1. lia. }
        assert (G : forall b l, (2 <= length l)%nat -> 8 <= val_of (firstn 4 (true :: b :: l))).
        { intros b l Hl. destruct l as [|x [|y l]]; cbn [length] in Hl; try lia. destruct b, x, y; cbn; lia. }
        destruct (d <=? 13); cbn [app];
          match goal with |- _ <> val_of (firstn 4 (true :: ?b :: ?l)) => assert (X := G b l ltac:(rewrite bits_of_length; lia)) end; lia.
      * destruct (Z.leb_spec (Z.of_nat i) 13) as [E13|E13]; cbn [fst snd].
        -- unfold enc_time. replace (d =? 1) with false by lia. replace (d <=? 5) with false by lia. change (Z.to_nat 5) with 5%nat.
           destruct (Z.leb_spec d 13).
           { rewrite firstn_all2 by (rewrite app_length, bits_of_length; cbn; lia). rewrite val_of_app, bits_of_length, val_bits_of by (change (2 ^ Z.of_nat 3) with 8; lia).
             cbn [val_of length]. change (2 ^ Z.of_nat 3) with 8; change (2 ^ Z.of_nat 1) with 2. lia. }
           assert (G : forall l, (3 <= length l)%nat -> 24 <= val_of (firstn 5 (true :: true :: l))).
           { intros l Hl. destruct l as [|x [|y [|z l]]]; cbn [length] in Hl; try lia. destruct x, y, z; cbn; lia. }
           cbn [app]. fold w. match goal with |- _ <> val_of (firstn 5 (true :: true :: ?l)) => assert (X := G l ltac:(rewrite bits_of_length; lia)) end. lia.
        -- unfold enc_time. replace (d =? 1) with false by lia. replace (d <=? 5) with false by lia. replace (d <=? 13) with false by lia. fold w.
           rewrite firstn_all2 by (rewrite app_length, bits_of_length; cbn [length]; lia).
           assert (X := log2_up_fits (2 * nmax) (d - 14) ltac:(lia) ltac:(lia)). fold w in X.
           rewrite val_of_app, bits_of_length, val_bits_of by (rewrite Z2Nat.id by lia; exact X).
           cbn [val_of length]. change (2 ^ Z.of_nat 1) with 2; change (2 ^ Z.of_nat 0) with 1. rewrite Z2Nat.id by lia. lia.
Qed.

(** ** Reading a gain difference *)
Lemma enc_diff_table prof d : known_diff prof d -> exists j sz c,
  nth_error (gain_tbl prof) j = Some (sz, c, d) /\ cw_ok (gain_tbl prof) j = true /\ enc_diff prof d = bits_of (Z.to_nat sz) c.
Proof.
  assert (G : forall tb cs, forallb (fun x => existsb (fun j => match nth_error tb j with
      | Some (sz, c, v) => (v =? fst x) && cw_ok tb j && (if list_eq_dec Bool.bool_dec (match find (fun y => fst y =? fst x) cs with Some (_, w) => bools w | None => [] end) (bits_of (Z.to_nat sz) c) then true else false)
      | None => false end) (seq 0 (length tb))) cs = true ->
    In d (map fst cs) -> exists j sz c, nth_error tb j = Some (sz, c, d) /\ cw_ok tb j = true /\
      match find (fun y => fst y =? d) cs with Some (_, w) => bools w | None => [] end = bits_of (Z.to_nat sz) c).
  { intros tb cs H Hin. rewrite forallb_forall in H. apply in_map_iff in Hin as (x & <- & Hx). specialize (H x Hx).
    apply existsb_exists in H as (j & _ & H). destruct (nth_error tb j) as [[[sz c] v]|] eqn:E; [|discriminate].
    apply andb_prop in H as [H H3]. apply andb_prop in H as [H1 H2]. apply Z.eqb_eq in H1. subst v.
    exists j, sz, c. split; [exact E|]. split; [exact H2|]. destruct list_eq_dec as [E'|]; [exact E'|discriminate]. }
  unfold known_diff, enc_diff, codes, gain_tbl. destruct (prof =? 2); apply G; vm_compute; reflexivity.
Qed.

Lemma gain_value_rt prof d rest A (f : res Z -> prog A) : known_diff prof d ->
  runA (bind (update_value false (gain_tbl prof)) f) (enc_diff prof d ++ rest) = runA (f (Ok d)) rest.
Proof.
  intros H. destruct (enc_diff_table prof d H) as (j & sz & c & E & C & ->). apply (uv_const _ j sz c); auto.
Qed.
