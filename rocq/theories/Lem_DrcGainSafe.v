(** * Lem_DrcGainSafe: reading any DRC gain payload *)
From Coq Require Import ZArith List Lia Bool ZifyBool.
From Verif Require Import Bits BitBuf Prog Wp Asi Leaf Loud Config DrcCfg DrcGain Lem_DrcUv Lem_DrcTime Lem_DrcGain Spec_Drc Spec_DrcGain.
Import ListNotations.
Open Scope Z_scope.

Definition par_good (p : gpar) : Prop :=
  gp_frame p = 1024 /\ 1 <= gp_tmin p <= 512 /\ table_good (gp_tbl p).

(** The raw nodes: none before the frame, one in the frame. *)
Definition raw_ok (nd : nodes) : Prop :=
  exists n, nd_n nd = Z.of_nat n /\ (1 <= n <= 32)%nat /\
    (forall i, (i < n)%nat -> exists t, nth_error (nd_t nd) i = Some t /\ 0 <= t) /\
    (exists i t, (i < n)%nat /\ nth_error (nd_t nd) i = Some t /\ t < 1024).

Lemma nth_firstn_lt {A} (l : list A) n i : (i < n)%nat -> nth_error (firstn n l) i = nth_error l i.
Proof.
  revert n i. induction l as [|x l IH]; intros [|n] [|i] H; try lia; try reflexivity.
  cbn. apply IH. lia.
Qed.

Lemma raw_lists nd n : nodes_shape nd -> nd_n nd = Z.of_nat n -> raw_ok nd ->
  (1 <= n <= 32)%nat /\ (forall t, In t (firstn n (nd_t nd)) -> 0 <= t) /\ exists t, In t (firstn n (nd_t nd)) /\ t < 1024.
Proof.
  intros H E (m & E' & B & P & (i & t & Hi & T & Ht)). replace m with n in * by lia. split; [exact B|]. split.
  - intros u Hu. apply In_nth_error in Hu as (k & Hk).
    assert (Lk : (k < n)%nat). { assert (X : nth_error (firstn n (nd_t nd)) k <> None) by congruence. apply nth_error_Some in X. rewrite firstn_length in X. lia. }
    rewrite nth_firstn_lt in Hk by lia. destruct (P k Lk) as (t' & T' & Q). congruence.
  - exists t. split; [|exact Ht]. apply (nth_error_In _ i). rewrite nth_firstn_lt by lia. exact T.
Qed.

Lemma nth_error_last {A} (l : list A) d : l <> [] -> nth_error l (length l - 1) = Some (last l d).
Proof.
  intros H. destruct (exists_last H) as (l' & x & ->). rewrite app_length, last_last. cbn [length].
  rewrite nth_error_app2 by lia. replace (length l' + 1 - 1 - length l')%nat with 0%nat by lia. reflexivity.
Qed.

Lemma last_In {A} (l : list A) d : l <> [] -> In (last l d) l.
Proof. intros H. destruct (exists_last H) as (l' & x & ->). rewrite last_last. apply in_or_app. right. left. reflexivity. Qed.

Lemma last_app_r {A} (a b : list A) d : b <> [] -> last (a ++ b) d = last b d.
Proof. intros H. destruct (exists_last H) as (l' & x & ->). rewrite app_assoc, !last_last. reflexivity. Qed.

Lemma reservoir_wp nd (Q : Z * nodes -> Prop) : nodes_shape nd -> raw_ok nd ->
  (forall e nd', nodes_shape nd' -> (e = 0 -> usable 1024 nd') -> Q (e, nd')) -> wp (reservoir 1024 nd) Q.
Proof.
  intros H R HQ. destruct R as (n & E & R).
  destruct (raw_lists nd n H E ltac:(exists n; auto)) as (B & P & (u & Hu & Lu)).
  destruct (reservoir_eq 1024 nd n H E ltac:(lia)) as (e & nd' & -> & S1 & S2 & S3 & S4).
  apply HQ; [exact S1|]. intros ->. destruct S4 as [(_ & O & T)|(X & _)]; [|discriminate].
  set (L := firstn n (nd_t nd)) in *.
  assert (LL : length L = n) by (unfold L; rewrite firstn_length; destruct H as (_ & X); lia).
  assert (LA : length (arrange 1024 L) = n).
  { unfold arrange. rewrite app_length, map_length, <- LL. apply filter_split. }
  rewrite E in S2. unfold usable. rewrite S2. split; [lia|]. split.
  - intros i t Hi Ht. rewrite <- (nth_firstn_lt (nd_t nd') n i) in Ht by lia. rewrite T in Ht. apply nth_error_In in Ht.
    unfold arrange in Ht. apply in_app_or in Ht as [Ht|Ht].
    + apply in_map_iff in Ht as (x & <- & Hx). destruct (over 1024 x) eqn:V.
      * assert (Y : existsb (over 1024) (filter (fun t => 1024 <=? t) L) = true) by (apply existsb_exists; exists x; auto). congruence.
      * unfold over, FRAME_MAX in V. lia.
    + apply filter_In in Ht as [_ Ht]. lia.
  - set (C := filter (fun t => t <? 1024) L).
    assert (NC : C <> []). { intros X. assert (Y : In u C) by (apply filter_In; split; [exact Hu|lia]). rewrite X in Y. exact Y. }
    exists (last C 0). split.
    + replace (Z.to_nat (Z.of_nat n - 1)) with (n - 1)%nat by lia. rewrite <- (nth_firstn_lt (nd_t nd') n) by lia. rewrite T.
      rewrite <- LA at 1. rewrite (nth_error_last _ 0).
      * f_equal. unfold arrange. apply last_app_r. exact NC.
      * intros X. rewrite X in LA. cbn in LA. lia.
    + apply P. assert (Y := last_In C 0 NC). apply filter_In in Y as [Y _]. exact Y.
Qed.

(** ** Times *)
Lemma put_t_wp nd i v (Q : nodes -> Prop) : nodes_shape nd -> 0 <= i < 128 ->
  Q (s_nd_t nd (upd (nd_t nd) (Z.to_nat i) v)) -> wp (put_t nd i v) Q.
Proof. intros H Hi HQ. rewrite <- (Z2Nat.id i) by lia. rewrite put_t_ok by (auto; lia). exact HQ. Qed.
Lemma put_g_wp nd i v (Q : nodes -> Prop) : nodes_shape nd -> 0 <= i < 128 ->
  Q (s_nd_g nd (upd (nd_g nd) (Z.to_nat i) v)) -> wp (put_g nd i v) Q.
Proof. intros H Hi HQ. rewrite <- (Z2Nat.id i) by lia. rewrite put_g_ok by (auto; lia). exact HQ. Qed.

Definition tinv (E n : Z) (k : nat) (x : Z * bool * nodes) : Prop :=
  let '(toff, resv, nd) := x in
  nodes_shape nd /\ nd_n nd = n /\ E - 1024 <= toff /\
  (forall i, (i < (if resv then S k else k))%nat -> exists t, nth_error (nd_t nd) i = Some t /\ 0 <= t) /\
  (resv = true -> E < toff /\ exists i, (i <= k)%nat /\ nth_error (nd_t nd) i = Some E).

Lemma time_end_wp p off k x n : par_good p -> - gp_tmin p <= off <= -1 -> (k < 127)%nat -> tinv (1024 + off) n k x ->
  wp (time_end_body p off k x) (fun r => if fst r =? 0 then tinv (1024 + off) n (S k) (snd r) else nodes_shape (snd (snd r))).
Proof.
  intros (EF & HT & TG) HO Hk. destruct x as [[toff resv] nd]. intros (H & N & T0 & P & R). unfold time_end_body. rewrite EF.
  apply wp_bindi, time_value_wp; [exact TG| |].
  - intros e He. apply wp_ret. cbn [fst snd]. destruct (Z.eqb_spec e 0); [lia|exact H].
  - intros d Hd. set (t := toff + d * gp_tmin p).
    assert (Ht : 0 <= t) by (unfold t; nia). assert (Ht2 : toff < t) by (unfold t; nia).
    destruct (Z.leb_spec t (1024 + off)).
    + apply wp_bindi, put_t_wp; [exact H|lia|]. rewrite Nat2Z.id. apply wp_ret. cbn [fst snd]. change (0 =? 0) with true. cbn match.
      split; [apply shape_ut; auto; lia|]. split; [exact N|]. split; [lia|].
      destruct resv; [destruct (R eq_refl); lia|]. split; [|discriminate].
      intros i Hi. rewrite nth_ut by (auto; lia). destruct (Nat.eqb_spec i k); [eauto|]. apply P. lia.
    + apply wp_bindi, put_t_wp; [exact H|lia|]. replace (Z.to_nat (Z.of_nat k + 1)) with (S k) by lia.
      set (nd1 := s_nd_t nd (upd (nd_t nd) (S k) t)).
      assert (H1 : nodes_shape nd1) by (apply shape_ut; auto; lia).
      assert (G1 : forall i, nth_error (nd_t nd1) i = if Nat.eqb i (S k) then Some t else nth_error (nd_t nd) i) by (intros; apply nth_ut; auto; lia).
      apply wp_bindi. destruct resv.
      * apply wp_ret, wp_ret. cbn [fst snd]. change (0 =? 0) with true. cbn match.
        split; [exact H1|]. split; [exact N|]. split; [lia|]. destruct (R eq_refl) as (R1 & i & R2 & R3). split.
        -- intros j Hj. rewrite G1. destruct (Nat.eqb_spec j (S k)); [eauto|]. apply P. lia.
        -- intros _. split; [lia|]. exists i. split; [lia|]. rewrite G1. destruct (Nat.eqb_spec i (S k)); [lia|exact R3].
      * apply put_t_wp; [exact H1|lia|]. rewrite Nat2Z.id. apply wp_ret. cbn [fst snd]. change (0 =? 0) with true. cbn match.
        split; [apply shape_ut; auto; lia|]. split; [exact N|]. split; [lia|]. split.
        -- intros j Hj. rewrite nth_ut by (auto; lia). destruct (Nat.eqb_spec j k); [exists (1024 + off); split; [reflexivity|lia]|].
           rewrite G1. destruct (Nat.eqb_spec j (S k)); [eauto|]. apply P. lia.
        -- intros _. split; [lia|]. exists k. split; [lia|]. rewrite nth_ut by (auto; lia). rewrite Nat.eqb_refl. reflexivity.
Qed.

Definition oinv (off n : Z) (k : nat) (x : Z * nodes) : Prop :=
  nodes_shape (snd x) /\ nd_n (snd x) = n /\ off <= fst x /\
  (forall i, (i < k)%nat -> exists t, nth_error (nd_t (snd x)) i = Some t /\ 0 <= t < 1024).

Lemma time_open_wp p off k x n : par_good p -> - gp_tmin p <= off <= -1 -> (k < 128)%nat -> oinv off n k x ->
  wp (time_open_body p k x) (fun r => if fst r =? 0 then oinv off n (S k) (snd r) else nodes_shape (snd (snd r))).
Proof.
  intros (EF & HT & TG) HO Hk. destruct x as [toff nd]. intros (H & N & T0 & P). cbn [fst snd] in *. unfold time_open_body. rewrite EF.
  apply wp_bindi, time_value_wp; [exact TG| |].
  - intros e He. apply wp_ret. cbn [fst snd]. destruct (Z.eqb_spec e 0); [lia|exact H].
  - intros d Hd. set (t := toff + d * gp_tmin p).
    assert (Ht : 0 <= t) by (unfold t; nia). assert (Ht2 : toff < t) by (unfold t; nia). unfold FRAME_MAX.
    destruct (Z.leb_spec (2 * 1024 - 1024) t); [apply wp_ret; exact H|].
    apply wp_bindi, put_t_wp; [exact H|lia|]. rewrite Nat2Z.id. apply wp_ret. cbn [fst snd]. change (0 =? 0) with true. cbn match.
    split; [apply shape_ut; auto; lia|]. split; [exact N|]. split; [cbn [fst]; lia|]. cbn [fst snd].
    intros i Hi. rewrite nth_ut by (auto; lia). destruct (Nat.eqb_spec i k); [exists t; split; [reflexivity|lia]|]. apply P. lia.
Qed.

Lemma times_wp p full off nd n (Q : Z * nodes -> Prop) : par_good p -> - gp_tmin p <= off <= -1 -> nodes_shape nd ->
  nd_n nd = Z.of_nat n -> (1 <= n <= 32)%nat ->
  (forall e nd', nodes_shape nd' -> (e = 0 -> raw_ok nd') -> Q (e, nd')) -> wp (decode_times p full off nd) Q.
Proof.
  intros PG HO H N B HQ. destruct (PG) as (EF & HT & TG). unfold decode_times. apply wp_bindi.
  assert (G : forall fe, wp (if fe =? 1 then
      ' (e, (_, resv, nd)) <- forE (Z.to_nat (nd_n nd - 1)) 0 (time_end_body p off) (off, false, nd) ;;
      if negb (e =? 0) then Ret (e, nd) else
      if resv : bool then Ret (0, nd)
      else nd <- put_t nd (nd_n nd - 1) (gp_frame p + off) ;; Ret (0, nd)
    else
      ' (e, (_, nd)) <- forE (Z.to_nat (nd_n nd)) 0 (time_open_body p) (off, nd) ;;
      Ret (e, nd)) Q).
  { intros fe. destruct (fe =? 1).
    - apply wp_bindi. eapply (wp_forE (tinv (1024 + off) (Z.of_nat n)) (fun _ x => nodes_shape (snd x))).
      + split; [exact H|]. split; [exact N|]. split; [lia|]. split; [intros; lia|discriminate].
      + intros j t Hj Ht. apply time_end_wp; auto. lia.
      + intros [[toff resv] nd'] (H' & N' & T0 & P & R). change (negb (0 =? 0)) with false. cbn match.
        replace (0 + Z.to_nat (nd_n nd - 1))%nat with (n - 1)%nat in * by lia. destruct resv.
        * apply wp_ret, HQ; [exact H'|]. intros _. exists n. split; [exact N'|]. split; [exact B|]. split.
          -- intros i Hi. apply P. lia.
          -- destruct (R eq_refl) as (_ & i & Hi & Hi'). exists i, (1024 + off). split; [lia|]. split; [exact Hi'|lia].
        * apply wp_bindi, put_t_wp; [exact H'|lia|]. apply wp_ret, HQ; [apply shape_ut; auto; lia|]. intros _. rewrite EF.
          exists n. split; [exact N'|]. split; [exact B|]. rewrite N'. replace (Z.to_nat (Z.of_nat n - 1)) with (n - 1)%nat by lia. split.
          -- intros i Hi. rewrite nth_ut by (auto; lia). destruct (Nat.eqb_spec i (n - 1)); [exists (1024 + off); split; [reflexivity|lia]|].
             apply P. lia.
          -- exists (n - 1)%nat, (1024 + off). split; [lia|]. split; [|lia]. rewrite nth_ut by (auto; lia). rewrite Nat.eqb_refl. reflexivity.
      + intros e [[toff resv] nd'] He H'. replace (negb (e =? 0)) with true by lia. apply wp_ret, HQ; [exact H'|]. lia.
    - apply wp_bindi. eapply (wp_forE (oinv off (Z.of_nat n)) (fun _ x => nodes_shape (snd x))).
      + split; [exact H|]. split; [exact N|]. split; [cbn; lia|intros; lia].
      + intros j t Hj Ht. apply (time_open_wp p off); auto. lia.
      + intros [toff nd'] (H' & N' & T0 & P). cbn [fst snd] in *. replace (0 + Z.to_nat (nd_n nd))%nat with n in * by lia.
        apply wp_ret, HQ; [exact H'|]. intros _. exists n. split; [exact N'|]. split; [exact B|]. split.
        * intros i Hi. destruct (P i Hi) as (t & T & X). exists t. split; [exact T|lia].
        * destruct (P 0%nat ltac:(lia)) as (t & T & X). exists 0%nat, t. split; [lia|]. split; [exact T|lia].
      + intros e [toff nd'] He H'. apply wp_ret, HQ; [exact H'|]. lia. }
  destruct (full =? 0); [apply wp_rd; [lia|]; intros v _; apply G|apply wp_ret, G].
Qed.

(** ** Gains *)
Lemma initial_gain_wp prof (Q : Z -> Prop) : (forall v, -1024 <= v <= 1024 -> Q v) -> wp (initial_gain prof) Q.
Proof.
  intros HQ. unfold initial_gain.
  assert (P8 : 2 ^ 8 = 256) by reflexivity. assert (P10 : 2 ^ 10 = 1024) by reflexivity.
  destruct (prof =? 3); [apply wp_ret, HQ; lia|].
  destruct (prof =? 2); [|destruct (prof =? 1)].
  - apply wp_bindi, wp_rd; [lia|]. intros s _. destruct (s =? 0); [apply wp_ret, HQ; lia|]. apply wp_bindi, wp_rd; [lia|]. intros m Hm. apply wp_ret, HQ. lia.
  - apply wp_bindi, wp_rd; [lia|]. intros s _. destruct (s =? 0); [apply wp_ret, HQ; lia|]. apply wp_bindi, wp_rd; [lia|]. intros m Hm. apply wp_ret, HQ. lia.
  - apply wp_bindi, wp_rd; [lia|]. intros s _. apply wp_bindi, wp_rd; [lia|]. intros m Hm. apply wp_ret, HQ. destruct (s =? 0); lia.
Qed.

Lemma gains_wp prof nd n (Q : Z * nodes -> Prop) : nodes_shape nd -> nd_n nd = Z.of_nat n -> (1 <= n <= 32)%nat ->
  (forall e nd', nodes_shape nd' -> nd_t nd' = nd_t nd -> nd_n nd' = nd_n nd -> Q (e, nd')) -> wp (decode_gains prof nd) Q.
Proof.
  intros H N B HQ. unfold decode_gains. apply wp_bindi, initial_gain_wp. intros g0 _.
  apply wp_bindi, put_g_wp; [exact H|lia|]. set (nd1 := s_nd_g nd _).
  assert (H1 : nodes_shape nd1) by (apply shape_ug; auto; cbn; lia).
  set (I := fun nd' : nodes => nodes_shape nd' /\ nd_t nd' = nd_t nd /\ nd_n nd' = nd_n nd).
  apply (wp_forE (fun _ x => I x) (fun _ x => I x)).
  - split; [exact H1|]. split; reflexivity.
  - intros k x Hk (X1 & X2 & X3). change (nd_n nd1) with (nd_n nd) in Hk. apply wp_bindi, gain_value_wp. intros d Hd.
    apply wp_bindi, wp_aget; [destruct X1 as (L & _); lia|]. intros v _.
    apply wp_bindi, put_g_wp; [exact X1|lia|]. apply wp_ret. cbn [fst snd]. change (0 =? 0) with true. cbn match.
    split; [apply shape_ug; auto; lia|]. split; [exact X2|exact X3].
  - intros t (X1 & X2 & X3). apply HQ; auto.
  - intros e t _ (X1 & X2 & X3). apply HQ; auto.
Qed.

Lemma count_wp : forall fuel k (Q : Z -> Prop), (forall n, k < n -> Q n) -> wp (count_nodes fuel k) Q.
Proof.
  induction fuel as [|f IH]; intros k Q HQ; cbn [count_nodes]; [exact I|].
  apply wp_bindi, wp_rd; [lia|]. intros b _. destruct (b =? 1); [apply wp_ret, HQ; lia|]. apply IH. intros n Hn. apply HQ. lia.
Qed.

Lemma raw_one nd v : nodes_shape nd -> 0 <= v < 1024 -> raw_ok (s_nd_n (s_nd_t nd (upd (nd_t nd) 0 v)) 1).
Proof.
  intros H Hv. exists 1%nat. split; [reflexivity|]. split; [lia|].
  assert (E : nth_error (nd_t (s_nd_n (s_nd_t nd (upd (nd_t nd) 0 v)) 1)) 0 = Some v).
  { change (nth_error (nd_t (s_nd_t nd (upd (nd_t nd) 0 v))) 0 = Some v). rewrite nth_ut by (auto; lia). reflexivity. }
  split.
  - intros i Hi. replace i with 0%nat by lia. exists v. split; [exact E|lia].
  - exists 0%nat, v. split; [lia|]. split; [exact E|lia].
Qed.

Lemma offset_range p g : 1 <= gp_tmin p -> - gp_tmin p <= time_offset p g <= -1.
Proof.
  intros H. unfold time_offset. destruct (gs_align g =? 0); [lia|].
  assert (A := Z.mul_div_le (gp_tmin p - 1) 2 ltac:(lia)). assert (B := Z.div_pos (gp_tmin p - 1) 2 ltac:(lia) ltac:(lia)).
  remember ((gp_tmin p - 1) / 2) as q. lia.
Qed.

Lemma raw_same nd nd' : nd_t nd' = nd_t nd -> nd_n nd' = nd_n nd -> raw_ok nd -> raw_ok nd'.
Proof. unfold raw_ok. intros -> ->. auto. Qed.

Lemma nodes_wp p g nd (Q : Z * nodes -> Prop) : par_good p -> nodes_shape nd ->
  (forall e nd', nodes_shape nd' -> (e = 0 -> raw_ok nd') -> Q (e, nd')) -> wp (read_nodes p g nd) Q.
Proof.
  intros PG H HQ. destruct (PG) as (EF & HT & TG). unfold read_nodes. cbv zeta.
  assert (HO := offset_range p g ltac:(lia)). set (off := time_offset p g) in *. rewrite EF.
  apply wp_bindi, wp_avail. intros c Hc. apply wp_bindi.
  assert (G : forall mode nd, nodes_shape nd -> wp (
    if mode =? 0 then
      v <- initial_gain (gs_prof g) ;;
      nd <- put_g nd 0 v ;;
      nd <- put_t nd 0 (1024 + off) ;;
      Ret (0, s_nd_n nd 1)
    else
      ' (e, nd) <- decode_slopes nd ;;
      if negb (e =? 0) then Ret (e, nd) else
      ' (e, nd) <- decode_times p (gs_full g) off nd ;;
      if negb (e =? 0) then Ret (e, nd) else
      decode_gains (gs_prof g) nd) Q).
  { clear nd H. intros mode nd H. destruct (mode =? 0).
    - apply wp_bindi, initial_gain_wp. intros v _. apply wp_bindi, put_g_wp; [exact H|lia|].
      assert (H1 : nodes_shape (s_nd_g nd (upd (nd_g nd) (Z.to_nat 0) v))) by (apply shape_ug; auto; cbn; lia).
      apply wp_bindi, put_t_wp; [exact H1|lia|]. apply wp_ret. apply HQ.
      + apply shape_n, shape_ut; [exact H1|cbn; lia].
      + intros _. apply raw_one; [exact H1|lia].
    - apply wp_bindi. unfold decode_slopes. apply wp_bindi, wp_avail. intros c' _. apply wp_bindi, count_wp. intros n Hn.
      unfold NODE_MAX, LC_NODE_MAX. destruct (Z.ltb_spec 128 n); [apply wp_ret; cbn; apply HQ; [exact H|discriminate]|].
      destruct (Z.ltb_spec 32 n); [apply wp_ret; cbn; apply HQ; [exact H|discriminate]|].
      apply wp_ret. change (negb (0 =? 0)) with false. cbn match.
      apply wp_bindi. apply times_wp with (n := Z.to_nat n); auto; [cbn; lia|lia|].
      intros e nd2 H2 R2. destruct (Z.eqb_spec e 0) as [->|He]; cbn [negb].
      + specialize (R2 eq_refl). destruct (R2) as (m & Em & Bm & _). apply gains_wp with (n := m); auto. intros e nd3 H3 T3 N3. apply HQ; [exact H3|]. intros _.
        eapply raw_same; eauto.
      + apply wp_ret, HQ; [exact H2|]. lia. }
  destruct (c <? 1).
  - destruct ((nd_n nd <? 1) || (NODE_MAX <? nd_n nd)) eqn:C.
    + apply wp_ret. cbn. apply HQ; [exact H|discriminate].
    + unfold NODE_MAX in C. apply wp_bindi, wp_aget; [destruct H as (L & _); lia|]. intros l _.
      apply wp_bindi, put_t_wp; [exact H|lia|].
      assert (H1 : nodes_shape (s_nd_t nd (upd (nd_t nd) (Z.to_nat 0) (1024 + off)))) by (apply shape_ut; auto; cbn; lia).
      apply wp_bindi, put_g_wp; [exact H1|lia|]. apply wp_ret.
      change (negb (0 =? 0)) with false. cbn match. apply G. apply shape_n, shape_ug; [exact H1|cbn; lia].
  - apply wp_bindi, wp_rd; [lia|]. intros m _. apply wp_ret. change (negb (0 =? 0)) with false. cbn match. apply G, H.
Qed.

(** ** Sequences *)
Definition binv (k : nat) (l : list nodes) : Prop :=
  length l = 4%nat /\ Forall nodes_shape l /\ forall i nd, (i < k)%nat -> nth_error l i = Some nd -> usable 1024 nd.

Lemma upd_Forall {A} (P : A -> Prop) l i v : (i < length l)%nat -> Forall P l -> P v -> Forall P (upd l i v).
Proof.
  intros Hi H Hv. apply Forall_forall. intros x Hx. apply In_nth_error in Hx as (k & Hk). rewrite upd_nth in Hk by lia.
  destruct (Nat.eqb k i); [congruence|]. rewrite Forall_forall in H. apply H. eapply nth_error_In; eauto.
Qed.

Lemma nth_Forall {A} (P : A -> Prop) l i v : Forall P l -> nth_error l i = Some v -> P v.
Proof. intros H E. rewrite Forall_forall in H. apply H. eapply nth_error_In; eauto. Qed.

Lemma wp_aset_upd {A} (l : list A) i v (Q : list A -> Prop) : (i < length l)%nat -> Q (upd l i v) -> wp (aset l (Z.of_nat i) v) Q.
Proof. intros H HQ. rewrite aset_ok by exact H. exact HQ. Qed.

Lemma band_wp p g k l : par_good p -> (k < 4)%nat -> binv k l ->
  wp (band_nodes_body p g k l) (fun r => if fst r =? 0 then binv (S k) (snd r) else (length (snd r) = 4%nat /\ Forall nodes_shape (snd r))).
Proof.
  intros PG Hk (L & S & U). destruct (PG) as (EF & _). unfold band_nodes_body.
  apply wp_bindi, wp_aget; [lia|]. intros nd En. rewrite Nat2Z.id in En.
  apply wp_bindi, nodes_wp; [exact PG|eapply nth_Forall; eauto|]. intros e nd1 H1 R1.
  apply wp_bindi, wp_aset_upd; [lia|]. set (l1 := upd l k nd1).
  assert (L1 : length l1 = 4%nat) by (unfold l1; rewrite upd_length; lia).
  assert (S1 : Forall nodes_shape l1) by (apply upd_Forall; auto; lia).
  destruct (Z.eqb_spec e 0) as [->|He]; cbn [negb].
  - rewrite EF. apply wp_bindi, reservoir_wp; auto. intros e nd2 H2 R2.
    apply wp_bindi, wp_aset_upd; [lia|]. apply wp_ret. cbn [fst snd].
    assert (L2 : length (upd l1 k nd2) = 4%nat) by (rewrite upd_length; lia).
    assert (S2 : Forall nodes_shape (upd l1 k nd2)) by (apply upd_Forall; auto; lia).
    destruct (Z.eqb_spec e 0) as [->|He]; [|auto]. split; [exact L2|]. split; [exact S2|].
    intros i nd' Hi Hn. rewrite upd_nth in Hn by lia. destruct (Nat.eqb_spec i k); [injection Hn as <-; auto|].
    unfold l1 in Hn. rewrite upd_nth in Hn by lia. destruct (Nat.eqb_spec i k); [lia|]. apply (U i); auto. lia.
  - apply wp_ret. cbn [fst snd]. destruct (Z.eqb_spec e 0); [lia|]. auto.
Qed.

Lemma sequence_wp p g l (Q : Z * list nodes -> Prop) : par_good p -> 0 <= gs_count g <= 4 -> length l = 4%nat -> Forall nodes_shape l ->
  (forall e l', length l' = 4%nat -> Forall nodes_shape l' -> (e = 0 -> binv (Z.to_nat (gs_count g)) l') -> Q (e, l')) ->
  wp (read_sequence p g l) Q.
Proof.
  intros PG Hc L S HQ. unfold read_sequence. destruct (gp_low p && (gs_full g =? 0)).
  - apply wp_ret, HQ; auto. discriminate.
  - apply (wp_forE binv (fun _ l => length l = 4%nat /\ Forall nodes_shape l)).
    + split; [exact L|]. split; [exact S|]. intros; lia.
    + intros j t Hj Ht. apply band_wp; auto. lia.
    + intros t (T1 & T2 & T3). apply HQ; auto. intros _. split; [exact T1|]. split; [exact T2|exact T3].
    + intros e t He (T1 & T2). apply HQ; auto. lia.
Qed.

Definition ginv (sets : list gset) (k : nat) (st : list gseq) : Prop :=
  gain_shape st /\ forall i g sq, (i < k)%nat -> nth_error sets i = Some g -> nth_error st i = Some sq -> set_usable 1024 g sq.

Lemma gain_ext_wp (Q : Z -> Prop) : (forall e, Q e) -> wp read_gain_ext Q.
Proof.
  intros HQ. unfold read_gain_ext. apply wp_bindi, wp_rd; [lia|]. intros t _. destruct (t =? 0); [apply wp_ret, HQ|].
  apply wp_bindi, wp_rd; [lia|]. intros n Hn. change (2 ^ 3) with 8 in Hn. apply wp_bindi, wp_rd; [lia|]. intros v Hv.
  apply wp_bindi, wp_skip; [lia|]. apply wp_bindi, wp_rd; [lia|]. intros t' _. destruct (t' =? 0); apply wp_ret, HQ.
Qed.

Lemma set_wp p sets k st : par_good p -> (length sets <= 24)%nat -> Forall (fun g => 0 <= gs_count g <= 4) sets -> (k < length sets)%nat -> ginv sets k st ->
  wp (gain_set_body p sets k st) (fun r => if fst r =? 0 then ginv sets (S k) (snd r) else gain_shape (snd r)).
Proof.
  intros PG LS HC Hk ((L & S) & U). destruct (PG) as (EF & _). unfold gain_set_body.
  apply wp_bindi, wp_aget; [lia|]. intros g Eg. rewrite Nat2Z.id in Eg.
  apply wp_bindi, wp_aget; [lia|]. intros sq Es. rewrite Nat2Z.id in Es.
  assert (Hsq : seq_shape sq) by (eapply nth_Forall; eauto). destruct Hsq as (L0 & S0).
  assert (HCg : 0 <= gs_count g <= 4) by (eapply (nth_Forall (fun g => 0 <= gs_count g <= 4)); eauto).
  assert (Fin : forall c l, length l = 4%nat -> Forall nodes_shape l -> gain_shape (upd st k (mkSq c l))).
  { intros c l X Y. split; [rewrite upd_length; lia|]. apply upd_Forall; auto; [lia|]. split; auto. }
  assert (Use : forall sq', gain_shape (upd st k sq') -> set_usable 1024 g sq' -> ginv sets (Datatypes.S k) (upd st k sq')).
  { intros sq' X Y. split; [exact X|]. intros i g' s' Hi Hg Hs. rewrite upd_nth in Hs by lia. destruct (Nat.eqb_spec i k) as [->|].
    - injection Hs as <-. rewrite Eg in Hg. injection Hg as <-. exact Y.
    - apply (U i); auto. lia. }
  destruct (Z.eqb_spec (gs_prof g) 3) as [E3|E3]; cbn [negb].
  - apply wp_bindi. apply (wp_aget _ 0); [lia|]. intros nd En.
    assert (H : nodes_shape nd) by (eapply nth_Forall; eauto).
    apply wp_bindi, put_g_wp; [exact H|lia|]. set (nd1 := s_nd_g nd _).
    assert (H1 : nodes_shape nd1) by (apply shape_ug; auto; cbn; lia).
    apply wp_bindi, put_t_wp; [exact H1|lia|]. rewrite EF. set (nd2 := s_nd_n (s_nd_t _ _) 1).
    assert (H2 : nodes_shape nd2) by (apply shape_n, shape_ut; [exact H1|cbn; lia]).
    assert (R2 : nth_error (nd_t nd2) 0 = Some 1023).
    { change (nth_error (nd_t (s_nd_t nd1 (upd (nd_t nd1) 0 (1024 - 1)))) 0 = Some 1023). rewrite nth_ut by (auto; lia). reflexivity. }
    apply wp_bindi. apply (wp_aset_upd (sq_nodes sq) 0); [lia|].
    apply wp_bindi, wp_aset_upd; [lia|]. apply wp_ret. cbn [fst snd]. change (0 =? 0) with true. cbn match. apply Use.
    + apply Fin; [rewrite upd_length; lia|]. apply upd_Forall; auto. lia.
    + unfold set_usable. rewrite E3. split; [reflexivity|]. cbn [sq_count sq_nodes]. intros b nd' Hb Hn. replace b with 0%nat in * by lia.
      rewrite upd_nth in Hn by lia. cbn [Nat.eqb] in Hn. injection Hn as <-.
      split; [change (nd_n nd2) with 1; lia|]. change (nd_n nd2) with 1. split.
      * intros i t Hi Ht. replace i with 0%nat in Ht by lia. rewrite R2 in Ht. injection Ht as <-. lia.
      * exists 1023. split; [exact R2|lia].
  - apply wp_bindi, sequence_wp; auto. intros e l X Y Z.
    apply wp_bindi, wp_aset_upd; [lia|]. apply wp_ret. cbn [fst snd]. destruct (Z.eqb_spec e 0) as [->|He]; [|apply Fin; auto].
    apply Use; [apply Fin; auto|]. unfold set_usable. replace (gs_prof g =? 3) with false by lia. split; [reflexivity|].
    cbn [sq_count sq_nodes]. destruct (Z eq_refl) as (_ & _ & V). intros b nd Hb. apply V. lia.
Qed.

Lemma gain_wp p sets st (Q : Z * list gseq -> Prop) : par_good p -> (length sets <= 24)%nat -> Forall (fun g => 0 <= gs_count g <= 4) sets -> gain_shape st ->
  (forall e st', gain_shape st' -> (e = 0 -> ginv sets (length sets) st') -> Q (e, st')) -> wp (read_gain p sets st) Q.
Proof.
  intros PG LS HC S HQ. unfold read_gain. apply wp_bindi.
  apply (wp_forE (ginv sets) (fun _ st => gain_shape st)).
  - split; [exact S|]. intros; lia.
  - intros j t Hj Ht. apply set_wp; auto. lia.
  - intros t Ht. change (negb (0 =? 0)) with false. cbn match. apply wp_bindi, wp_rd; [lia|]. intros f _.
    destruct (f =? 1); [apply wp_bindi, gain_ext_wp; intros e|]; apply wp_ret, HQ; try apply Ht; intros; exact Ht.
  - intros e t He Ht. replace (negb (e =? 0)) with true by lia. apply wp_ret, HQ; [exact Ht|lia].
Qed.

Lemma table_par tb tm low : table_of tb tm -> par_good (mkGP tm tb 1024 low).
Proof.
  intros H. apply table_of_inv in H. assert (G := inv_good _ _ H). destruct H as (T & _).
  split; [reflexivity|]. split; [cbn; lia|exact G].
Qed.
