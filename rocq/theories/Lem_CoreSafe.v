(** * Lem_CoreSafe: no header of a channel pair leads to undefined behaviour *)

From Coq Require Import ZArith List Lia Bool.
From Verif Require Import Bits BitBuf Prog Wp Loops Leaf Config Oam CoreIcs CoreSte CorePair Spec_CoreIcs Lem_Asi Spec_Asi Lem_AsiRT Lem_ConfigSafe Lem_MctBand Lem_MctSafe
  Lem_CoreIcs Lem_CoreTns Spec_CoreSte Lem_CoreSte Spec_CorePair Lem_CorePair.
Import ListNotations.
Open Scope list_scope.
Open Scope Z_scope.

Lemma wp_ends grp gd : 0 <= grp < 128 -> len gd = 8%nat ->
  wp (grp_ends grp gd) (fun g => exists same, len same = 7%nat /\ g = ends 0 (runs 1 same) ++ skipn (len (runs 1 same)) gd).
Proof.
  intros H1 H2. set (same := bits_of 7 grp). assert (L : len same = 7%nat) by apply bits_of_length.
  assert (E : grp = val_of same) by (unfold same; rewrite val_bits_of; [reflexivity|exact H1]). rewrite E. clear E H1.
  apply (wp_mono _ (fun g => g = ends 0 (runs 1 same) ++ skipn (len (runs 1 same)) gd)); [intros g ->; exists same; auto|].
  clearbody same. split_list same L. split_list gd H2.
  repeat match goal with b : bool |- _ => destruct b end; exact eq_refl.
Qed.
Lemma wp_lens same tail gl : len same = 7%nat -> len gl = 8%nat ->
  wp (grp_lens 9 (ends 0 (runs 1 same) ++ tail) 0 0 gl) (fun r => r = (Z.of_nat (len (runs 1 same)), runs 1 same ++ skipn (len (runs 1 same)) gl)).
Proof.
  intros H1 H2. split_list same H1. split_list gl H2.
  repeat match goal with b : bool |- _ => destruct b end; exact eq_refl.
Qed.

Lemma wp_offsets ws gl ng tbl : (len ws <= 15)%nat -> (ng <= 8)%nat -> len gl = 8%nat -> len tbl = 125%nat ->
  wp (grp_offsets ws gl ng tbl) (fun t => len t = 125%nat).
Proof.
  intros H1 H2 H3 H4. unfold grp_offsets. apply wp_bindi.
  apply (wp_for (fun g st => len (snd st) = 125%nat /\ snd (fst st) = Z.of_nat (g * len ws))).
  - cbn. auto.
  - intros g [[off k] t] G [I1 I2]. cbn [fst snd] in *. apply wp_bindi, wp_get; [lia|]. intros n _.
    apply (wp_for (fun b st => len (snd st) = 125%nat /\ snd (fst st) = Z.of_nat (g * len ws + b))).
    + cbn [fst snd]. rewrite Nat.add_0_r. auto.
    + intros b [[off' k'] t'] B [J1 J2]. cbn [fst snd] in *. unfold grp_band. apply wp_bindi, wp_get; [lia|]. intros w _. cbv zeta.
      apply wp_bindi. apply wp_asetL; [rewrite J1, J2; nia|]. intros l' L' _. apply wp_ret. cbn [fst snd]. split; lia.
    + intros [[off' k'] t'] [J1 J2]. cbn [fst snd Nat.add] in *. split; [auto|]. rewrite J2. f_equal. lia.
  - intros [[off k] t] [I1 _]. cbn [fst snd] in *. apply wp_ret. exact I1.
Qed.

(** What is known of a window after it was read without error. *)
Definition win_ok (nl : Z) (ns : nat) (w : wst) (si : sinfo) : Prop :=
  w_seq w <= 4 /\ exists gs tail, w_gd w = ends 0 gs ++ tail /\ Forall (fun g => 0 < g) gs /\ (1 <= len gs <= 8)%nat /\
  if w_seq w =? 2 then 0 <= w_max w <= Z.of_nat ns /\ zsum gs = 8 /\ g_num si = Z.of_nat (len gs)
  else 0 <= w_max w <= nl /\ gs = [1].

Lemma wp_ics nl ws prev w si : (len ws <= 15)%nat -> len (w_gd w) = 8%nat -> si_dim si ->
  wp (ics_info nl ws prev w si) (fun r => let '(e, (w', si')) := r in
    len (w_gd w') = 8%nat /\ si_dim si' /\ (e = 0 -> win_ok nl (len ws) w' si')).
Proof.
  intros L G D. unfold ics_info. apply wp_bindi, wp_rd; [lia|]. intros c Hc. cbv zeta.
  assert (S4 : win_seq_select c prev <= 4). { unfold win_seq_select. repeat (match goal with |- context [if ?b then _ else _] => destruct b end); lia. }
  destruct (win_seq_select c prev =? -1). { apply wp_ret. cbn. split; [auto|]. split; [auto|]. discriminate. }
  apply wp_bindi, wp_rd; [lia|]. intros sh _. cbn [w_gd w_shape w_max].
  destruct (win_seq_select c prev =? 2) eqn:E2.
  - apply wp_bindi, wp_rd; [lia|]. intros m Hm. change (2 ^ 4) with 16 in Hm. apply wp_bindi, wp_rd; [lia|]. intros g Hg. change (2 ^ 7) with 128 in Hg.
    destruct (Z.ltb_spec (Z.of_nat (len ws)) m) as [|LM]. { apply wp_ret. cbn. split; [auto|]. split; [auto|]. discriminate. }
    apply wp_bindi. eapply wp_mono; [|apply wp_ends; [lia|exact G]]. intros gd (same & LS & ->).
    destruct (runs_facts same LS) as (F1 & F2 & F3).
    unfold calc_grp_offset. rewrite !wp_bind. eapply wp_mono; [|apply wp_lens; [exact LS|apply D]]. intros r ->. cbv beta iota. rewrite wp_bind.
    rewrite Nat2Z.id. eapply wp_mono; [|apply wp_offsets; [exact L|lia| |apply D]].
    2:{ rewrite app_length, skipn_length. destruct D as [D _]. lia. }
    intros tbl LT. apply wp_ret. apply wp_ret.
    assert (LE : forall l f, len (ends f l) = len l) by (induction l; intros; cbn; auto).
    split; [cbn [w_gd]; rewrite app_length, LE, skipn_length; lia|]. split.
    { split; cbn [g_len g_tbl]; [rewrite app_length, skipn_length; destruct D as [D _]; lia|exact LT]. }
    intros _. split; [exact S4|]. exists (runs 1 same), (skipn (len (runs 1 same)) (w_gd w)). cbn [w_gd w_seq w_max g_num]. rewrite E2. repeat split; auto; try lia.
    eapply Forall_impl; [|exact F2]. cbn. lia.
  - apply wp_bindi, wp_rd; [lia|]. intros m Hm. change (2 ^ 6) with 64 in Hm. apply wp_bindi.
    destruct (w_gd w) as [|g0 gd] eqn:EG; [cbn in G; lia|]. apply wp_asetL; [cbn [len]; lia|]. intros l' L' El.
    destruct (Z.ltb_spec nl m) as [|LM]; apply wp_ret; (split; [cbn [w_gd]; rewrite L'; exact G|]); (split; [exact D|]); [discriminate|].
    intros _. split; [exact S4|]. exists [1], gd. cbn [w_gd w_seq w_max]. rewrite E2. repeat split; auto; try lia; try (cbn; lia). repeat constructor; lia.
Qed.

(** TNS *)
Lemma wp_upd2 {A} (l : list A) i v (Q : list A -> Prop) : 0 <= i < Z.of_nat (len l) -> Q (upd1 l (Z.to_nat i) v) -> wp (aset l i v) Q.
Proof. intros H HQ. rewrite <- (Z2Nat.id i) by lia. apply wp_upd; [lia|exact HQ]. Qed.

Lemma upd1_Forall {A} (P : A -> Prop) l i v : (i < len l)%nat -> Forall P l -> P v -> Forall P (upd1 l i v).
Proof.
  intros H F V. apply Forall_forall. intros x Hx. apply In_nth_error in Hx. destruct Hx as [j J].
  destruct (Nat.eq_dec j i) as [->|N]; [rewrite upd1_eq in J by exact H; injection J as <-; exact V|].
  rewrite upd1_neq in J by auto. rewrite Forall_forall in F. apply F. eapply nth_error_In; eauto.
Qed.

Lemma wp_tfilter sb ob res top f : (sb = 6 /\ ob = 4 \/ sb = 4 /\ ob = 3) -> 3 <= res <= 4 -> len (f_coef f) = 15%nat ->
  wp (tns_filter sb ob res top f) (fun r => len (f_coef (snd (snd r))) = 15%nat).
Proof.
  intros W R L. unfold tns_filter. apply wp_bindi, wp_rd; [lia|]. intros n _. cbv zeta.
  destruct (top - n <=? 0); [apply wp_ret; exact L|]. apply wp_bindi, wp_rd; [lia|]. intros o Ho.
  assert (O16 : 0 <= o < 16). { destruct W as [[_ ->]|[_ ->]]; [change (2 ^ 4) with 16 in Ho|change (2 ^ 3) with 8 in Ho]; lia. }
  destruct (o =? 0); [apply wp_ret; exact L|]. apply wp_bindi, wp_rd; [lia|]. intros d _. apply wp_bindi, wp_rd; [lia|]. intros c Hc. change (2 ^ 1) with 2 in Hc.
  apply wp_bindi. apply (wp_for (fun _ l => len l = 15%nat)); [exact L| |].
  - intros k l K Hl. unfold tns_coef. apply wp_bindi. apply wp_aget; [cbn; lia|]. intros sm _. apply wp_bindi. apply wp_aget; [cbn; lia|]. intros nm _.
    apply wp_bindi, wp_rd; [lia|]. intros t _. apply wp_upd; [lia|]. rewrite upd1_len; lia.
  - intros l Hl. apply wp_ret. exact Hl.
Qed.
Lemma wp_twindow nb sb ob bands w : (nb = 2 /\ sb = 6 /\ ob = 4 \/ nb = 1 /\ sb = 4 /\ ob = 3) -> dim_twin w ->
  wp (tns_window nb sb ob bands w) (fun r => dim_twin (snd r)).
Proof.
  intros W [D1 D2]. unfold tns_window. apply wp_bindi, wp_rd; [lia|]. intros n Hn.
  assert (N4 : 0 <= n < 4). { destruct W as [(-> & _)|(-> & _)]; [change (2 ^ 2) with 4 in Hn|change (2 ^ 1) with 2 in Hn]; lia. }
  destruct (n =? 0); [apply wp_ret; split; auto|]. apply wp_bindi, wp_rd; [lia|]. intros r Hr. change (2 ^ 1) with 2 in Hr. apply wp_bindi.
  set (I := fun st : Z * list tfilt => len (snd st) = 3%nat /\ Forall (fun g => len (f_coef g) = 15%nat) (snd st)).
  apply (wp_forE (fun _ st => I st) (fun _ st => I st)); [split; auto| | |].
  - intros j [top fs] J [I1 I2]. cbn [snd] in *. apply wp_bindi, wp_get; [lia|]. intros f F. apply wp_bindi.
    eapply wp_mono; [|apply wp_tfilter; [lia|lia|]]. 2:{ rewrite Forall_forall in I2. apply I2. eapply nth_error_In; eauto. }
    intros [e [top' f']] Lf. cbn [snd] in Lf. apply wp_bindi, wp_upd; [lia|]. apply wp_ret. cbn [fst snd].
    assert (X : I (top', upd1 fs j f')) by (split; cbn [snd]; [rewrite upd1_len; lia|apply upd1_Forall; auto; lia]). destruct (e =? 0); exact X.
  - intros [top fs] [I1 I2]. apply wp_ret. split; [exact I1|exact I2].
  - intros e [top fs] _ [I1 I2]. apply wp_ret. split; [exact I1|exact I2].
Qed.
Lemma wp_tns nl ns info t : dim_tns t -> wp (read_tns nl ns info t) (fun r => dim_tns (snd r)).
Proof.
  intros [D1 D2]. unfold read_tns. destruct info as [islong|]; [|apply wp_ret; split; auto]. cbv zeta.
  set (I := fun ws : list twin => len ws = 8%nat /\ Forall dim_twin ws).
  assert (X : forall n nb sb ob bands, (n <= 8)%nat -> (nb = 2 /\ sb = 6 /\ ob = 4 \/ nb = 1 /\ sb = 4 /\ ob = 3) ->
    wp (forE n 0 (fun (i : nat) ws => w <- aget ws (Z.of_nat i) ;; '(e, w) <- tns_window nb sb ob bands w ;; ws <- aset ws (Z.of_nat i) w ;; Ret (e, ws)) (t_win t)) (fun r => I (snd r))).
  { intros n nb sb ob bands N W. apply (wp_forE (fun _ st => I st) (fun _ st => I st)); [split; auto| |auto|auto].
    intros j ws J [I1 I2]. apply wp_bindi, wp_get; [lia|]. intros w F. apply wp_bindi.
    eapply wp_mono; [|apply wp_twindow; [exact W|]]. 2:{ rewrite Forall_forall in I2. apply I2. eapply nth_error_In; eauto. }
    intros [e w'] Dw. cbn [snd] in Dw. apply wp_bindi, wp_upd; [lia|]. apply wp_ret. cbn [fst snd].
    assert (Y : I (upd1 ws j w')) by (split; [rewrite upd1_len; lia|apply upd1_Forall; auto; lia]). destruct (e =? 0); exact Y. }
  destruct islong; apply wp_bindi; (eapply wp_mono; [|apply X; [cbn; lia|lia]]); intros [e ws] [I1 I2]; apply wp_ret; split; auto.
Qed.

(** ** Codewords: the table is complete *)
Fixpoint canon (tab : list (Z * Z * Z)) : bool :=
  match tab with
  | [] => true
  | (_, l, c) :: r => (0 <=? l) && (l <=? 19) && match r with
      | [] => c + 1 =? 2 ^ l
      | (_, l', c') :: _ => (l <=? l') && (c' =? (c + 1) * 2 ^ (l' - l))
      end && canon r
  end.
Lemma lor_low a b d : 0 <= d -> 0 <= b < 2 ^ d -> Z.lor (Z.shiftl a d) b = a * 2 ^ d + b.
Proof.
  intros D B. rewrite Z.shiftl_mul_pow2 by lia.
  assert (E : Z.land (a * 2 ^ d) b = 0).
  { apply Z.bits_inj'. intros n Hn. rewrite Z.land_spec, Z.bits_0.
    destruct (Z.lt_ge_cases n d).
    - rewrite Z.mul_pow2_bits_low by lia. reflexivity.
    - replace (Z.testbit b n) with false; [apply andb_false_r|].
      symmetry. rewrite Z.testbit_false by lia.
      rewrite Z.div_small; [reflexivity|].
      split; [lia|]. apply Z.lt_le_trans with (2 ^ d); [lia|].
      apply Z.pow_le_mono_r; lia. }
  rewrite <- Z.lxor_lor by exact E. symmetry. apply Z.add_nocarry_lxor, E.
Qed.
Lemma wp_cw tab : forall code ix l c r (Q : Z -> Prop), tab = (ix, l, c) :: r -> canon tab = true -> c <= code < 2 ^ l ->
  (forall e, In e tab -> Q (fst (fst e))) -> wp (cw_from tab l code) Q.
Proof.
  induction tab as [|[[ix0 l0] c0] tab IH]; intros code ix l c r Q E C H HQ; [discriminate|]. injection E as -> -> -> <-.
  cbn [cw_from]. destruct (Z.eqb_spec code c) as [->|N]; [apply wp_ret; apply (HQ (ix, l, c)); left; reflexivity|].
  cbn [canon] in C. rewrite !andb_true_iff in C. destruct C as [[[C1 C2] C3] C4]. apply Z.leb_le in C1, C2.
  destruct tab as [|[[ix' l'] c'] tab']; [apply Z.eqb_eq in C3; lia|].
  apply andb_true_iff in C3. destruct C3 as [C3 C5]. apply Z.leb_le in C3. apply Z.eqb_eq in C5.
  assert (C6 : l' <= 19). { cbn [canon] in C4. rewrite !andb_true_iff in C4. destruct C4 as [[[_ C6] _] _]. apply Z.leb_le in C6. exact C6. }
  replace (l' - l <? 0) with false by (symmetry; apply Z.ltb_ge; lia). cbv zeta.
  apply wp_bindi, wp_rd; [lia|]. intros b Hb.
  assert (EL : Z.lor (Z.shiftl code (l' - l)) b = code * 2 ^ (l' - l) + b).
  { apply lor_low; lia. }
  rewrite EL. replace (l + (l' - l)) with l' by lia.
  eapply (IH _ ix' l' c' tab'); [reflexivity|exact C4| |].
  - subst c'. assert (P : 0 < 2 ^ (l' - l)) by (apply Z.pow_pos_nonneg; lia). replace (2 ^ l') with (2 ^ l * 2 ^ (l' - l)) by (rewrite <- Z.pow_add_r by lia; f_equal; lia). nia.
  - intros e He. apply HQ. right. exact He.
Qed.
Lemma scl_canon : canon scl_book = true. Proof. vm_compute. reflexivity. Qed.
Lemma scl_range : forallb (fun e => (0 <=? fst (fst e)) && (fst (fst e) <=? 120)) scl_book = true. Proof. vm_compute. reflexivity. Qed.
Lemma wp_codeword (Q : Z -> Prop) : (forall x, 0 <= x <= 120 -> Q x) -> wp (codeword scl_book) Q.
Proof.
  intros HQ. assert (E : exists r, scl_book = (60, 1, 0) :: r) by (eexists; reflexivity). destruct E as [r E].
  unfold codeword. rewrite E at 1. apply wp_bindi, wp_rd; [lia|]. intros v Hv. eapply wp_cw; [exact E|apply scl_canon|lia|].
  intros e He. apply HQ. pose proof scl_range as R. rewrite forallb_forall in R. specialize (R e He). apply andb_true_iff in R. rewrite !Z.leb_le in R. lia.
Qed.

(** ** Prediction *)
Definition row_ok (C : Z) (l : list Z) : Prop := len l = 136%nat /\ Forall (fun x => - C <= x <= C) l.
Definition bound (l : list Z) (C : Z) : Prop := Forall (fun x => - C <= x <= C) l.
Lemma row_mono C C' l : C <= C' -> row_ok C l -> row_ok C' l.
Proof. intros H [L F]. split; auto. eapply Forall_impl; [|exact F]. cbn. lia. Qed.
Lemma row_upd C l i v : (i < 136)%nat -> row_ok C l -> - C <= v <= C -> row_ok C (upd1 l i v).
Proof. intros I [L F] V. split; [rewrite upd1_len; lia|]. apply upd1_Forall; auto. lia. Qed.
Lemma row_get C l i v : row_ok C l -> nth_error l i = Some v -> - C <= v <= C.
Proof. intros [_ F] N. rewrite Forall_forall in F. apply F. eapply nth_error_In; eauto. Qed.

Lemma wp_fillr C l from n v : (from + n <= 136)%nat -> row_ok C l -> - C <= v <= C -> wp (fillr l from n v) (row_ok C).
Proof.
  intros H R V. unfold fillr. apply (wp_for (fun _ t => row_ok C t)); [exact R| |auto].
  intros j t J T. apply wp_upd; [destruct T; lia|]. apply row_upd; auto. lia.
Qed.

Lemma wp_band dt cplx ms used b C re im rp ip : (2 * b < ms)%nat -> (ms <= 136)%nat -> len used = 136%nat -> 0 <= C -> C + 61 < 2 ^ 31 ->
  row_ok C re -> row_ok C im -> row_ok C rp -> row_ok C ip ->
  wp (alpha_band dt cplx ms used b (re, im, rp, ip)) (fun st => let '(re, im, rp, ip) := st in
    row_ok (C + 60) re /\ row_ok (C + 60) im /\ row_ok (C + 60) rp /\ row_ok (C + 60) ip).
Proof.
  intros B M U C0 C1 R1 R2 R3 R4. unfold alpha_band. apply wp_bindi. unfold alpha_get. apply wp_bindi.
  assert (X : wp (if dt =? 0 then
      if (0 <? 2 * b)%nat then
        x <- aget re (Z.of_nat (2 * b) - 1) ;; y <- aget im (Z.of_nat (2 * b) - 1) ;; Ret (x, y)
      else Ret (0, 0)
    else x <- aget rp (Z.of_nat (2 * b)) ;; y <- aget ip (Z.of_nat (2 * b)) ;; Ret (x, y)) (fun p => - C <= fst p <= C /\ - C <= snd p <= C)).
  { destruct (dt =? 0).
    - destruct (Nat.ltb_spec 0 (2 * b)); [|apply wp_ret; cbn; lia].
      apply wp_bindi. apply wp_aget; [destruct R1; lia|]. intros x Nx. apply wp_bindi. apply wp_aget; [destruct R2; lia|]. intros y Ny.
      apply wp_ret. cbn. split; [apply (row_get C re _ x R1 Nx)|apply (row_get C im _ y R2 Ny)].
    - apply wp_bindi. apply wp_get; [destruct R3; lia|]. intros x Nx. apply wp_bindi. apply wp_get; [destruct R4; lia|]. intros y Ny.
      apply wp_ret. cbn. split; [apply (row_get C rp _ x R3 Nx)|apply (row_get C ip _ y R4 Ny)]. }
  eapply wp_mono; [|exact X]. intros [lr li] [P1 P2]. cbn [fst snd] in *. clear X.
  apply wp_bindi. apply wp_get; [lia|]. intros u _.
  assert (PUT : forall r i, - (C + 60) <= r <= C + 60 -> - (C + 60) <= i <= C + 60 ->
    wp (alpha_put ms (2 * b) re im rp ip (r, i)) (fun st => let '(re, im, rp, ip) := st in
    row_ok (C + 60) re /\ row_ok (C + 60) im /\ row_ok (C + 60) rp /\ row_ok (C + 60) ip)).
  { intros r i Hr Hi. apply (row_mono C (C + 60)) in R1; [|lia]. apply (row_mono C (C + 60)) in R2; [|lia]. apply (row_mono C (C + 60)) in R3; [|lia]. apply (row_mono C (C + 60)) in R4; [|lia].
    unfold alpha_put. apply wp_bindi. apply wp_upd; [destruct R1; lia|]. apply (row_upd _ re (2 * b) r) in R1; [|lia|exact Hr].
    apply wp_bindi. apply wp_upd; [destruct R2; lia|]. apply (row_upd _ im (2 * b) i) in R2; [|lia|exact Hi].
    apply wp_bindi.
    assert (W2 : wp (if (2 * b + 1 <? ms)%nat then re <- aset (upd1 re (2 * b) r) (Z.of_nat (2 * b + 1)) r ;; im <- aset (upd1 im (2 * b) i) (Z.of_nat (2 * b + 1)) i ;; Ret (re, im)
       else Ret (upd1 re (2 * b) r, upd1 im (2 * b) i)) (fun p => row_ok (C + 60) (fst p) /\ row_ok (C + 60) (snd p))).
    { destruct (Nat.ltb_spec (2 * b + 1) ms); [|apply wp_ret; auto].
      apply wp_bindi. apply wp_upd; [destruct R1; lia|]. apply wp_bindi. apply wp_upd; [destruct R2; lia|]. apply wp_ret. split; apply row_upd; auto; lia. }
    eapply wp_mono; [|exact W2]. intros [re' im'] [Q1 Q2]. cbn [fst snd] in *.
    apply wp_bindi. apply wp_upd; [destruct R3; lia|]. apply wp_bindi. apply wp_upd; [destruct R4; lia|]. apply wp_ret.
    repeat split; try apply Q1; try apply Q2; try (rewrite upd1_len; [apply R3|destruct R3; lia]); try (rewrite upd1_len; [apply R4|destruct R4; lia]); apply row_upd; auto; lia. }
  destruct (u =? 0); [apply wp_ret; apply PUT; lia|].
  apply wp_bindi. apply wp_codeword. intros x Hx. apply wp_bindi. apply wp_addi; [lia|].
  destruct (negb (cplx =? 0)).
  - apply wp_bindi. apply wp_codeword. intros y Hy. apply wp_bindi. apply wp_addi; [lia|]. apply wp_ret. apply PUT; lia.
  - apply wp_ret. apply PUT; lia.
Qed.

Definition rows_ok (C : Z) (l : list (list Z)) : Prop := len l = 8%nat /\ Forall (row_ok C) l.
Lemma rows_mono C C' l : C <= C' -> rows_ok C l -> rows_ok C' l.
Proof. intros H [L F]. split; auto. eapply Forall_impl; [|exact F]. intros r. apply row_mono. exact H. Qed.

Lemma wp_grp dt cplx ms u g C re im rp ip : (g < 8)%nat -> (ms <= 64)%nat -> rows u -> 0 <= C -> C + 5000 < 2 ^ 31 ->
  rows_ok C re -> rows_ok C im -> row_ok C rp -> row_ok C ip ->
  wp (alpha_grp dt cplx ms u g (re, im, rp, ip)) (fun st => let '(re, im, rp, ip) := st in
    rows_ok (C + 3000) re /\ rows_ok (C + 3000) im /\ row_ok (C + 3000) rp /\ row_ok (C + 3000) ip).
Proof.
  intros G M [U1 U2] C0 C1 [R1 F1] [R2 F2] R3 R4. unfold alpha_grp.
  apply wp_bindi, wp_get; [lia|]. intros used N0. apply wp_bindi, wp_get; [lia|]. intros rre N1. apply wp_bindi, wp_get; [lia|]. intros rim N2.
  assert (LU : len used = 136%nat) by (rewrite Forall_forall in U2; apply U2; eapply nth_error_In; eauto).
  assert (L1 : row_ok C rre) by (rewrite Forall_forall in F1; apply F1; eapply nth_error_In; eauto).
  assert (L2 : row_ok C rim) by (rewrite Forall_forall in F2; apply F2; eapply nth_error_In; eauto).
  pose proof (pairs_lt (pairs ms - 1) ms) as PE.
  apply wp_bindi. apply (wp_for (fun b st => let '(re, im, rp, ip) := st in
    let K := C + 60 * Z.of_nat b in row_ok K re /\ row_ok K im /\ row_ok K rp /\ row_ok K ip)).
  - cbv zeta. replace (C + 60 * Z.of_nat 0) with C by lia. auto.
  - intros b [[[a1 a2] a3] a4] B (I1 & I2 & I3 & I4). cbv zeta in *.
    pose proof (pairs_lt b ms). eapply wp_mono; [|apply (wp_band dt cplx ms used b (C + 60 * Z.of_nat b)); auto; lia].
    intros [[[b1 b2] b3] b4]. replace (C + 60 * Z.of_nat (S b)) with (C + 60 * Z.of_nat b + 60) by lia. auto.
  - intros [[[a1 a2] a3] a4] (I1 & I2 & I3 & I4). cbn [Nat.add] in *. cbv zeta in *. set (K := C + 60 * Z.of_nat (pairs ms)) in *.
    assert (KB : K <= C + 3000 /\ 0 <= K) by (unfold K; lia).
    apply wp_bindi. eapply wp_mono; [|apply (wp_fillr K); [lia|exact I1|lia]]. intros c1 H1.
    apply wp_bindi. eapply wp_mono; [|apply (wp_fillr K); [lia|exact I2|lia]]. intros c2 H2.
    apply wp_bindi. eapply wp_mono; [|apply (wp_fillr K); [lia|exact I3|lia]]. intros c3 H3.
    apply wp_bindi. eapply wp_mono; [|apply (wp_fillr K); [lia|exact I4|lia]]. intros c4 H4.
    apply (row_mono K (C + 3000)) in H1; [|lia]. apply (row_mono K (C + 3000)) in H2; [|lia]. apply (row_mono K (C + 3000)) in H3; [|lia]. apply (row_mono K (C + 3000)) in H4; [|lia].
    apply wp_bindi, wp_upd; [lia|]. apply wp_bindi, wp_upd; [lia|]. apply wp_ret.
    assert (F1' : rows_ok (C + 3000) re) by (apply (rows_mono C); [lia|split; auto]). assert (F2' : rows_ok (C + 3000) im) by (apply (rows_mono C); [lia|split; auto]).
    split; [|split; [|split; [exact H3|exact H4]]]; (split; [rewrite upd1_len; lia|]); apply upd1_Forall; auto; try lia; [apply F1'|apply F2'].
Qed.

(** The coefficients a decoder holds, bounded by [C]. *)
Definition ste_ok (C : Z) (s : ste) : Prop := rows (c_used s) /\ rows_ok C (c_re s) /\ rows_ok C (c_im s) /\ row_ok C (c_rp s) /\ row_ok C (c_ip s).
Ltac sp := repeat match goal with |- _ /\ _ => split end.
Lemma ste_mono C C' s : C <= C' -> ste_ok C s -> ste_ok C' s.
Proof. intros H (A & B & D & E & F). unfold ste_ok. sp; auto; try (apply (rows_mono C); auto); apply (row_mono C); auto. Qed.

Lemma wp_used all ms g u : (g < 8)%nat -> (ms <= 64)%nat -> rows u -> wp (used_grp all ms g u) rows.
Proof.
  intros G M [U1 U2]. unfold used_grp. apply wp_bindi, wp_get; [lia|]. intros row N.
  assert (L : len row = 136%nat) by (rewrite Forall_forall in U2; apply U2; eapply nth_error_In; eauto).
  assert (FL : forall from n v l, (from + n <= 136)%nat -> len l = 136%nat -> wp (fillr l from n v) (fun l => len l = 136%nat)).
  { intros from n v l H Hl. unfold fillr. apply (wp_for (fun _ t => len t = 136%nat)); [exact Hl| |auto]. intros j t J T. apply wp_upd; [lia|]. rewrite upd1_len; lia. }
  apply wp_bindi. apply (wp_mono _ (fun l => len l = 136%nat)).
  - intros r Lr. apply wp_bindi. eapply wp_mono; [|apply FL; [lia|exact Lr]]. intros r' Lr'. cbv beta in *. apply wp_upd; [lia|]. split; [rewrite upd1_len; lia|]. apply upd1_Forall; auto. lia.
  - destruct (all =? 1); [apply FL; [lia|exact L]|]. apply (wp_for (fun _ t => len t = 136%nat)); [exact L| |auto].
    intros b t B T. pose proof (pairs_lt b ms). unfold used_band. apply wp_bindi, wp_rd; [lia|]. intros v _. apply wp_bindi, wp_upd; [lia|].
    destruct (Nat.ltb_spec (2 * b + 1) ms); [apply wp_upd; [rewrite upd1_len; lia|rewrite upd1_len; [rewrite upd1_len; lia|rewrite upd1_len; lia]]|apply wp_ret; rewrite upd1_len; lia].
Qed.

Lemma wp_pred indep ng ms C s : (ng <= 8)%nat -> (ms <= 64)%nat -> 0 <= C -> C + 30000 < 2 ^ 31 -> ste_ok C s ->
  wp (cplx_pred indep ng ms s) (ste_ok (C + 24000)).
Proof.
  intros G M C0 C1 (S1 & S2 & S3 & S4 & S5). unfold cplx_pred. apply wp_bindi, wp_rd; [lia|]. intros all _. apply wp_bindi.
  apply (wp_for (fun _ u => rows u)); [exact S1| |]. { intros j t J T. apply wp_used; auto. lia. }
  intros u U. apply wp_bindi, wp_rd; [lia|]. intros dir _. apply wp_bindi, wp_rd; [lia|]. intros cplx _. apply wp_bindi.
  apply (wp_mono _ (fun _ => True)).
  2:{ destruct (negb (cplx =? 0)); [destruct (indep =? 0)|]; try (apply wp_ret; exact I). apply wp_rd; [lia|auto]. }
  intros pf _. apply wp_bindi. apply (wp_mono _ (fun _ => True)).
  2:{ destruct (indep =? 0); [apply wp_rd; [lia|auto]|apply wp_ret; exact I]. }
  intros dt _. apply wp_bindi.
  apply (wp_for (fun g st => let '(re, im, rp, ip) := st in let K := C + 3000 * Z.of_nat g in rows_ok K re /\ rows_ok K im /\ row_ok K rp /\ row_ok K ip)).
  - cbv zeta. replace (C + 3000 * Z.of_nat 0) with C by lia. auto.
  - intros g [[[a1 a2] a3] a4] B (I1 & I2 & I3 & I4). cbv zeta in *. eapply wp_mono; [|apply (wp_grp dt cplx ms u g (C + 3000 * Z.of_nat g)); auto; lia].
    intros [[[b1 b2] b3] b4]. replace (C + 3000 * Z.of_nat (S g)) with (C + 3000 * Z.of_nat g + 3000) by lia. auto.
  - intros [[[a1 a2] a3] a4] (I1 & I2 & I3 & I4). cbv zeta in *. cbn [Nat.add] in *. apply wp_ret.
    assert (K : C + 3000 * Z.of_nat ng <= C + 24000) by lia.
    split; [exact U|]. cbn. split; [eapply rows_mono; eauto|]. split; [eapply rows_mono; eauto|]. split; eapply row_mono; eauto.
Qed.

(** ** Mid/side *)
Lemma wp_msg fuel : forall all ms nsb mwl gs (first : Z) tail pre k p l, (len gs <= fuel)%nat -> len pre = k ->
  (forall g, In g gs -> 0 < g) -> first + zsum gs = mwl -> first < mwl ->
  len l = 128%nat -> 0 <= p -> (p + Z.of_nat nsb * (Z.of_nat (len gs) - 1) + Z.of_nat (Nat.max ms nsb) <= 128) ->
  wp (ms_groups fuel all ms nsb mwl (pre ++ ends first gs ++ tail) k first p l) (fun l => len l = 128%nat).
Proof.
  induction fuel as [|f IH]; intros all ms nsb mwl gs first tail pre k p l Hf Hk Hg Hs Hm Hl Hp Hb.
  - destruct gs; [cbn in Hs; lia|cbn in Hf; lia].
  - cbn [ms_groups]. destruct (Z.leb_spec mwl first); [apply wp_ret; exact Hl|].
    destruct gs as [|g gs]; [cbn in Hs; lia|]. cbn [ends len zsum fold_right] in *.
    assert (FL : forall v n from l, p + Z.of_nat (from + n) <= 128 -> len l = 128%nat -> wp (forP n from (ms_fill p v) l) (fun l => len l = 128%nat)).
    { intros v n from t H1 H2. apply (wp_for (fun _ t => len t = 128%nat)); [exact H2| |auto]. intros j x J X. unfold ms_fill.
      apply wp_asetL; [rewrite X; lia|]. intros l' L' _. lia. }
    assert (B : p + Z.of_nat (Nat.max ms nsb) <= 128) by nia.
    apply wp_bindi. apply (wp_mono _ (fun l => len l = 128%nat)).
    2:{ destruct all; [apply FL; [lia|exact Hl]|]. apply (wp_for (fun _ t => len t = 128%nat)); [exact Hl| |auto]. intros j x J X. unfold ms_bit.
        apply wp_bindi, wp_rd; [lia|]. intros v _. apply wp_asetL; [rewrite X; lia|]. intros l' L' _. lia. }
    intros l1 L1. apply wp_bindi. apply (wp_mono _ (fun l => len l = 128%nat)).
    2:{ destruct (Nat.ltb_spec ms nsb); [apply FL; [lia|exact L1]|apply wp_ret; exact L1]. }
    intros l2 L2. apply wp_bindi. apply wp_get; [rewrite app_length; cbn [app len]; lia|]. intros x Nx.
    rewrite nth_error_app2 in Nx by lia. replace (k - len pre)%nat with 0%nat in Nx by lia. cbn in Nx. injection Nx as <-.
    assert (ZS : zsum (g :: gs) = g + zsum gs) by reflexivity.
    destruct gs as [|g' gs'].
    + destruct f as [|f']; cbn [ms_groups]; (destruct (Z.leb_spec mwl (first + g)); [apply wp_ret; exact L2|exfalso; unfold zsum in Hs; cbn [fold_right] in Hs; lia]).
    + replace (pre ++ (first + g :: ends (first + g) (g' :: gs')) ++ tail) with ((pre ++ [first + g]) ++ ends (first + g) (g' :: gs') ++ tail) by (rewrite <- app_assoc; reflexivity).
      assert (G' : 0 < g') by (apply Hg; right; left; reflexivity).
      assert (ZP : forall l, (forall x, In x l -> 0 < x) -> 0 <= zsum l). { clear. unfold zsum. induction l as [|a l IHl]; intros H'; cbn [fold_right]; [lia|]. specialize (IHl (fun x h => H' x (or_intror h))). pose proof (H' a (or_introl eq_refl)). lia. }
      assert (0 <= zsum gs') by (apply ZP; intros x Hx; apply Hg; right; right; exact Hx).
      apply IH; auto.
      * cbn [len] in *. lia.
      * rewrite app_length. cbn. lia.
      * intros x Hx. apply Hg. right. exact Hx.
      * unfold zsum in *; cbn [fold_right] in *. lia.
      * unfold zsum in *; cbn [fold_right] in *. lia.
      * lia.
      * cbn [len] in *. nia.
Qed.

Lemma wp_mask indep C nl ns w si r s used il :
  win_ok nl ns w si -> il = negb (w_seq w =? 2) -> 0 < nl < 64 -> (0 < ns <= 15)%nat -> 0 <= r < (if il then 64 else 16) ->
  0 <= C -> C + 30000 < 2 ^ 31 -> ste_ok C s -> len used = 128%nat ->
  wp (ms_mask indep (Z.to_nat (if il then 1 else g_num si)) (Z.to_nat (Z.max (w_max w) r)) (Z.to_nat (if il then nl else Z.of_nat ns)) (if il then 1 else 8) (w_gd w) s used)
    (fun x => ste_ok (C + 24000) (snd (fst x)) /\ len (snd x) = 128%nat).
Proof.
  intros (_ & gs & tail & E & F & LG & K) IL NL NS R C0 C1 SO LU. unfold ms_mask.
  assert (SO' : ste_ok (C + 24000) s) by (apply (ste_mono C); [lia|exact SO]).
  assert (FG : forall g, In g gs -> 0 < g) by (intros g; rewrite Forall_forall in F; apply F).
  assert (X : forall all, wp (ms_groups 9 all (Z.to_nat (Z.max (w_max w) r)) (Z.to_nat (if il then nl else Z.of_nat ns)) (if il then 1 else 8) (w_gd w) 0 0 0 used) (fun l => len l = 128%nat)).
  { intros all. rewrite E. subst il. destruct (w_seq w =? 2); cbn [negb] in *.
    - destruct K as (K1 & K2 & _). apply (wp_msg 9 all _ _ _ gs 0 tail [] 0%nat 0); auto; try lia. nia.
    - destruct K as (K1 & ->). apply (wp_msg 9 all _ _ _ [1] 0 tail [] 0%nat 0); auto; try (cbn [len]; lia). }
  apply wp_bindi, wp_rd; [lia|]. intros m _. destruct (m =? 3).
  - apply wp_bindi. eapply wp_mono; [|apply (wp_pred indep _ _ C); auto].
    + intros s' S'. apply wp_ret. split; auto.
    + subst il. destruct (w_seq w =? 2); cbn [negb] in *; [|lia]. destruct K as (_ & _ & ->). lia.
    + subst il. destruct (w_seq w =? 2); cbn [negb] in *; destruct K as (K1 & _); lia.
  - destruct (m =? 2); [|destruct (m =? 1)]; try (apply wp_bindi; eapply wp_mono; [|apply X]; intros l Ll); apply wp_ret; split; auto.
Qed.

(** ** The header *)
Definition pst_ok (C : Z) (s : pst) : Prop :=
  len (w_gd (p_wl s)) = 8%nat /\ si_dim (p_si s) /\ ste_ok C (p_ste s) /\ len (p_ms s) = 128%nat /\ dim_tns (p_tl s) /\ dim_tns (p_tr s).

Lemma wp_window indep enf0 nl ws prev C s : 0 < nl < 64 -> (0 < len ws <= 15)%nat -> 0 <= C -> C + 30000 < 2 ^ 31 -> pst_ok C s ->
  wp (pair_window indep enf0 nl ws prev s) (fun r => pst_ok (C + 24000) (snd r)).
Proof.
  intros NL NS C0 C1 (P1 & P2 & P3 & P4 & P5 & P6). assert (P3' : ste_ok (C + 24000) (p_ste s)) by (apply (ste_mono C); [lia|exact P3]).
  unfold pair_window. apply wp_bindi. eapply wp_mono; [|apply wp_ics; [lia|exact P1|exact P2]].
  intros [e [wl si]] (Q1 & Q2 & Q3). destruct (e =? 0) eqn:Ee; cbn [negb].
  2:{ apply wp_ret. unfold pst_ok; sp; cbn; auto. }
  apply Z.eqb_eq in Ee. specialize (Q3 Ee). apply wp_bindi, wp_rd; [lia|]. intros cm _. apply wp_bindi.
  apply (wp_mono _ (fun r => 0 <= r < (if negb (w_seq wl =? 2) then 64 else 16))).
  2:{ destruct (cm =? 1).
      - apply wp_ret. destruct Q3 as (_ & gs & tail & _ & _ & _ & K). destruct (w_seq wl =? 2); cbn [negb]; destruct K; lia.
      - destruct (negb (w_seq wl =? 2)); (apply wp_rd; [lia|]); intros v Hv; exact Hv. }
  intros r Hr. cbv zeta. unfold islong. apply wp_bindi.
  eapply wp_mono; [|eapply (wp_mask indep C nl (len ws) wl si r); eauto].
  intros [[m st] ms] [M1 M2]. cbn [fst snd] in *.
  destruct ((enf0 =? 1) && negb (c_cplx st =? 0)); apply wp_ret; unfold pst_ok; sp; cbn; auto.
Qed.

Lemma wp_pair indep base3b enf0 nl ws prev first info0 C s : 0 < nl < 64 -> (0 < len ws <= 15)%nat -> 0 <= C -> C + 30000 < 2 ^ 31 -> pst_ok C s ->
  wp (pair_head indep base3b enf0 nl ws prev first info0 s) (fun r => pst_ok (C + 24000) (snd r)).
Proof.
  intros NL NS C0 C1 (P1 & P2 & P3 & P4 & P5 & P6). unfold pair_head. apply wp_bindi, wp_rd; [lia|]. intros ta _. apply wp_bindi, wp_rd; [lia|]. intros cw _. cbv zeta.
  set (c := mkSte _ _ _ _ _ 0 0 0). set (s0 := mkPst _ _ _ c _ _ _ _ _ ta cw 0 0 0 0 0 1 0 0 0).
  assert (Z0 : row_ok C (repeat 0 136)) by (split; [reflexivity|repeat constructor; lia]).
  assert (SC : ste_ok C c). { destruct P3 as (A1 & A2 & A3 & A4 & A5). unfold ste_ok; sp; cbn; auto; destruct ((cw =? 0) || negb (indep =? 0)); auto. }
  assert (S0 : pst_ok C s0) by (unfold pst_ok; sp; cbn; auto).
  assert (S1 : pst_ok (C + 24000) s0). { destruct S0 as (A1 & A2 & A3 & A4 & A5 & A6). apply (ste_mono C (C + 24000)) in A3; [|lia]. unfold pst_ok; sp; auto. }
  apply wp_bindi. apply (wp_mono _ (fun r => pst_ok (C + 24000) (snd r))).
  2:{ destruct (cw =? 0); [apply wp_ret; exact S1|]. apply wp_window; auto. }
  clear S0 S1. intros [e s1] S1. cbn [snd] in S1. destruct (negb (e =? 0)); [apply wp_ret; exact S1|]. apply wp_bindi.
  apply (wp_mono _ (fun r => pst_ok (C + 24000) (snd r))).
  2:{ unfold pair_ltpf. cbv zeta. apply wp_bindi, wp_rd; [lia|]. intros cl _. destruct (cl =? 0); [apply wp_ret; exact S1|]. destruct (base3b =? 1); [apply wp_ret; exact S1|].
      apply wp_bindi, wp_rd; [lia|]. intros on _. destruct (on =? 0); [apply wp_ret; exact S1|].
      apply wp_bindi, wp_rd; [lia|]. intros lag _. apply wp_bindi, wp_rd; [lia|]. intros gain _. apply wp_ret. exact S1. }
  intros [e2 s2] S2. cbn [snd] in S2. destruct (negb (e2 =? 0)); [apply wp_ret; exact S2|].
  set (inf := if _ && _ then _ else _). clearbody inf. destruct S2 as (A1 & A2 & A3 & A4 & A5 & A6).
  unfold pair_tns. cbv zeta. destruct (h_ta s2 =? 0); [apply wp_ret; unfold pst_ok; sp; cbn; auto|].
  apply wp_bindi. apply (wp_mono _ (fun _ => True)). 2:{ destruct (h_cw s2 =? 0); [apply wp_ret; exact I|apply wp_rd; [lia|auto]]. }
  intros ct _. apply wp_bindi, wp_rd; [lia|]. intros lr _. destruct (ct =? 0).
  - apply wp_bindi, wp_rd; [lia|]. intros both _. destruct (negb (both =? 0)); [apply wp_ret; unfold pst_ok; sp; cbn; auto|].
    apply wp_bindi, wp_rd; [lia|]. intros d1 _. apply wp_ret; unfold pst_ok; sp; cbn; auto.
  - apply wp_bindi. eapply wp_mono; [|apply wp_tns; exact A5]. intros [e3 t] T. cbn [snd] in T.
    destruct (negb (e3 =? 0)); apply wp_ret; unfold pst_ok; sp; cbn; auto.
Qed.
