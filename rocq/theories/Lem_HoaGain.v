(** * Lem_HoaGain: the gains of an HOA rendering matrix are read back *)

From Coq Require Import ZArith List Lia Bool.
From Verif Require Import Bits BitBuf Prog BitWrite Escape Wp Asi Cicp Hoa Lem_Hoa Spec_Config Lem_ConfigProps Lem_HoaFrm Lem_HoaPred Lem_HoaVec Lem_HoaMat Spec_HoaSym Lem_HoaSym Spec_HoaGain.
Import ListNotations.
Open Scope Z_scope.

Lemma partners : forallb (fun lay => forallb (fun lf =>
    let spks := layout_spk (Z.of_nat lay) in let f := find_symmetric spks (Z.b2z lf) in
    forallb (fun j => implb (leads spks lf j) (match snd (nth j (fst f) (P_CENTER, None)) with
        | Some q => Nat.eqb q (partner spks j) && Nat.ltb j q && Nat.ltb q (length spks) && negb (leads spks lf q) | None => false end)) (seq 0 (length spks))) [true; false]) (seq 0 21) = true.
Proof. vm_compute. reflexivity. Qed.
Lemma layout_partner lay lf : 0 <= lay <= 20 -> forall j, (j < length (layout_spk lay))%nat -> leads (layout_spk lay) lf j = true ->
  snd (nth j (fst (find_symmetric (layout_spk lay) (Z.b2z lf))) (P_CENTER, None)) = Some (partner (layout_spk lay) j) /\
  (j < partner (layout_spk lay) j < length (layout_spk lay))%nat /\ leads (layout_spk lay) lf (partner (layout_spk lay) j) = false.
Proof.
  intros H j Hj Hlead. pose proof partners as L. rewrite forallb_forall in L. specialize (L (Z.to_nat lay)). rewrite in_seq in L. specialize (L ltac:(lia)).
  cbv beta in L. rewrite Z2Nat.id in L by lia. rewrite forallb_forall in L. specialize (L lf ltac:(destruct lf; cbn; auto)).
  cbv beta zeta in L. rewrite forallb_forall in L. specialize (L j). rewrite in_seq in L. specialize (L (conj (Nat.le_0_l _) Hj)). cbv beta in L.
  rewrite Hlead in L. cbn [implb] in L. destruct (snd (nth j (fst (find_symmetric (layout_spk lay) (Z.b2z lf))) (P_CENTER, None))) as [q|]; [|discriminate L].
  apply andb_prop in L as (L & L4). apply andb_prop in L as (L & L3). apply andb_prop in L as (L1 & L2).
  apply Nat.eqb_eq in L1. apply Nat.ltb_lt in L2, L3. apply negb_true_iff in L4. subst q. repeat split; try assumption.
Qed.

Section cells.
Variables (m : hmat) (spks : list spk) (pairs : list (Z * option nat)) (h : mhead) (E : choice) (k : Z).
Hypothesis Hk : 1 <= k <= 7.
Let n := Z.to_nat (k * k).
Let out := length spks.
Hypothesis Hout : (out <= 24)%nat.
Hypothesis Hvb : forall i, (i < n)%nat -> nth_error (m_vbm m) i = Some (if upright i then 1 else 0).
Hypothesis Hsy : forall i, (i < n)%nat -> nth_error (m_syms m) i = Some (flip i).
Hypothesis Hsp : forall i, (i < n)%nat -> nth_error (m_sparse m) i = Some (if flagged h i then 1 else 0).
Hypothesis Hmx : forall o, (o < Z.to_nat k)%nat -> nth_error (m_max m) o = Some (fst (lim_of (hd_lim h) o)).
Hypothesis Hmn : forall o, (o < Z.to_nat k)%nat -> nth_error (m_min m) o = Some (snd (lim_of (hd_lim h) o)).
Hypothesis Hlim : forall o, (o < Z.to_nat k)%nat -> lim_legal (lim_of (hd_lim h) o).
Hypothesis Hisv : forall j, (j < out)%nat -> nth_error (m_isv m) j = Some (Z.b2z (is_value (sym_at spks h j))).
Hypothesis Hiss : forall j, (j < out)%nat -> nth_error (m_iss m) j = Some (Z.b2z (is_sign (sym_at spks h j))).
Hypothesis Hprec : m_prec m = hd_prec h.
Hypothesis Hprec3 : 0 <= hd_prec h <= 3.
Hypothesis Hvert : m_vert m = Z.b2z (hd_vert h).
Hypothesis Hlfer : m_lfer m = Z.b2z (hd_lfer h).
Hypothesis Hzop : m_zop m = Z.b2z (hd_zop h).
Hypothesis Hpair : forall j, (j < out)%nat -> leads spks (hd_lfer h) j = true ->
  snd (nth j pairs (P_CENTER, None)) = Some (partner spks j) /\ (j < partner spks j < out)%nat /\ leads spks (hd_lfer h) (partner spks j) = false.

Lemma sym_lead j : sym_at spks h j <> SNone -> leads spks (hd_lfer h) j = true.
Proof. unfold sym_at, sym_of. destruct (leads spks (hd_lfer h) j); [reflexivity|]. intros H. contradiction. Qed.
Lemma want_partner i j : (j < out)%nat -> sym_at spks h j <> SNone -> want spks h E i (partner spks j) = plain spks h E i (partner spks j).
Proof.
  intros Hj H. destruct (Hpair j Hj (sym_lead j H)) as (_ & _ & Hn). unfold want. unfold sym_at at 1, sym_of. rewrite Hn.
  destruct (dropped h i) eqn:D; [|reflexivity]. unfold plain, sent. rewrite D. reflexivity.
Qed.
Lemma ord_lt i : (i < n)%nat -> 0 <= ord i < k.
Proof.
  intros Hi. unfold ord. split; [apply Z.sqrt_nonneg|]. apply Z.sqrt_lt_square; unfold n in Hi; nia.
Qed.

Lemma cell_run i j mat sgn rest : (i < n)%nat -> (j < out)%nat -> length mat = Z.to_nat 1536 -> length sgn = Z.to_nat 1568 -> cell_ok spks h E i j ->
  (forall q, (j < q < out)%nat -> nth_error mat (i * out + q) = Some (fst (want spks h E i q)) /\ nth_error sgn (i * out + q) = Some (snd (want spks h E i q))) ->
  exists mat' sgn', runA (matrix_cell m spks pairs (Z.of_nat out) (Z.of_nat i) (Z.of_nat j) (mat, sgn)) (cell_bits spks h E i j ++ rest) = Done ((mat', sgn'), rest) /\
    length mat' = length mat /\ length sgn' = length sgn /\
    nth_error mat' (i * out + j) = Some (fst (want spks h E i j)) /\ nth_error sgn' (i * out + j) = Some (snd (want spks h E i j)) /\
    forall c, c <> (i * out + j)%nat -> nth_error mat' c = nth_error mat c /\ nth_error sgn' c = nth_error sgn c.
Proof.
  intros Hi Hj Lm Ls Hok Hq. pose proof (ord_lt i Hi) as Ho.
  assert (N49 : (n <= 49)%nat) by (unfold n; nia). assert (B : (i * out + j < 1176)%nat) by nia.
  assert (Lm' : (i * out + j < length mat)%nat) by lia. assert (Ls' : (i * out + j < length sgn)%nat) by lia.
  unfold matrix_cell. cbv zeta. rewrite Nat2Z.id.
  rewrite (runA_aget _ _ (ord i)).
  2: lia. 2: { rewrite Nat2Z.id. unfold hoa_order_tbl, ord. apply (map_nth_error (fun i => Z.sqrt (Z.of_nat i))). rewrite (nth_e (seq 0 49) i 0%nat) by (rewrite seq_length; lia). rewrite seq_nth by lia. reflexivity. }
  replace (Z.of_nat i * Z.of_nat out + Z.of_nat j) with (Z.of_nat (i * out + j)) by lia.
  set (c := (i * out + j)%nat) in *.
  rewrite runA_bind, aset_run by assumption. cbv beta iota. rewrite runA_bind, aset_run by assumption. cbv beta iota.
  set (mat1 := put mat c GZ). set (sgn1 := put sgn c 1).
  assert (M1 : length mat1 = length mat) by (apply put_len; assumption). assert (S1 : length sgn1 = length sgn) by (apply put_len; assumption).
  assert (Z1 : nth_error mat1 c = Some GZ) by (apply put_same; assumption). assert (Z2 : nth_error sgn1 c = Some 1) by (apply put_same; assumption).
  assert (O1 : forall x, x <> c -> nth_error mat1 x = nth_error mat x /\ nth_error sgn1 x = nth_error sgn x).
  { intros x Hx. split; apply put_other; auto. }
  rewrite (runA_aget _ _ (if upright i then 1 else 0)) by (try lia; rewrite ?Nat2Z.id; apply Hvb, Hi).
  assert (EV : negb ((if upright i then 1 else 0) =? 0) && (m_vert m =? 0) = dropped h i).
  { rewrite Hvert. unfold dropped. destruct (upright i), (hd_vert h); reflexivity. }
  rewrite EV. unfold cell_bits, sent, want. destruct (dropped h i) eqn:ED.
  { cbn [negb andb app]. exists mat1, sgn1. split; [reflexivity|]. cbn [fst snd]. auto 8. }
  cbn [negb andb]. rewrite (runA_aget _ _ (Z.b2z (is_value (sym_at spks h j)))) by (try lia; rewrite ?Nat2Z.id; apply Hisv, Hj).
  assert (PQ : sym_at spks h j <> SNone ->
    nth_error mat1 (i * out + partner spks j) = Some (fst (plain spks h E i (partner spks j))) /\
    nth_error sgn1 (i * out + partner spks j) = Some (snd (plain spks h E i (partner spks j))) /\
    Z.of_nat i * Z.of_nat out + match snd (nth j pairs (P_CENTER, None)) with Some q => Z.of_nat q | None => 0 end = Z.of_nat (i * out + partner spks j)).
  { intros HN. destruct (Hpair j Hj (sym_lead j HN)) as (Q1 & Q2 & _). rewrite Q1.
    destruct (O1 (i * out + partner spks j)%nat ltac:(unfold c; lia)) as (O2 & O3). rewrite O2, O3.
    destruct (Hq (partner spks j) Q2) as (A & A'). rewrite want_partner in A, A' by assumption. split; [exact A|]. split; [exact A'|]. lia. }
  assert (FIN : forall g s, exists mat' sgn', Done ((put mat1 c g, put sgn1 c s), rest) = Done ((mat', sgn'), rest) /\ length mat' = length mat /\ length sgn' = length sgn /\
    nth_error mat' c = Some g /\ nth_error sgn' c = Some s /\ forall x, x <> c -> nth_error mat' x = nth_error mat x /\ nth_error sgn' x = nth_error sgn x).
  { intros g s. do 2 eexists. split; [reflexivity|]. rewrite !put_len by lia. split; [assumption|]. split; [assumption|]. split; [apply put_same; lia|]. split; [apply put_same; lia|].
    intros x Hx. rewrite !put_other by (try lia; auto). apply O1, Hx. }
  destruct (is_value (sym_at spks h j)) eqn:EVal.
  - cbn [Z.b2z]. change (1 =? 0) with false. cbn [negb andb app]. cbv iota.
    assert (HN : sym_at spks h j = SValue) by (destruct (sym_at spks h j); try discriminate EVal; reflexivity).
    destruct (PQ ltac:(rewrite HN; discriminate)) as (Q1 & Q2 & Q3). rewrite Q3. rewrite HN.
    rewrite (runA_aget _ _ (fst (plain spks h E i (partner spks j)))) by (try lia; rewrite ?Nat2Z.id; exact Q1).
    rewrite runA_bind, aset_run by lia. cbv beta iota.
    rewrite (runA_aget _ _ (flip i)) by (try lia; rewrite ?Nat2Z.id; apply Hsy, Hi).
    rewrite (runA_aget _ _ (snd (plain spks h E i (partner spks j)))) by (try lia; rewrite ?Nat2Z.id; exact Q2).
    rewrite runA_bind, aset_run by lia. cbn [runA fst snd]. apply FIN.
  - cbn [Z.b2z]. change (0 =? 0) with true. cbn [negb andb]. cbv iota. rewrite Hlfer.
    assert (EL : negb (s_lfe (nth j spks spk0) =? 0) && (Z.b2z (hd_lfer h) =? 0) = negb ((s_lfe (nth j spks spk0) =? 0) || hd_lfer h)).
    { destruct (s_lfe (nth j spks spk0) =? 0), (hd_lfer h); reflexivity. }
    rewrite EL. unfold cell_ok, sent in Hok. rewrite ED, EVal in Hok. cbn [negb andb] in Hok.
    destruct ((s_lfe (nth j spks spk0) =? 0) || hd_lfer h) eqn:ES.
    2: { cbn [negb app]. exists mat1, sgn1. split; [reflexivity|].
      assert (HN : sym_at spks h j = SNone).
      { destruct (sym_at spks h j) eqn:X; [discriminate EVal| |reflexivity]. exfalso. pose proof (sym_lead j ltac:(rewrite X; discriminate)) as Y.
        unfold leads in Y. rewrite ES, andb_false_r in Y. discriminate Y. }
      rewrite HN. unfold plain, sent. rewrite ED, EVal, ES. cbn [negb andb fst snd]. auto 8. }
    cbn [negb]. cbv iota. specialize (Hok eq_refl).
    assert (PL : plain spks h E i j = match E i j with None => (GZ, 1) | Some (x, s) => (gain_of h i x, if signed h i x && negb s then -1 else 1) end).
    { unfold plain, sent. rewrite ED, EVal, ES. reflexivity. }
    rewrite (runA_aget _ _ (if flagged h i then 1 else 0)) by (try lia; rewrite ?Nat2Z.id; apply Hsp, Hi).
    destruct (E i j) as [(x, s)|] eqn:EE.
    2: { rewrite Hok. change (1 =? 0) with false. cbn [negb app]. cbv iota. rewrite rb1. cbn [Z.b2z]. change (0 =? 0) with true. cbv iota.
      exists mat1, sgn1. split; [reflexivity|]. rewrite PL. destruct (sym_at spks h j); [discriminate EVal| |]; cbn [fst snd]; auto 8. }
    rewrite <- !app_assoc.
    assert (HV : forall B (F : Z -> prog B) bits, runA (hv <- (if negb ((if flagged h i then 1 else 0) =? 0) then rd 1 else Ret 1) ;; F hv) ((if flagged h i then [true] else []) ++ bits) = runA (F 1) bits).
    { intros B0 F bits. destruct (flagged h i); cbn [app].
      - change (1 =? 0) with false. cbn [negb]. cbv iota. rewrite rb1. reflexivity.
      - reflexivity. }
    rewrite HV. change (1 =? 0) with false. cbv iota.
    assert (Oz : ord i = Z.of_nat (Z.to_nat (ord i))) by lia. assert (Ok' : (Z.to_nat (ord i) < Z.to_nat k)%nat) by lia.
    rewrite (runA_aget _ _ (top h i)) by (try lia; apply Hmx, Ok').
    rewrite (runA_aget _ _ (snd (lim_of (hd_lim h) (Z.to_nat (ord i))))) by (try lia; apply Hmn, Ok').
    rewrite Hprec. fold (steps h i).
    assert (ST : 1 <= steps h i <= 880).
    { unfold steps, top. pose proof (Hlim _ Ok') as (_ & L). assert (1 <= 2 ^ hd_prec h <= 8).
      { split; [apply (Z.pow_le_mono_r 2 0); lia|apply (Z.pow_le_mono_r 2 _ 3); lia]. } nia. }
    rewrite runA_bind, read_range_run by lia. fold (gain_of h i x).
    rewrite runA_bind, aset_run by lia. cbv beta iota.
    rewrite (runA_aget _ _ (Z.b2z (is_sign (sym_at spks h j)))) by (try lia; rewrite ?Nat2Z.id; apply Hiss, Hj).
    destruct (sym_at spks h j) eqn:X; [discriminate EVal| |]; cbn [is_sign Z.b2z].
    + change (1 =? 0) with false. cbn [negb app]. cbv iota. destruct (PQ ltac:(discriminate)) as (Q1 & Q2 & Q3). rewrite Q3.
      rewrite (runA_aget _ _ (flip i)) by (try lia; rewrite ?Nat2Z.id; apply Hsy, Hi).
      rewrite (runA_aget _ _ (snd (plain spks h E i (partner spks j)))) by (try lia; rewrite ?Nat2Z.id; exact Q2).
      rewrite runA_bind, aset_run by lia. cbn [runA fst snd]. apply FIN.
    + change (0 =? 0) with true. cbn [negb]. cbv iota. rewrite PL. cbn [fst snd].
      assert (EG : gain_nz (gain_of h i x) && (negb (ord i =? 0) || (m_zop m =? 0)) = signed h i x).
      { unfold signed, gain_of. rewrite Hzop. destruct (x <=? steps h i), (hd_zop h), (ord i =? 0); reflexivity. }
      rewrite EG. destruct (signed h i x); cbn [app].
      * rewrite rb1. rewrite runA_bind, aset_run by lia. cbn [runA andb]. replace (if negb s then -1 else 1) with (Z.b2z s * 2 - 1) by (destruct s; reflexivity). apply FIN.
      * cbn [runA andb]. exists (put mat1 c (gain_of h i x)), sgn1. split; [reflexivity|]. rewrite put_len by lia. split; [assumption|]. split; [assumption|].
        split; [apply put_same; lia|]. split; [exact Z2|]. intros y Hy. rewrite put_other by (try lia; auto). apply O1, Hy.
Qed.

Definition row_held (i : nat) (mat : list hgain) (sgn : list Z) : Prop :=
  forall q, (q < out)%nat -> nth_error mat (i * out + q) = Some (fst (want spks h E i q)) /\ nth_error sgn (i * out + q) = Some (snd (want spks h E i q)).

Lemma row_run i rest : (i < n)%nat -> (forall j, (j < out)%nat -> cell_ok spks h E i j) -> forall r mat sgn, (r <= out)%nat -> length mat = Z.to_nat 1536 -> length sgn = Z.to_nat 1568 ->
  (forall q, (r <= q < out)%nat -> nth_error mat (i * out + q) = Some (fst (want spks h E i q)) /\ nth_error sgn (i * out + q) = Some (snd (want spks h E i q))) ->
  exists mat' sgn', runA (forP r (out - r) (fun jj ms => matrix_cell m spks pairs (Z.of_nat out) (Z.of_nat i) (Z.of_nat out - 1 - Z.of_nat jj) ms) (mat, sgn))
      (concat (map (cell_bits spks h E i) (rev (seq 0 r))) ++ rest) = Done ((mat', sgn'), rest) /\
    length mat' = Z.to_nat 1536 /\ length sgn' = Z.to_nat 1568 /\ row_held i mat' sgn' /\
    forall c, (c < i * out)%nat -> nth_error mat' c = nth_error mat c /\ nth_error sgn' c = nth_error sgn c.
Proof.
  intros Hi Hok. induction r as [|r IH]; intros mat sgn Hr Lm Ls Hq.
  - exists mat, sgn. split; [reflexivity|]. split; [exact Lm|]. split; [exact Ls|]. split; [intros q Hq'; apply Hq; lia|auto].
  - rewrite seq_S, rev_app_distr. cbn [rev app map concat plus forP]. rewrite <- app_assoc, runA_bind.
    replace (Z.of_nat out - 1 - Z.of_nat (out - S r)) with (Z.of_nat r) by lia.
    destruct (cell_run i r mat sgn (concat (map (cell_bits spks h E i) (rev (seq 0 r))) ++ rest) Hi ltac:(lia) Lm Ls (Hok r ltac:(lia))) as (m1 & s1 & E1 & A1 & A2 & A3 & A4 & A5).
    { intros q Hq'. apply Hq. lia. }
    rewrite E1. replace (S (out - S r)) with (out - r)%nat by lia.
    destruct (IH m1 s1 ltac:(lia) ltac:(congruence) ltac:(congruence)) as (m2 & s2 & E2 & B1 & B2 & B3 & B4).
    { intros q Hq'. destruct (Nat.eq_dec q r) as [->|N]; [auto|]. destruct (A5 (i * out + q)%nat ltac:(lia)) as (-> & ->). apply Hq. lia. }
    exists m2, s2. split; [exact E2|]. split; [exact B1|]. split; [exact B2|]. split; [exact B3|].
    intros c Hc. destruct (B4 c Hc) as (-> & ->). apply A5. lia.
Qed.

Lemma rows_run rest : (forall i j, (i < n)%nat -> (j < out)%nat -> cell_ok spks h E i j) -> forall r i mat sgn, (i + r = n)%nat -> length mat = Z.to_nat 1536 -> length sgn = Z.to_nat 1568 ->
  (forall i', (i' < i)%nat -> row_held i' mat sgn) ->
  exists mat' sgn', runA (forP r i (fun i ms => forP out 0 (fun jj ms => matrix_cell m spks pairs (Z.of_nat out) (Z.of_nat i) (Z.of_nat out - 1 - Z.of_nat jj) ms) ms) (mat, sgn))
      (concat (map (fun i => concat (map (cell_bits spks h E i) (rev (seq 0 out)))) (seq i r)) ++ rest) = Done ((mat', sgn'), rest) /\
    forall i', (i' < n)%nat -> row_held i' mat' sgn'.
Proof.
  intros Hok. induction r as [|r IH]; intros i mat sgn Hr Lm Ls Hd.
  - exists mat, sgn. split; [reflexivity|]. intros i' Hi'. apply Hd. lia.
  - cbn [forP seq map concat]. rewrite <- app_assoc, runA_bind.
    destruct (row_run i (concat (map (fun i => concat (map (cell_bits spks h E i) (rev (seq 0 out)))) (seq (S i) r)) ++ rest) ltac:(lia) ltac:(intros j Hj; apply Hok; lia) out mat sgn (Nat.le_refl _) Lm Ls)
      as (m1 & s1 & E1 & A1 & A2 & A3 & A4); [intros q Hq; lia|].
    rewrite Nat.sub_diag in E1. rewrite E1.
    apply IH; [lia|exact A1|exact A2|]. intros i' Hi'. destruct (Nat.eq_dec i' i) as [->|N]; [exact A3|].
    intros q Hq. destruct (A4 (i' * out + q)%nat ltac:(nia)) as (-> & ->). apply Hd; lia.
Qed.
End cells.

Lemma md_gain m (spks : list spk) pairs h E k rest : hm_ok m -> 1 <= k <= 7 -> (length spks <= 24)%nat ->
  (forall i, (i < length spks)%nat -> leadsP spks pairs (Z.b2z (hd_lfer h)) i = leads spks (hd_lfer h) i) -> length (hd_syms h) = pair_count spks (hd_lfer h) ->
  stored (hd_syms h) (m_valp m) (m_signp m) -> m_lfer m = Z.b2z (hd_lfer h) ->
  (forall i, (i < Z.to_nat (k * k))%nat -> nth_error (m_vbm m) i = Some (if upright i then 1 else 0)) ->
  (forall i, (i < Z.to_nat (k * k))%nat -> nth_error (m_syms m) i = Some (flip i)) ->
  (forall i, (i < Z.to_nat (k * k))%nat -> nth_error (m_sparse m) i = Some (if flagged h i then 1 else 0)) ->
  (forall o, (o < Z.to_nat k)%nat -> nth_error (m_max m) o = Some (fst (lim_of (hd_lim h) o))) ->
  (forall o, (o < Z.to_nat k)%nat -> nth_error (m_min m) o = Some (snd (lim_of (hd_lim h) o))) ->
  (forall o, (o < Z.to_nat k)%nat -> lim_legal (lim_of (hd_lim h) o)) ->
  m_prec m = hd_prec h -> 0 <= hd_prec h <= 3 -> m_vert m = Z.b2z (hd_vert h) -> m_zop m = Z.b2z (hd_zop h) ->
  (forall j, (j < length spks)%nat -> leads spks (hd_lfer h) j = true ->
    snd (nth j pairs (P_CENTER, None)) = Some (partner spks j) /\ (j < partner spks j < length spks)%nat /\ leads spks (hd_lfer h) (partner spks j) = false) ->
  (forall i j, (i < Z.to_nat (k * k))%nat -> (j < length spks)%nat -> cell_ok spks h E i j) ->
  exists m', runA (matrix_data m spks pairs (k * k)) (gains_bits spks h E k ++ rest) = Done (m', rest) /\ gains_held k spks h E m'.
Proof.
  intros Hm Hk P2 P3 HK ST Hlf Hvb Hsy Hsp Hmx Hmn Hlim Hprec Hp3 Hvert Hzop Hpair Hok. unfold matrix_data. cbv zeta.
  set (lf := hd_lfer h) in *. set (K := hd_syms h) in *.
  assert (PN : forall i, (i <= length spks)%nat -> pair_noP spks pairs (Z.b2z lf) i = pair_no spks lf i).
  { intros i Hi. unfold pair_noP, pair_no. f_equal. apply filter_same. intros x Hx. apply in_seq in Hx. apply P3. lia. }
  assert (CK : (length K <= 24)%nat).
  { rewrite HK. unfold pair_count, pair_no. pose proof (filter_le (leads spks lf) (seq 0 (length spks))) as X. rewrite seq_length in X. lia. }
  destruct Hm. set (bits := gains_bits spks h E k ++ rest). unfold fill. rewrite Nat2Z.id.
  destruct (fillz 0 bits (length spks) 0 (m_isv m) ltac:(lia)) as (v0 & E1 & S1 & V1). rewrite runA_bind, E1. cbv beta iota.
  destruct (fillz 0 bits (length spks) 0 (m_iss m) ltac:(lia)) as (s0 & E2 & S2 & V2). rewrite runA_bind, E2. cbv beta iota.
  rewrite Hlf.
  destruct (spread_run spks pairs (Z.b2z lf) K (m_valp m) (m_signp m) bits ltac:(lia) ltac:(lia) ST (length spks) 0 v0 s0) as (v & s & c & E3 & V & LV); [lia|lia| | |].
  - cbn [plus]. rewrite PN by lia. fold (pair_count spks lf). lia.
  - intros j Hj. rewrite V1, V2. cbn [Nat.leb andb plus]. destruct (Nat.ltb_spec j (length spks)); [auto|lia].
  - change (Z.of_nat (pair_noP spks pairs (Z.b2z lf) 0)) with 0 in E3.
    match type of E3 with ?x = _ => change x with (runA (spread_pairs spks pairs (Z.b2z lf) (m_valp m) (m_signp m) v0 s0) bits) in E3 end.
    rewrite runA_bind, E3. cbv beta iota. rewrite runA_bind.
    assert (LL : length v = 128%nat /\ length s = 128%nat).
    { pose proof (wp_runA _ _ (wp_spread spks pairs (Z.b2z lf) (m_valp m) (m_signp m) v0 s0 ltac:(lia) ltac:(lia) ltac:(lia) ltac:(lia) ltac:(lia)) bits) as X.
      rewrite E3 in X. exact X. }
    match goal with |- context [matrix_cell ?x] => set (m1 := x) end.
    assert (SY : forall j, (j < length spks)%nat -> sym_ofP spks pairs (Z.b2z lf) K j = sym_at spks h j).
    { intros j Hj. unfold sym_ofP, sym_at, sym_of. rewrite P3, PN by lia. reflexivity. }
    destruct (rows_run m1 spks pairs h E k Hk P2 Hvb Hsy Hsp Hmx Hmn Hlim) with (rest := rest) (r := Z.to_nat (k * k)) (i := 0%nat) (mat := m_mat m) (sgn := m_sgn m)
      as (mat & sgn & E4 & R); try assumption; try reflexivity; try lia.
    + intros j Hj. cbn. rewrite (nth_e v j 0) by lia. destruct (V j ltac:(lia)) as (-> & _). rewrite SY by exact Hj. reflexivity.
    + intros j Hj. cbn. rewrite (nth_e s j 0) by lia. destruct (V j ltac:(lia)) as (_ & ->). rewrite SY by exact Hj. reflexivity.
    + unfold bits, gains_bits. rewrite E4. eexists. split; [reflexivity|]. intros i j Hi Hj. cbn. apply R; assumption.
Qed.

Lemma two_fill_v (f g : nat -> Z) bits : forall n i (a b : list Z), (i + n <= length a)%nat -> (i + n <= length b)%nat ->
  exists a' b', runA (forP n i (fun k '(sy, vb) => sy' <- aset sy (Z.of_nat k) (f k) ;; vb' <- aset vb (Z.of_nat k) (g k) ;; Ret (sy', vb')) (a, b)) bits = Done ((a', b'), bits) /\ length a' = length a /\ length b' = length b /\
    (forall j, (i <= j < i + n)%nat -> nth_error a' j = Some (f j) /\ nth_error b' j = Some (g j)) /\ (forall j, (j < i)%nat -> nth_error a' j = nth_error a j /\ nth_error b' j = nth_error b j).
Proof.
  induction n as [|n IH]; intros i a b H1 H2; [exists a, b; repeat split; try reflexivity; lia|].
  cbn [forP]. rewrite !runA_bind, aset_run by lia. cbv beta iota. rewrite runA_bind, aset_run by lia. cbn [runA].
  destruct (IH (S i) (put a i (f i)) (put b i (g i))) as (a' & b' & E & A & B & V & O); [rewrite put_len; lia..|].
  exists a', b'. rewrite A, B, !put_len by lia. split; [exact E|]. split; [reflexivity|]. split; [reflexivity|]. split.
  - intros j Hj. destruct (Nat.eq_dec j i) as [->|N]; [|apply V; lia]. destruct (O i ltac:(lia)) as (-> & ->). rewrite !put_same by lia. auto.
  - intros j Hj. destruct (O j ltac:(lia)) as (-> & ->). rewrite !put_other by lia. auto.
Qed.

Lemma ren_gain m k (spks : list spk) pairs h E rest : hm_ok m -> 1 <= k <= 7 -> head_legal k spks h ->
  find_symmetric spks (Z.b2z (hd_lfer h)) = (pairs, Z.of_nat (pair_count spks (hd_lfer h))) -> (length spks <= 24)%nat ->
  (forall i, (i < length spks)%nat -> leadsP spks pairs (Z.b2z (hd_lfer h)) i = leads spks (hd_lfer h) i) ->
  (forall j, (j < length spks)%nat -> leads spks (hd_lfer h) j = true ->
    snd (nth j pairs (P_CENTER, None)) = Some (partner spks j) /\ (j < partner spks j < length spks)%nat /\ leads spks (hd_lfer h) (partner spks j) = false) ->
  (forall i j, (i < Z.to_nat (k * k))%nat -> (j < length spks)%nat -> cell_ok spks h E i j) ->
  exists m', runA (rendering_matrix m (k * k) spks) (head_bits k spks h ++ gains_bits spks h E k ++ rest) = Done (Ok m', rest) /\ gains_held k spks h E m'.
Proof.
  intros Hm Hk (G1 & G2 & G3 & G4 & G5 & G6) EF P2 P3 P4 Hok. assert (K49 : k * k <= 49) by nia.
  unfold rendering_matrix. cbv zeta. rewrite sqrt_sq by lia. pose proof Hm as Hm'. destruct Hm'.
  unfold head_bits. rewrite <- !app_assoc.
  match goal with |- context [runA (bind (forP ?n 0 _ _) _) ?bits] =>
    destruct (two_fill_v (fun k => if 0 <=? Z.of_nat k - Z.sqrt (Z.of_nat k) * Z.sqrt (Z.of_nat k) - Z.sqrt (Z.of_nat k) then 1 else -1)
      (fun k => if Z.abs (Z.of_nat k - Z.sqrt (Z.of_nat k) * Z.sqrt (Z.of_nat k) - Z.sqrt (Z.of_nat k)) =? Z.sqrt (Z.of_nat k) then 0 else 1)
      bits n 0 (m_syms m) (m_vbm m)) as (sy & vb & E0 & L6 & L7 & V0 & _); [replace (k - 1 + 1) with k by lia; lia..|] end.
  rewrite runA_bind, E0. cbv beta iota.
  rewrite (runA_rdb 2 2) by (try lia; cbn; lia). cbn [app]. rewrite rb1.
  match goal with |- context [match hd_lim h with _ => _ end ++ ?rest] =>
    destruct (limits_run k (hd_lim h) (m_max m) (m_min m) rest Hk ltac:(assumption) ltac:(assumption) G2) as (g0 & mx & mn & E1 & L1 & L2 & V1) end.
  rewrite E1.
  match goal with |- context [match hd_dense h with _ => _ end ++ ?rest] =>
    destruct (sparse_run k (hd_dense h) (m_sparse m) (m_fso m) rest Hk ltac:(assumption) G3) as (full & sp & fso & E2 & L3 & V2) end.
  rewrite E2. fold (has_lfe spks).
  assert (EL : forall B (F : Z -> prog B) rest, runA (x <- (if has_lfe spks then rd 1 else Ret 0) ;; F x) ((if has_lfe spks then [hd_lfer h] else []) ++ rest) =
     runA (F (Z.b2z (hd_lfer h))) rest).
  { intros B F l. destruct (has_lfe spks); cbn [app].
    - apply rb1.
    - destruct (hd_lfer h); [discriminate (G4 eq_refl)|]. reflexivity. }
  rewrite EL. rewrite EF. cbn [app].
  assert (CK : (length (hd_syms h) <= 24)%nat).
  { rewrite G5. unfold pair_count, pair_no. pose proof (filter_le (leads spks (hd_lfer h)) (seq 0 (length spks))) as X. rewrite seq_length in X. lia. }
  rewrite <- G5.
  match goal with |- context [hd_zop h :: sym_bits _ _ ++ ?rest] =>
    destruct (sym_run m (hd_how h) (hd_syms h) (hd_zop h) rest ltac:(lia) ltac:(lia) G6) as (av & nv & als & val & sgn & E3 & L4 & L5 & ST) end.
  rewrite runA_bind, E3. cbv beta iota. cbn [app]. rewrite rb1. rewrite runA_bind.
  match goal with |- context [runA (matrix_data ?x _ _ _)] => destruct (md_gain x spks pairs h E k rest) as (m' & ED & HG) end;
    try assumption; try reflexivity.
  - constructor; cbn; try assumption; lia.
  - intros i Hi. destruct (V0 i ltac:(replace (k - 1 + 1) with k by lia; lia)) as (_ & V). cbn. rewrite V. unfold upright, deg, ord. destruct (_ =? _); reflexivity.
  - intros i Hi. destruct (V0 i ltac:(replace (k - 1 + 1) with k by lia; lia)) as (V & _). cbn. rewrite V. reflexivity.
  - intros i Hi. cbn. rewrite (nth_e sp i 0) by lia. specialize (V2 (Z.of_nat i) ltac:(lia)). rewrite Nat2Z.id in V2. rewrite V2.
    unfold flagged. destruct (hd_dense h) as [o|]; [|reflexivity]. destruct (Z.of_nat i <? o * o); reflexivity.
  - intros o Ho. cbn. rewrite (nth_e mx o 0) by lia. rewrite <- (V1 o Ho). reflexivity.
  - intros o Ho. cbn. rewrite (nth_e mn o 0) by lia. rewrite <- (V1 o Ho). reflexivity.
  - intros o Ho. destruct (hd_lim h) as [a b|l]; cbn [lim_of]; [exact G2|]. destruct G2 as (GL & GF). rewrite Forall_forall in GF. apply GF, nth_In. lia.
  - rewrite ED. cbn [runA]. exists m'. split; [reflexivity|exact HG].
Qed.
