(** * Lem_HoaSym: the symmetry of loudspeaker pairs is read back *)

From Coq Require Import ZArith List Lia Bool.
From Verif Require Import Bits BitBuf Prog BitWrite Escape Wp Asi Cicp Hoa Lem_Hoa HoaFrm Spec_HoaFrm Lem_HoaFrm Spec_HoaPred Lem_HoaPred Lem_HoaMat Spec_HoaSym.
Import ListNotations.
Open Scope Z_scope.

Lemma pn_same (l : list Z) i v : (i < length l)%nat -> nth i (put l i v) 0 = v.
Proof. intros H. rewrite put_nth, Nat.eqb_refl by exact H. reflexivity. Qed.
Lemma pn_other (l : list Z) i j v : i <> j -> (i < length l)%nat -> nth j (put l i v) 0 = nth j l 0.
Proof. intros N H. rewrite put_nth by exact H. destruct (Nat.eqb_spec i j); [contradiction|reflexivity]. Qed.

Lemma fillz v bits : forall n i (l : list Z), (i + n <= length l)%nat ->
  exists l', runA (forP n i (fun i l => aset l (Z.of_nat i) v) l) bits = Done (l', bits) /\ length l' = length l /\
    forall j, nth j l' 0 = if (Nat.leb i j && Nat.ltb j (i + n))%bool then v else nth j l 0.
Proof.
  induction n as [|n IH]; intros i l Hi.
  - exists l. split; [reflexivity|]. split; [reflexivity|]. intros j.
    destruct (Nat.leb_spec i j), (Nat.ltb_spec j (i + 0)); cbn; try reflexivity; lia.
  - cbn [forP]. rewrite runA_bind, aset_run by lia. cbv beta iota.
    destruct (IH (S i) (put l i v)) as (l' & E & L & V). { rewrite put_len by lia. lia. }
    exists l'. rewrite E, L, put_len by lia. split; [reflexivity|]. split; [reflexivity|]. intros j. rewrite V.
    destruct (Nat.eq_dec i j) as [<-|N].
    + rewrite pn_same by lia. destruct (Nat.leb_spec (S i) i), (Nat.leb_spec i i), (Nat.ltb_spec i (i + S n)), (Nat.ltb_spec i (S i + n)); cbn; try reflexivity; lia.
    + rewrite pn_other by lia. destruct (Nat.leb_spec (S i) j), (Nat.leb_spec i j), (Nat.ltb_spec j (i + S n)), (Nat.ltb_spec j (S i + n)); cbn; try reflexivity; lia.
Qed.

Lemma flagsz rest : forall fl i (l : list Z), (i + length fl <= length l)%nat ->
  exists l', runA (forP (length fl) i (fun i l => b <- rd 1 ;; aset l (Z.of_nat i) b) l) (fl ++ rest) = Done (l', rest) /\ length l' = length l /\
    (forall j, (j < length fl)%nat -> nth (i + j) l' 0 = Z.b2z (nth j fl false)) /\ (forall j, (j < i)%nat -> nth j l' 0 = nth j l 0).
Proof.
  induction fl as [|b fl IH]; intros i l Hi.
  - exists l. split; [reflexivity|]. split; [reflexivity|]. split; [cbn; lia|reflexivity].
  - cbn [length] in *. cbn [forP app]. rewrite runA_bind, rb1, aset_run by lia. cbv beta iota.
    destruct (IH (S i) (put l i (Z.b2z b))) as (l' & E & L & V & O). { rewrite put_len by lia. lia. }
    exists l'. rewrite E, L, put_len by lia. split; [reflexivity|]. split; [reflexivity|]. split.
    + intros [|j] Hj; cbn [nth].
      * rewrite Nat.add_0_r, O by lia. apply pn_same. lia.
      * replace (i + S j)%nat with (S i + j)%nat by lia. apply V. lia.
    + intros j Hj. rewrite O by lia. apply pn_other; lia.
Qed.

Lemma signz rest v : forall K i (l : list Z), (i + length K <= length l)%nat -> (i + length K <= length v)%nat ->
  (forall j, (j < length K)%nat -> nth (i + j) v 0 = Z.b2z (is_value (nth j K SNone))) ->
  (forall j, (i <= j < i + length K)%nat -> nth j l 0 = 0) ->
  exists l', runA (forP (length K) i (fun i l => b <- aget v (Z.of_nat i) ;; if b =? 0 then b <- rd 1 ;; aset l (Z.of_nat i) b else Ret l) l)
     (concat (map (fun k => if is_value k then [] else [is_sign k]) K) ++ rest) = Done (l', rest) /\ length l' = length l /\
    (forall j, (j < length K)%nat -> nth (i + j) l' 0 = Z.b2z (is_sign (nth j K SNone))) /\ (forall j, (j < i)%nat -> nth j l' 0 = nth j l 0).
Proof.
  induction K as [|k K IH]; intros i l Hi Hv Hval Hz.
  - exists l. split; [reflexivity|]. split; [reflexivity|]. split; [cbn; lia|reflexivity].
  - cbn [length] in *. cbn [forP map concat].
    assert (E0 : nth_error v i = Some (Z.b2z (is_value k))).
    { rewrite (nth_error_nth' v 0) by lia. pose proof (Hval O ltac:(lia)) as X. rewrite Nat.add_0_r in X. rewrite X. reflexivity. }
    rewrite runA_bind, (runA_aget _ _ (Z.b2z (is_value k))) by (try lia; rewrite ?Nat2Z.id; exact E0).
    assert (HV : forall j, (j < length K)%nat -> nth (S i + j) v 0 = Z.b2z (is_value (nth j K SNone))).
    { intros j Hj. replace (S i + j)%nat with (i + S j)%nat by lia. rewrite Hval by lia. reflexivity. }
    destruct (is_value k) eqn:Ek.
    + change (Z.b2z true =? 0) with false. cbv iota. cbn [runA app].
      destruct (IH (S i) l ltac:(lia) ltac:(lia) HV) as (l' & E & L & V & O). { intros j Hj. apply Hz. lia. }
      exists l'. split; [exact E|]. split; [exact L|]. split; [|intros j Hj; apply O; lia].
      intros [|j] Hj; cbn [nth].
      * rewrite Nat.add_0_r, O by lia. rewrite Hz by lia. destruct k; try discriminate Ek; reflexivity.
      * replace (i + S j)%nat with (S i + j)%nat by lia. apply V. lia.
    + change (Z.b2z false =? 0) with true. cbv iota. cbn [app]. rewrite rb1, aset_run by lia. cbv beta iota.
      destruct (IH (S i) (put l i (Z.b2z (is_sign k)))) as (l' & E & L & V & O); [rewrite put_len by lia; lia|lia|exact HV| |].
      { intros j Hj. rewrite pn_other by lia. apply Hz. lia. }
      exists l'. rewrite L, put_len by lia. split; [exact E|]. split; [reflexivity|]. split.
      * intros [|j] Hj; cbn [nth].
        -- rewrite Nat.add_0_r, O by lia. apply pn_same. lia.
        -- replace (i + S j)%nat with (S i + j)%nat by lia. apply V. lia.
      * intros j Hj. rewrite O by lia. apply pn_other; lia.
Qed.

Definition stored (K : list sym) (val sgn : list Z) : Prop :=
  forall j, (j < length K)%nat -> nth j val 0 = Z.b2z (is_value (nth j K SNone)) /\ nth j sgn 0 = Z.b2z (is_sign (nth j K SNone)).

Lemma sym_run m f K zop rest : (length K <= length (m_valp m))%nat -> (length K <= length (m_signp m))%nat -> fits f K ->
  exists av nv als val sgn, runA (pair_flags m (Z.of_nat (length K))) (zop :: sym_bits f K ++ rest) = Done ((Z.b2z zop, av, nv, als, val, sgn), rest) /\
    length val = length (m_valp m) /\ length sgn = length (m_signp m) /\ stored K val sgn.
Proof.
  intros L1 L2 Hf. unfold pair_flags, fill. rewrite Nat2Z.id.
  destruct (fillz 0 (zop :: sym_bits f K ++ rest) (length K) 0 (m_signp m) L2) as (s0 & E1 & S1 & V1). rewrite runA_bind, E1. cbv beta iota.
  destruct (fillz 0 (zop :: sym_bits f K ++ rest) (length K) 0 (m_valp m) L1) as (v0 & E2 & S2 & V2). rewrite runA_bind, E2. cbv beta iota.
  assert (Z1 : forall j, (j < length K)%nat -> nth j s0 0 = 0).
  { intros j Hj. rewrite V1. cbn [Nat.leb andb plus]. destruct (Nat.ltb_spec j (length K)); [reflexivity|lia]. }
  assert (Z2 : forall j, (j < length K)%nat -> nth j v0 0 = 0).
  { intros j Hj. rewrite V2. cbn [Nat.leb andb plus]. destruct (Nat.ltb_spec j (length K)); [reflexivity|lia]. }
  assert (IN : forall j, (j < length K)%nat -> In (nth j K SNone) K) by (intros; apply nth_In; assumption).
  rewrite rb1. destruct f; cbn [sym_bits app fits] in *; rewrite rb1; cbn [Z.b2z]; repeat (rewrite ?rb1; cbn [Z.b2z];
    change (1 =? 0) with false; change (0 =? 0) with true; cbn [negb]; cbv iota).
  all: try rewrite Forall_forall in Hf.
  - destruct (fillz 1 rest (length K) 0 v0 ltac:(lia)) as (v1 & E3 & S3 & V3). rewrite runA_bind, E3. do 5 eexists. split; [reflexivity|].
    split; [lia|]. split; [exact S1|]. intros j Hj. rewrite V3, Z1 by lia. rewrite (Hf _ (IN j Hj)). cbn [Nat.leb andb plus]. destruct (Nat.ltb_spec j (length K)); [|lia]. auto.
  - destruct (fillz 1 rest (length K) 0 s0 ltac:(lia)) as (v1 & E3 & S3 & V3). rewrite runA_bind, E3. do 5 eexists. split; [reflexivity|].
    split; [exact S2|]. split; [lia|]. intros j Hj. rewrite V3, Z2 by lia. rewrite (Hf _ (IN j Hj)). cbn [Nat.leb andb plus]. destruct (Nat.ltb_spec j (length K)); [|lia]. auto.
  - rewrite runA_bind, rb1. cbn [Z.b2z]. change (1 =? 0) with false. cbn [negb]. cbv iota. unfold rd_flags. rewrite Nat2Z.id.
    destruct (flagsz rest (map is_sign K) 0 s0) as (s1 & E3 & S3 & V3 & _). { rewrite map_length. lia. }
    rewrite map_length in E3. rewrite E3. do 5 eexists. split; [reflexivity|]. split; [exact S2|]. split; [lia|]. intros j Hj. specialize (V3 j). cbn [plus] in V3.
    rewrite V3, Z2 by (rewrite ?map_length; lia). change false with (is_sign SNone). rewrite map_nth. split; [|reflexivity].
    specialize (Hf _ (IN j Hj)). destruct (nth j K SNone); [contradiction|reflexivity..].
  - rewrite runA_bind, rb1. cbn [Z.b2z]. change (0 =? 0) with true. cbn [negb]. cbv iota. cbn [runA]. do 5 eexists. split; [reflexivity|]. split; [exact S2|]. split; [exact S1|]. intros j Hj. rewrite Z1, Z2 by lia. rewrite (Hf _ (IN j Hj)). auto.
  - rewrite runA_bind. unfold rd_flags at 1. rewrite Nat2Z.id. rewrite <- app_assoc.
    match goal with |- context [map is_value K ++ ?r] => destruct (flagsz r (map is_value K) 0 v0) as (v1 & E3 & S3 & V3 & _) end. { rewrite map_length. lia. }
    rewrite map_length in E3. rewrite E3. cbv beta iota. cbn [app]. rewrite rb1. cbn [Z.b2z]. change (1 =? 0) with false. cbn [negb]. cbv iota.
    assert (V : forall j, (j < length K)%nat -> nth (0 + j) v1 0 = Z.b2z (is_value (nth j K SNone))).
    { intros j Hj. rewrite V3 by (rewrite map_length; lia). change false with (is_value SNone). rewrite map_nth. reflexivity. }
    destruct (signz rest v1 K 0 s0) as (s1 & E4 & S4 & V4 & _); [lia|lia|exact V|intros j Hj; apply Z1; lia|].
    rewrite runA_bind, E4. do 5 eexists. split; [reflexivity|]. split; [lia|]. split; [lia|]. intros j Hj. split; [apply (V j Hj)|apply (V4 j Hj)].
  - rewrite runA_bind. unfold rd_flags at 1. rewrite Nat2Z.id. rewrite <- app_assoc.
    match goal with |- context [map is_value K ++ ?r] => destruct (flagsz r (map is_value K) 0 v0) as (v1 & E3 & S3 & V3 & _) end. { rewrite map_length. lia. }
    rewrite map_length in E3. rewrite E3. cbv beta iota. cbn [app]. rewrite rb1. cbn [Z.b2z]. change (0 =? 0) with true. cbn [negb]. cbv iota.
    cbn [bind runA]. do 5 eexists. split; [reflexivity|]. split; [lia|]. split; [exact S1|]. intros j Hj. specialize (V3 j). cbn [plus] in V3.
    rewrite V3, Z1 by (rewrite ?map_length; lia). change false with (is_value SNone). rewrite map_nth. split; [reflexivity|].
    specialize (Hf _ (IN j Hj)). destruct (nth j K SNone); [reflexivity|contradiction|reflexivity].
Qed.

(** The loudspeakers that stand for a pair: those with a symmetric partner, except an LFE when
    the LFE is not rendered. *)
Definition leadsP (spks : list spk) (pairs : list (Z * option nat)) (lfer : Z) (i : nat) : bool :=
  match nth i pairs (P_CENTER, None) with
  | (t, Some _) => (t =? P_SYMMETRIC) && negb ((lfer =? 0) && negb (s_lfe (nth i spks spk0) =? 0))
  | (_, None) => false
  end.
(** The number of the pair of loudspeaker [i]: the pairs are numbered by increasing loudspeaker. *)
Definition pair_noP (spks : list spk) (pairs : list (Z * option nat)) (lfer : Z) (i : nat) : nat :=
  length (filter (leadsP spks pairs lfer) (seq 0 i)).
(** What holds for loudspeaker [i]. *)
Definition sym_ofP (spks : list spk) (pairs : list (Z * option nat)) (lfer : Z) (K : list sym) (i : nat) : sym :=
  if leadsP spks pairs lfer i then nth (pair_noP spks pairs lfer i) K SNone else SNone.

(** The flags given to the loudspeakers. *)
Lemma spread_run spks pairs lfer K val sgn bits : (length K <= length val)%nat -> (length K <= length sgn)%nat -> stored K val sgn ->
  forall n i isv iss, (i + n <= length isv)%nat -> (i + n <= length iss)%nat -> (pair_noP spks pairs lfer (i + n) <= length K)%nat ->
  (forall j, (i <= j < i + n)%nat -> nth j isv 0 = 0 /\ nth j iss 0 = 0) ->
  exists v' s' k, runA (forP n i (fun i '(isv, iss, j) =>
    let pr := nth i pairs (P_CENTER, None) in
    match snd pr with
    | Some _ =>
      if (fst pr =? P_SYMMETRIC)
         && negb ((lfer =? 0) && negb (s_lfe (nth i spks spk0) =? 0)) then
        v <- aget val j ;; isv' <- aset isv (Z.of_nat i) v ;;
        s <- aget sgn j ;; iss' <- aset iss (Z.of_nat i) s ;;
        Ret (isv', iss', j + 1)
      else Ret (isv, iss, j)
    | None => Ret (isv, iss, j)
    end) (isv, iss, Z.of_nat (pair_noP spks pairs lfer i))) bits = Done ((v', s', k), bits) /\
   (forall j, (i <= j < i + n)%nat -> nth j v' 0 = Z.b2z (is_value (sym_ofP spks pairs lfer K j)) /\ nth j s' 0 = Z.b2z (is_sign (sym_ofP spks pairs lfer K j))) /\
   (forall j, (j < i)%nat -> nth j v' 0 = nth j isv 0 /\ nth j s' 0 = nth j iss 0).
Proof.
  intros LV LS ST. induction n as [|n IH]; intros i isv iss H1 H2 HK HZ.
  - do 3 eexists. split; [reflexivity|]. split; [lia|auto].
  - cbn [forP]. rewrite runA_bind. cbv zeta.
    assert (PS : pair_noP spks pairs lfer (S i) = (pair_noP spks pairs lfer i + if leadsP spks pairs lfer i then 1 else 0)%nat).
    { unfold pair_noP. rewrite seq_S, filter_app, app_length. cbn [plus filter]. destruct (leadsP spks pairs lfer i); reflexivity. }
    assert (MON : (pair_noP spks pairs lfer (S i) <= pair_noP spks pairs lfer (i + S n))%nat).
    { unfold pair_noP. replace (i + S n)%nat with (S i + n)%nat by lia. rewrite seq_app, filter_app, app_length. lia. }
    replace (i + S n)%nat with (S i + n)%nat in HK by lia.
    destruct (leadsP spks pairs lfer i) eqn:El.
    + cbv iota in PS. pose proof El as El'. unfold leadsP in El'. destruct (nth i pairs (P_CENTER, None)) as (t, [q|]); [|discriminate El']. cbn [fst snd]. rewrite El'.
      set (k := pair_noP spks pairs lfer i) in *. assert (Hk : (k < length K)%nat).
      { replace (i + S n)%nat with (S i + n)%nat in MON by lia. lia. } destruct (ST k Hk) as (A1 & A2).
      rewrite (runA_aget _ _ (Z.b2z (is_value (nth k K SNone)))) by (try lia; rewrite ?Nat2Z.id, <- A1; apply nth_error_nth'; lia).
      rewrite runA_bind, aset_run by lia. cbv beta iota.
      rewrite (runA_aget _ _ (Z.b2z (is_sign (nth k K SNone)))) by (try lia; rewrite ?Nat2Z.id, <- A2; apply nth_error_nth'; lia).
      rewrite runA_bind, aset_run by lia. cbn [runA]. replace (Z.of_nat k + 1) with (Z.of_nat (pair_noP spks pairs lfer (S i))) by lia.
      destruct (IH (S i) (put isv i (Z.b2z (is_value (nth k K SNone)))) (put iss i (Z.b2z (is_sign (nth k K SNone))))) as (v' & s' & k' & E & V & O).
      * rewrite put_len by lia. lia.
      * rewrite put_len by lia. lia.
      * exact HK.
      * intros j Hj. rewrite !pn_other by lia. apply HZ. lia.
      * exists v', s', k'. split; [exact E|]. split.
        -- intros j Hj. destruct (Nat.eq_dec i j) as [<-|N]; [|apply V; lia].
           destruct (O i ltac:(lia)) as (O1 & O2). rewrite O1, O2, !pn_same by lia. unfold sym_ofP. rewrite El. auto.
        -- intros j Hj. destruct (O j ltac:(lia)) as (O1 & O2). rewrite O1, O2, !pn_other by lia. auto.
    + assert (S0 : sym_ofP spks pairs lfer K i = SNone) by (unfold sym_ofP; rewrite El; reflexivity).
      cbv iota in PS. rewrite Nat.add_0_r in PS.
      destruct (IH (S i) isv iss ltac:(lia) ltac:(lia) HK) as (v' & s' & k' & E & V & O). { intros j Hj. apply HZ. lia. }
      rewrite PS in E.
      exists v', s', k'. split.
      * pose proof El as El'. unfold leadsP in El'. destruct (nth i pairs (P_CENTER, None)) as (t, [q|]); cbn [fst snd]; [rewrite El'|]; cbn [runA]; exact E.
      * split.
        -- intros j Hj. destruct (Nat.eq_dec i j) as [<-|N]; [|apply V; lia].
           destruct (O i ltac:(lia)) as (O1 & O2). destruct (HZ i ltac:(lia)) as (Z1 & Z2). rewrite O1, O2, S0, Z1, Z2. auto.
        -- intros j Hj. apply O. lia.
Qed.

(** In all layouts the pairs found are the mirrored ones. *)
Lemma layouts : forallb (fun lay => forallb (fun lf =>
    let spks := layout_spk (Z.of_nat lay) in let f := find_symmetric spks (Z.b2z lf) in
    (snd f =? Z.of_nat (pair_count spks lf)) && Nat.leb (length spks) 24 &&
    forallb (fun i => Bool.eqb (leadsP spks (fst f) (Z.b2z lf) i) (leads spks lf i)) (seq 0 (length spks))) [true; false]) (seq 0 21) = true.
Proof. vm_compute. reflexivity. Qed.

Lemma layout_pairs lay lf : 0 <= lay <= 20 ->
  let spks := layout_spk lay in let f := find_symmetric spks (Z.b2z lf) in
  snd f = Z.of_nat (pair_count spks lf) /\ (length spks <= 24)%nat /\
  forall i, (i < length spks)%nat -> leadsP spks (fst f) (Z.b2z lf) i = leads spks lf i.
Proof.
  intros H spks f. pose proof layouts as L. rewrite forallb_forall in L. specialize (L (Z.to_nat lay)). rewrite in_seq in L. specialize (L ltac:(lia)).
  cbv beta in L. rewrite Z2Nat.id in L by lia. rewrite forallb_forall in L. specialize (L lf ltac:(destruct lf; cbn; auto)).
  cbv beta zeta in L. fold spks in L. fold f in L. apply andb_prop in L as (L & L3). apply andb_prop in L as (L1 & L2).
  split; [apply Z.eqb_eq, L1|]. split; [apply Nat.leb_le, L2|]. intros i Hi. rewrite forallb_forall in L3. apply eqb_prop, L3, in_seq. lia.
Qed.
Lemma filter_same {A} (f g : A -> bool) l : (forall x, In x l -> f x = g x) -> filter f l = filter g l.
Proof. induction l as [|x l IH]; intros H; [reflexivity|]. cbn [filter]. rewrite (H x (or_introl eq_refl)), IH; [reflexivity|]. intros y Hy. apply H. right. exact Hy. Qed.


Lemma gain_run x (F : Z * Z -> prog (list Z * list Z)) rest : lim_legal x -> runA (bind gain_pair F) (lim_bits x ++ rest) = runA (F x) rest.
Proof.
  destruct x as (mx, mn). intros (H1 & H2). cbn [fst snd] in *. unfold gain_pair, lim_bits. cbn [fst snd]. rewrite bind_assoc, <- app_assoc.
  rewrite (read_escape_enc 3 5 6) by (try lia; unfold esc_max; cbn; lia). rewrite bind_assoc, (read_escape_enc 4 5 6) by (try lia; unfold esc_max; cbn; lia).
  cbv zeta. cbn [bind]. f_equal. f_equal. f_equal; lia.
Qed.
Lemma lim_one a b bits : forall n i (mx mn : list Z), (i + n <= length mx)%nat -> (i + n <= length mn)%nat ->
  exists mx' mn', runA (forP n i (fun i '(mx, mn) => mx' <- aset mx (Z.of_nat i) a ;; mn' <- aset mn (Z.of_nat i) b ;; Ret (mx', mn')) (mx, mn)) bits
    = Done ((mx', mn'), bits) /\ length mx' = length mx /\ length mn' = length mn /\
   (forall j, (i <= j < i + n)%nat -> nth j mx' 0 = a /\ nth j mn' 0 = b) /\ (forall j, (j < i)%nat -> nth j mx' 0 = nth j mx 0 /\ nth j mn' 0 = nth j mn 0).
Proof.
  induction n as [|n IH]; intros i mx mn H1 H2.
  - exists mx, mn. split; [reflexivity|]. repeat split; lia.
  - cbn [forP]. rewrite !runA_bind, aset_run by lia. cbv beta iota. rewrite runA_bind, aset_run by lia. cbn [runA].
    destruct (IH (S i) (put mx i a) (put mn i b)) as (x & y & E & A & B & V & O); [rewrite put_len by lia; lia..|].
    exists x, y. rewrite A, B, !put_len by lia. split; [exact E|]. split; [reflexivity|]. split; [reflexivity|]. split.
    + intros j Hj. destruct (Nat.eq_dec i j) as [<-|N]; [|apply V; lia]. destruct (O i ltac:(lia)) as (O1 & O2). rewrite O1, O2, !pn_same by lia. auto.
    + intros j Hj. destruct (O j ltac:(lia)) as (O1 & O2). rewrite O1, O2, !pn_other by lia. auto.
Qed.
Lemma lim_each rest : forall l i (mx mn : list Z), (i + length l <= length mx)%nat -> (i + length l <= length mn)%nat -> Forall lim_legal l ->
  exists mx' mn', runA (forP (length l) i (fun i '(mx, mn) => ' (a, b) <- gain_pair ;;
      mx' <- aset mx (Z.of_nat i) a ;; mn' <- aset mn (Z.of_nat i) b ;; Ret (mx', mn')) (mx, mn)) (concat (map lim_bits l) ++ rest)
    = Done ((mx', mn'), rest) /\ length mx' = length mx /\ length mn' = length mn /\
   (forall j, (j < length l)%nat -> (nth (i + j) mx' 0, nth (i + j) mn' 0) = nth j l (0, 0)) /\ (forall j, (j < i)%nat -> nth j mx' 0 = nth j mx 0 /\ nth j mn' 0 = nth j mn 0).
Proof.
  induction l as [|x l IH]; intros i mx mn H1 H2 HF.
  - exists mx, mn. split; [reflexivity|]. repeat split; cbn; lia.
  - cbn [length] in *. cbn [forP map concat]. inversion HF as [|? ? Hx HF']; subst. rewrite runA_bind, <- app_assoc, gain_run by exact Hx.
    destruct x as (a, b). rewrite runA_bind, aset_run by lia. cbv beta iota. rewrite runA_bind, aset_run by lia. cbn [runA].
    destruct (IH (S i) (put mx i a) (put mn i b)) as (x & y & E & A & B & V & O); [rewrite put_len by lia; lia..|exact HF'|].
    exists x, y. rewrite A, B, !put_len by lia. split; [exact E|]. split; [reflexivity|]. split; [reflexivity|]. split.
    + intros [|j] Hj; cbn [nth].
      * rewrite Nat.add_0_r. destruct (O i ltac:(lia)) as (O1 & O2). rewrite O1, O2, !pn_same by lia. auto.
      * replace (i + S j)%nat with (S i + j)%nat by lia. apply V. lia.
    + intros j Hj. destruct (O j ltac:(lia)) as (O1 & O2). rewrite O1, O2, !pn_other by lia. auto.
Qed.
Lemma limits_run k L mx mn rest : 1 <= k <= 7 -> length mx = 7%nat -> length mn = 7%nat ->
  match L with One a b => lim_legal (a, b) | PerOrder l => length l = Z.to_nat k /\ Forall lim_legal l end ->
  exists g0 mx' mn', (forall B (F : Z -> list Z * list Z -> prog B), runA (g <- rd 1 ;; (x <- gain_limits g (k - 1) mx mn ;; F g x))
     (match L with One a b => false :: lim_bits (a, b) | PerOrder l => true :: concat (map lim_bits l) end ++ rest) = runA (F g0 (mx', mn')) rest) /\
    length mx' = 7%nat /\ length mn' = 7%nat /\ forall o, (o < Z.to_nat k)%nat -> (nth o mx' 0, nth o mn' 0) = lim_of L o.
Proof.
  intros Hk L1 L2 HL. destruct L as [a b|l].
  - destruct (lim_one a b rest (Z.to_nat (k - 1 + 1)) 0 (put mx 0 a) (put mn 0 b)) as (x & y & E & A & B & V & _); [rewrite put_len; lia..|].
    exists 0, x, y. rewrite put_len in A, B by lia. split; [|split; [lia|split; [lia|]]].
    + intros R F. cbn [app]. rewrite rb1. cbn [Z.b2z]. unfold gain_limits. change (0 =? 1) with false. cbn [negb]. cbv iota.
      rewrite runA_bind, gain_run by exact HL. rewrite runA_bind. change 0 with (Z.of_nat 0) at 1. rewrite aset_run by lia. cbv beta iota.
      rewrite runA_bind. change 0 with (Z.of_nat 0) at 1. rewrite aset_run by lia. cbv beta iota. rewrite E. reflexivity.
    + intros o Ho. destruct (V o ltac:(lia)) as (V1 & V2). rewrite V1, V2. reflexivity.
  - destruct HL as (HL & HF). destruct (lim_each rest l 0 mx mn ltac:(lia) ltac:(lia) HF) as (x & y & E & A & B & V & _).
    exists 1, x, y. split; [|split; [lia|split; [lia|]]].
    + intros R F. cbn [app]. rewrite rb1. cbn [Z.b2z]. unfold gain_limits. change (1 =? 1) with true. cbn [negb]. cbv iota.
      replace (Z.to_nat (k - 1 + 1)) with (length l) by lia. rewrite runA_bind, E. reflexivity.
    + intros o Ho. cbn [lim_of]. apply (V o). lia.
Qed.

Lemma two_fill (f g : nat -> Z) bits : forall n i (a b : list Z), (i + n <= length a)%nat -> (i + n <= length b)%nat ->
  exists a' b', runA (forP n i (fun k '(sy, vb) => sy' <- aset sy (Z.of_nat k) (f k) ;; vb' <- aset vb (Z.of_nat k) (g k) ;; Ret (sy', vb')) (a, b)) bits = Done ((a', b'), bits) /\ length a' = length a /\ length b' = length b.
Proof.
  induction n as [|n IH]; intros i a b H1 H2; [exists a, b; auto|].
  cbn [forP]. rewrite !runA_bind, aset_run by lia. cbv beta iota. rewrite runA_bind, aset_run by lia. cbn [runA].
  destruct (IH (S i) (put a i (f i)) (put b i (g i))) as (a' & b' & E & A & B); [rewrite put_len; lia..|].
  exists a', b'. rewrite A, B, !put_len by lia. auto.
Qed.

Lemma md_run m (spks : list spk) pairs lf K bits n m' l : hm_ok m -> (length spks <= 24)%nat ->
  (forall i, (i < length spks)%nat -> leadsP spks pairs (Z.b2z lf) i = leads spks lf i) -> length K = pair_count spks lf ->
  stored K (m_valp m) (m_signp m) -> m_lfer m = Z.b2z lf ->
  runA (matrix_data m spks pairs n) bits = Done (m', l) ->
  (forall i, (i < length spks)%nat -> nth i (m_isv m') 0 = Z.b2z (is_value (sym_of spks lf K i)) /\
      nth i (m_iss m') 0 = Z.b2z (is_sign (sym_of spks lf K i))) /\
  m_prec m' = m_prec m /\ m_norm m' = m_norm m /\ m_lfer m' = m_lfer m /\ m_zop m' = m_zop m /\ m_vert m' = m_vert m /\
  m_max m' = m_max m /\ m_min m' = m_min m /\ m_sparse m' = m_sparse m.
Proof.
  intros Hm P2 P3 HK ST Hlf. unfold matrix_data. cbv zeta.
  assert (PN : forall i, (i <= length spks)%nat -> pair_noP spks pairs (Z.b2z lf) i = pair_no spks lf i).
  { intros i Hi. unfold pair_noP, pair_no. f_equal. apply filter_same. intros x Hx. apply in_seq in Hx. apply P3. lia. }
  assert (CK : (length K <= 24)%nat).
  { rewrite HK. unfold pair_count, pair_no. pose proof (filter_le (leads spks lf) (seq 0 (length spks))) as X. rewrite seq_length in X. lia. }
  destruct Hm. unfold fill. rewrite Nat2Z.id.
  destruct (fillz 0 bits (length spks) 0 (m_isv m) ltac:(lia)) as (v0 & E1 & S1 & V1). rewrite runA_bind, E1. cbv beta iota.
  destruct (fillz 0 bits (length spks) 0 (m_iss m) ltac:(lia)) as (s0 & E2 & S2 & V2). rewrite runA_bind, E2. cbv beta iota.
  rewrite Hlf.
  destruct (spread_run spks pairs (Z.b2z lf) K (m_valp m) (m_signp m) bits ltac:(lia) ltac:(lia) ST (length spks) 0 v0 s0) as (v & s & k & E3 & V & _); [lia|lia| | |].
  - cbn [plus]. rewrite PN by lia. fold (pair_count spks lf). lia.
  - intros j Hj. rewrite V1, V2. cbn [Nat.leb andb plus]. destruct (Nat.ltb_spec j (length spks)); [auto|lia].
  - change (Z.of_nat (pair_noP spks pairs (Z.b2z lf) 0)) with 0 in E3.
    match type of E3 with ?x = _ => change x with (runA (spread_pairs spks pairs (Z.b2z lf) (m_valp m) (m_signp m) v0 s0) bits) in E3 end.
    rewrite runA_bind, E3. cbv beta iota. rewrite runA_bind.
    match goal with |- match ?o with _ => _ end = _ -> _ => destruct o as [((mat, sgn), l')|c|r]; [|discriminate..] end.
    cbn [runA]. intros X. injection X as <- _. cbn. split; [|rewrite <- ?Hlf; repeat split].
    intros i Hi. destruct (V i ltac:(lia)) as (A & B). unfold sym_ofP in A, B. rewrite P3, PN in A, B by lia. auto.
Qed.

Lemma sparse_run k d (l : list Z) (fso0 : Z) rest : 1 <= k <= 7 -> length l = 128%nat -> match d with None => True | Some o => 0 <= o < k end ->
  exists full sp fso, (forall B (F : Z -> res (list Z * Z) -> prog B),
    runA (full <- rd 1 ;; r <- (if negb (full =? 0) then
          sp <- fill l (k * k) 0 ;; Ret (Ok (sp, fso0))
        else
          fso <- rd (clog2 (k - 1 + 1)) ;;
          if u32 (k - 1) <? fso then Ret (Er E_HOA_SPARSE) else
          sp0 <- fill l (fso * fso) 0 ;;
          sp <- forP (Z.to_nat (k * k - fso * fso)) (Z.to_nat (fso * fso))
                  (fun i l => aset l (Z.of_nat i) 1) sp0 ;;
          Ret (Ok (sp, fso))) ;; F full r) (match d with None => [true] | Some o => false :: bits_of (Z.to_nat (Z.log2_up k)) o end ++ rest)
     = runA (F full (Ok (sp, fso))) rest) /\ length sp = 128%nat /\
   forall i, 0 <= i < k * k -> nth (Z.to_nat i) sp 0 = match d with None => 0 | Some o => if i <? o * o then 0 else 1 end.
Proof.
  intros Hk Ll Hd. assert (k * k <= 49) by nia. destruct d as [o|].
  - assert (o * o <= k * k) by nia.
    destruct (fillz 0 rest (Z.to_nat (o * o)) 0 l ltac:(lia)) as (s0 & E1 & S1 & V1).
    destruct (fillz 1 rest (Z.to_nat (k * k - o * o)) (Z.to_nat (o * o)) s0 ltac:(nia)) as (s1 & E2 & S2 & V2).
    exists 0, s1, o. split; [|split; [lia|]].
    + intros B F. cbn [app]. rewrite rb1. cbn [Z.b2z]. change (0 =? 0) with true. cbn [negb]. cbv iota. rewrite runA_bind.
      replace (k - 1 + 1) with k by lia. rewrite clog2_up by (change (2 ^ 31) with 2147483648; lia).
      assert (W : 0 <= Z.log2_up k <= 24 /\ o < 2 ^ Z.log2_up k).
      { split; [split; [apply Z.log2_up_nonneg|apply Z.le_trans with (Z.log2_up 7); [apply Z.log2_up_le_mono; lia|vm_compute; discriminate]]|].
        destruct (Z.eq_dec k 1) as [->|]; [replace o with 0 by lia; reflexivity|]. pose proof (Z.log2_up_spec k). lia. }
      rewrite (runA_rdb (Z.log2_up k) (Z.to_nat (Z.log2_up k))) by lia.
      replace (u32 (k - 1)) with (k - 1) by (unfold u32, to_u; symmetry; apply Z.mod_small; change (2 ^ 32) with 4294967296; lia).
      destruct (Z.ltb_spec (k - 1) o); [lia|]. rewrite runA_bind. unfold fill. rewrite E1. cbv beta iota. rewrite runA_bind, E2. reflexivity.
    + intros i Hi. rewrite V2, V1. destruct (Z.ltb_spec i (o * o)), (Nat.leb_spec (Z.to_nat (o * o)) (Z.to_nat i)),
        (Nat.ltb_spec (Z.to_nat i) (Z.to_nat (o * o) + Z.to_nat (k * k - o * o))), (Nat.ltb_spec (Z.to_nat i) (0 + Z.to_nat (o * o))); cbn; try reflexivity; nia.
  - destruct (fillz 0 rest (Z.to_nat (k * k)) 0 l ltac:(lia)) as (s0 & E1 & S1 & V1). exists 1, s0, fso0. split; [|split; [lia|]].
    + intros B F. cbn [app]. rewrite rb1. cbn [Z.b2z]. change (1 =? 0) with false. cbn [negb]. cbv iota. rewrite runA_bind.
      unfold fill. rewrite runA_bind, E1. reflexivity.
    + intros i Hi. rewrite V1. destruct (Nat.leb_spec 0 (Z.to_nat i)), (Nat.ltb_spec (Z.to_nat i) (0 + Z.to_nat (k * k))); cbn; try reflexivity; lia.
Qed.

Lemma ren_gen m k (spks : list spk) pairs h tail r l : hm_ok m -> 1 <= k <= 7 -> head_legal k spks h ->
  find_symmetric spks (Z.b2z (hd_lfer h)) = (pairs, Z.of_nat (pair_count spks (hd_lfer h))) -> (length spks <= 24)%nat ->
  (forall i, (i < length spks)%nat -> leadsP spks pairs (Z.b2z (hd_lfer h)) i = leads spks (hd_lfer h) i) ->
  runA (rendering_matrix m (k * k) spks) (head_bits k spks h ++ tail) = Done (r, l) -> exists m', r = Ok m' /\ head_held k spks h m'.
Proof.
  intros Hm Hk (G1 & G2 & G3 & G4 & G5 & G6) EF P2 P3. assert (K49 : k * k <= 49) by nia.
  unfold rendering_matrix. cbv zeta. rewrite sqrt_sq by lia. pose proof Hm as Hm'. destruct Hm'.
  unfold head_bits. rewrite <- !app_assoc.
  match goal with |- context [runA (bind (forP ?n 0 _ _) _) ?bits] =>
    destruct (two_fill (fun k => if 0 <=? Z.of_nat k - Z.sqrt (Z.of_nat k) * Z.sqrt (Z.of_nat k) - Z.sqrt (Z.of_nat k) then 1 else -1)
      (fun k => if Z.abs (Z.of_nat k - Z.sqrt (Z.of_nat k) * Z.sqrt (Z.of_nat k) - Z.sqrt (Z.of_nat k)) =? Z.sqrt (Z.of_nat k) then 0 else 1)
      bits n 0 (m_syms m) (m_vbm m)) as (sy & vb & E0 & L6 & L7); [replace (k - 1 + 1) with k by lia; lia..|] end.
  rewrite runA_bind, E0. cbv beta iota.
  rewrite (runA_rdb 2 2) by (try lia; cbn; lia). cbn [app]. rewrite rb1.
  match goal with |- context [match hd_lim h with _ => _ end ++ ?rest] =>
    destruct (limits_run k (hd_lim h) (m_max m) (m_min m) rest Hk ltac:(assumption) ltac:(assumption) G2) as (g0 & mx & mn & E1 & L1 & L2 & V1) end.
  rewrite E1.
  match goal with |- context [match hd_dense h with _ => _ end ++ ?rest] =>
    destruct (sparse_run k (hd_dense h) (m_sparse m) (m_fso m) rest Hk ltac:(assumption) G3) as (full & sp & fso & E2 & L3 & V2) end.
  rewrite E2. fold (has_lfe spks).
  assert (EL : forall B (F : Z -> prog B) rest, runA (x <- (if has_lfe spks then rd 1 else Ret 0) ;; F x) ((if has_lfe spks then [hd_lfer h] else []) ++ rest) =
     runA (F (Z.b2z (hd_lfer h))) rest).
  { intros B F rest. destruct (has_lfe spks); cbn [app].
    - apply rb1.
    - destruct (hd_lfer h); [discriminate (G4 eq_refl)|]. reflexivity. }
  rewrite EL. rewrite EF. cbn [app].
  assert (CK : (length (hd_syms h) <= 24)%nat).
  { rewrite G5. unfold pair_count, pair_no. pose proof (filter_le (leads spks (hd_lfer h)) (seq 0 (length spks))) as X. rewrite seq_length in X. lia. }
  rewrite <- G5.
  match goal with |- context [hd_zop h :: sym_bits _ _ ++ ?rest] =>
    destruct (sym_run m (hd_how h) (hd_syms h) (hd_zop h) rest ltac:(lia) ltac:(lia) G6) as (av & nv & als & val & sgn & E3 & L4 & L5 & ST) end.
  rewrite runA_bind, E3. cbv beta iota. cbn [app]. rewrite rb1. rewrite runA_bind.
  match goal with |- match ?o with _ => _ end = _ -> _ => destruct o as [(m', l')|c|e] eqn:ED; [|discriminate..] end.
  cbn [runA]. intros X. injection X as <- _. exists m'. split; [reflexivity|].
  eapply (md_run _ spks pairs (hd_lfer h) (hd_syms h)) in ED; [|constructor; cbn; try assumption; lia|exact P2|exact P3|exact G5|exact ST|reflexivity].
  destruct ED as (D & D1 & D2 & D3 & D4 & D5 & D6 & D7 & D8). cbn in D1, D2, D3, D4, D5, D6, D7, D8.
  unfold head_held. rewrite D1, D2, D3, D4, D5, D6, D7, D8. repeat (split; [first [reflexivity|assumption]|]). exact D.
Qed.
