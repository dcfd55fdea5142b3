(** * Lem_Flex: round trip of flexible loudspeaker layouts *)

From Coq Require Import ZArith List Lia Bool.
From Verif Require Import Bits BitBuf BitWrite Prog Asi Escape Wp Wlp Loops Cicp Mhas Hoa Config Leaf Spec_Config Spec_Asi
  Lem_MhasProps Lem_ConfigSafe Lem_AsiRT Lem_ConfigElem Spec_Flex.
Import ListNotations.
Open Scope Z_scope.

(** ** One description *)
Lemma abs_side v : (if z2b (b2z (v <? 0)) then - Z.abs v else Z.abs v) = v.
Proof. destruct (Z.ltb_spec v 0); cbn; lia. Qed.

(** What the description reader leaves: the azimuth without its sign. *)
Definition described (fine : bool) (p : flexpos) (f f' : flex) : Prop :=
  match p with
  | ByIndex i => f_cicp f' = 1 /\ f_idx f' = i
  | ByAngles class el az lfe =>
    f_cicp f' = 0 /\ f_elc f' = class /\
    (class = 3 -> f_el f' = el /\ (el <> 0 -> f_eldir f' = b2z (el <? 0))) /\
    f_az f' = Z.abs az /\
    f_azdir f' = (if middle (step fine * az) then f_azdir f else b2z (az <? 0)) /\
    f_lfe f' = b2z lfe
  end.

Lemma step_fine (fine : bool) a : (if b2z fine =? 0 then a * 5 else a) = step fine * a.
Proof. destruct fine; unfold b2z, step; cbn -[Z.mul]; lia. Qed.
Lemma deg_fine (fine : bool) a d : idx_degree a d (b2z fine) = if d =? 1 then - (step fine * a) else step fine * a.
Proof. unfold idx_degree. cbv zeta. rewrite step_fine. reflexivity. Qed.

Lemma desc_run fine p f rest : valid_pos fine p -> f_azdir f <> 1 ->
  exists f', runA (spk_description f (b2z fine)) (enc_pos fine p ++ rest) = Done ((0, f'), rest) /\ described fine p f f'.
Proof.
  intros V N. unfold spk_description. cbv zeta.
  destruct p as [i|class el az lfe]; cbn [enc_pos valid_pos] in *; rewrite <- !app_assoc; rewrite runA_flag.
  - change (negb (b2z true =? 0)) with true. cbv iota. rewrite (runA_rdb 7 7) by lia.
    eexists. split; [reflexivity|]. cbn. auto.
  - destruct V as (V1 & V2 & V3). change (negb (b2z false =? 0)) with false. cbv iota.
    rewrite (runA_rdb 2 2) by lia.
    set (f1 := s_f_elc (s_f_cicp f (b2z false)) class).
    assert (E : exists f2, f_cicp f2 = 0 /\ f_elc f2 = class /\ f_azdir f2 = f_azdir f /\
      (class = 3 -> f_el f2 = el /\ (el <> 0 -> f_eldir f2 = b2z (el <? 0))) /\
      forall r, runA (if class =? 3 then
          (a <- (if negb (b2z fine =? 0) then rd 7 else rd 5) ;;
           (if (if negb (b2z fine =? 0) then 90 else 18) <? a then Ret (E_EL_ANG, s_f_el f1 a) else
            if negb (idx_degree a (f_eldir (s_f_el f1 a)) (b2z fine) =? 0) then
              d <- rd 1 ;; Ret (0, if d =? 0 then s_f_eldir (s_f_el f1 a) d else s_f_el (s_f_eldir (s_f_el f1 a) d) (- a))
            else Ret (0, s_f_el f1 a))) else Ret (0, f1))
        ((if class =? 3 then bits_of (if fine then 7 else 5) (Z.abs el) ++ (if el =? 0 then [] else sign el) else []) ++ r)
        = Done ((0, f2), r)).
    { destruct (Z.eqb_spec class 3) as [->|Nc].
      2:{ exists f1. cbn. repeat split; auto; lia. }
      assert (B1 : runA (if negb (b2z fine =? 0) then rd 7 else rd 5) = runA (rd (if fine then 7 else 5))) by (destruct fine; reflexivity).
      assert (RD : forall A (k : Z -> prog A) r, runA (bind (if negb (b2z fine =? 0) then rd 7 else rd 5) k)
          (bits_of (if fine then 7 else 5) (Z.abs el) ++ r) = runA (k (Z.abs el)) r).
      { intros A k r. unfold step in V2. destruct fine; cbn [b2z negb Z.eqb]; [apply (runA_rdb 7 7)|apply (runA_rdb 5 5)]; try reflexivity; lia. }
      assert (LT : (if negb (b2z fine =? 0) then 90 else 18) <? Z.abs el = false).
      { unfold step in V2. apply Z.ltb_ge. destruct fine; cbn; lia. }
      assert (DG : forall d, (idx_degree (Z.abs el) d (b2z fine) =? 0) = (el =? 0)).
      { intros d. rewrite deg_fine. unfold step. destruct fine, (d =? 1), (Z.eqb_spec el 0) as [->|]; apply Z.eqb_eq || apply Z.eqb_neq; lia. }
      destruct (Z.eqb_spec el 0) as [->|Ne].
      - exists (s_f_el f1 0). cbn -[runA bits_of]. repeat split; auto; try lia.
        intros r. rewrite <- app_assoc, RD, LT, DG. cbn. reflexivity.
      - eexists (if b2z (el <? 0) =? 0 then s_f_eldir (s_f_el f1 (Z.abs el)) (b2z (el <? 0))
          else s_f_el (s_f_eldir (s_f_el f1 (Z.abs el)) (b2z (el <? 0))) (- Z.abs el)).
        split; [|split; [|split; [|split]]]; try (destruct (b2z (el <? 0) =? 0); reflexivity).
        + intros _. destruct (Z.ltb_spec el 0); cbn; split; try lia; auto.
        + intros r. rewrite <- app_assoc, RD, LT, DG. destruct (Z.eqb_spec el 0); [lia|]. cbn [negb].
          unfold sign. rewrite runA_flag. reflexivity. }
    destruct E as (f2 & A1 & A2 & A3 & A4 & A5). rewrite runA_bind. fold f1. rewrite A5.
    change (negb (0 =? 0)) with false. cbv iota.
    assert (RD : forall A (k : Z -> prog A) r, runA (bind (if negb (b2z fine =? 0) then rd 8 else rd 6) k)
          (bits_of (if fine then 8 else 6) (Z.abs az) ++ r) = runA (k (Z.abs az)) r).
    { intros A k r. unfold step in V3. destruct fine; cbn [b2z negb Z.eqb]; [apply (runA_rdb 8 8)|apply (runA_rdb 6 6)]; try reflexivity; lia. }
    rewrite RD.
    assert (LT : (if negb (b2z fine =? 0) then 180 else 36) <? Z.abs az = false).
    { unfold step in V3. apply Z.ltb_ge. destruct fine; cbn; lia. }
    rewrite LT.
    assert (DG : idx_degree (Z.abs az) (f_azdir (s_f_az f2 (Z.abs az))) (b2z fine) = Z.abs (step fine * az)).
    { rewrite deg_fine. cbn [f_azdir s_f_az]. rewrite A3. destruct (Z.eqb_spec (f_azdir f) 1); [lia|]. unfold step. destruct fine; lia. }
    rewrite DG.
    assert (MD : negb (Z.abs (step fine * az) =? 0) && negb (Z.abs (step fine * az) =? 180) = negb (middle (step fine * az))).
    { unfold middle. rewrite negb_orb. f_equal; f_equal; apply Bool.eq_true_iff_eq; rewrite !Z.eqb_eq; lia. }
    rewrite MD. destruct (middle (step fine * az)) eqn:M; cbn [negb app].
    + change (bind (Ret (s_f_az f2 (Z.abs az))) ?k) with (k (s_f_az f2 (Z.abs az))). cbv beta. rewrite runA_flag.
      eexists. split; [reflexivity|]. cbn. rewrite M. repeat split; auto; apply A4; auto.
    + rewrite bind_assoc. unfold sign. rewrite runA_flag. cbn [bind]. rewrite runA_flag.
      eexists. split; [reflexivity|]. cbn. rewrite M. repeat split; auto; apply A4; auto.
Qed.

(** ** One entry *)
Definition entry_az (prec : Z) (f : flex) : Z * flex :=
  if f_cicp f =? 0 then (idx_degree (f_az f) (f_azdir f) prec, s_f_az f (idx_degree (f_az f) (f_azdir f) prec))
  else if (f_idx f <? 20) && negb (f_idx f =? 0) && negb (f_idx f =? 8) then (s_az (ls_geo (f_idx f)), f)
  else (0, f).

Lemma aside_bool i : 0 <= i -> (i <? 20) && negb (i =? 0) && negb (i =? 8) = true <-> seen_aside i.
Proof.
  intros H. unfold seen_aside. rewrite !andb_true_iff, !negb_true_iff, Z.ltb_lt, !Z.eqb_neq. lia.
Qed.
Lemma entry_ok fine p f0 f : described fine p f0 f -> valid_pos fine p -> plain_pos p -> f_azdir f0 <> 1 ->
  let '(az, f') := entry_az (b2z fine) f in
  negb (az =? 0) && negb (az =? 180) = negb (middle (azimuth fine p)) /\
  holds_spk fine (p, false) f' /\
  (middle (azimuth fine p) = false -> holds_spk fine (p, true) (s_f_azdir f' (u16 (1 - f_azdir f')))).
Proof.
  intros D V P N. unfold entry_az, holds_spk. destruct p as [i|class el az lfe]; cbn [described valid_pos plain_pos fst snd] in *.
  - destruct D as [D1 D2]. rewrite D1, D2. change (1 =? 0) with false. cbv iota.
    destruct ((i <? 20) && negb (i =? 0) && negb (i =? 8)) eqn:B.
    + split; [|cbn; auto]. unfold middle, azimuth, s_az, ls_geo. rewrite negb_orb. reflexivity.
    + assert (M : middle (azimuth true (ByIndex i)) = true).
      { destruct P as [P|P]; [|exact P]. apply aside_bool in P; [|lia]. congruence. }
      cbn [azimuth] in *. split; [rewrite M; reflexivity|]. cbn. auto.
  - destruct D as (D1 & D2 & D3 & D4 & D5 & D6). destruct V as (V1 & V2 & V3). rewrite D1. change (0 =? 0) with true. cbv iota.
    assert (E : idx_degree (f_az f) (f_azdir f) (b2z fine) = step fine * az).
    { rewrite deg_fine, D4, D5. destruct (middle (step fine * az)) eqn:M.
      - destruct (Z.eqb_spec (f_azdir f0) 1); [lia|]. unfold middle in M. apply orb_true_iff in M. rewrite !Z.eqb_eq in M.
        unfold step in *. destruct fine; lia.
      - destruct (Z.ltb_spec az 0); cbn [b2z]; [change (1 =? 1) with true|change (0 =? 1) with false]; cbv iota; unfold step; destruct fine; lia. }
    rewrite E. split; [|split].
    + cbn [azimuth]. unfold middle. rewrite negb_orb. reflexivity.
    + cbn. rewrite xorb_false_r. repeat split; auto; try apply D3; auto. intros M. rewrite D5, M. reflexivity.
    + intros M. cbn [azimuth] in M. cbn -[u16]. rewrite xorb_true_r. repeat split; auto; try apply D3; auto. intros _.
      rewrite D5, M. destruct (az <? 0); reflexivity.
Qed.

(** ** The loop *)
Lemma speakers_cons x l : speakers (x :: l) = ((fst x, false) :: if snd x then [(fst x, true)] else []) ++ speakers l.
Proof. reflexivity. Qed.

Lemma nth_err_some {A} (l : list A) i : (i < length l)%nat -> exists x, nth_error l i = Some x.
Proof. intros H. destruct (nth_error l i) eqn:E; [eauto|]. apply nth_error_None in E. lia. Qed.

Lemma skipn_nth {A} : forall (l : list A) i x, nth_error l i = Some x -> skipn i l = x :: skipn (S i) l.
Proof.
  induction l as [|y l IH]; intros [|i] x H; try discriminate; cbn in *; [congruence|]. apply IH. exact H.
Qed.

Lemma flex_run fine : forall l fuel i arr rest,
  (length (speakers l) <= fuel)%nat -> (i + length (speakers l) <= 31)%nat -> length arr = 32%nat ->
  Forall (valid_flexspk fine) l -> Forall (fun x => plain_pos (fst x)) l ->
  (forall j f, (i <= j)%nat -> nth_error arr j = Some f -> f_azdir f <> 1) ->
  exists arr', runA (flex_loop fuel (Z.of_nat i) (Z.of_nat (i + length (speakers l))) (b2z fine) arr)
      (concat (map (enc_flexspk fine) l) ++ rest) = Done (arr', rest) /\
    length arr' = 32%nat /\ firstn i arr' = firstn i arr /\
    Forall2 (holds_spk fine) (speakers l) (firstn (length (speakers l)) (skipn i arr')).
Proof.
  induction l as [|x l IH]; intros fuel i arr rest Hf Hi HL V P N.
  - exists arr. destruct fuel; cbn [flex_loop speakers flat_map length]; rewrite Nat.add_0_r, Z.leb_refl; cbn; auto.
  - assert (VX := Forall_inv V). assert (PX := Forall_inv P). cbv beta in PX. destruct VX as [VX SX].
    rewrite speakers_cons, app_length in *. cbn [length] in Hf, Hi.
    destruct fuel as [|fuel]; [lia|]. cbn [flex_loop].
    destruct (Z.leb_spec (Z.of_nat (i + (length ((fst x, false) :: (if snd x then [(fst x, true)] else [])) + length (speakers l)))) (Z.of_nat i)) as [C|_];
      [cbn [length] in C; lia|].
    destruct (nth_err_some arr i) as [f0 Hf0]; [lia|].
    rewrite (runA_aget arr (Z.of_nat i) f0) by (try lia; rewrite Nat2Z.id; exact Hf0).
    assert (N0 : f_azdir f0 <> 1) by (apply (N i); [lia|exact Hf0]).
    cbn [map concat]. unfold enc_flexspk at 1. rewrite <- !app_assoc.
    destruct (desc_run fine (fst x) f0 ((if middle (azimuth fine (fst x)) then [] else flag (snd x)) ++ concat (map (enc_flexspk fine) l) ++ rest) VX N0)
      as (f & E & D).
    rewrite runA_bind, E. clear E. cbv beta iota.
    assert (K := entry_ok fine (fst x) f0 f D VX PX N0).
    match goal with |- context [let '(az, f1) := ?y in _] => change y with (entry_az (b2z fine) f) end.
    destruct (entry_az (b2z fine) f) as [az f']. destruct K as (K1 & K2 & K3).
    rewrite runA_aset by lia. rewrite Nat2Z.id, K1.
    set (arr1 := firstn i arr ++ f' :: skipn (S i) arr).
    assert (L1 : length arr1 = 32%nat) by (unfold arr1; rewrite set_len; lia).
    assert (NN : forall j g, (i < j)%nat -> nth_error arr1 j = Some g -> f_azdir g <> 1).
    { intros j g Hj Hg. apply (N j); [lia|]. rewrite <- Hg. unfold arr1. symmetry.
      rewrite nth_error_app2 by (rewrite firstn_length; lia). rewrite firstn_length, HL.
      replace (j - Nat.min i 32)%nat with (S (j - i - 1)) by lia. cbn [nth_error]. rewrite nth_skipn. f_equal. lia. }
    assert (F1 : firstn i arr1 = firstn i arr).
    { unfold arr1. rewrite firstn_app, firstn_firstn, Nat.min_id, firstn_length, HL.
      replace (i - Nat.min i 32)%nat with 0%nat by lia. cbn. apply app_nil_r. }
    assert (G1 : nth_error arr1 i = Some f').
    { unfold arr1. rewrite nth_error_app2 by (rewrite firstn_length; lia). rewrite firstn_length, HL.
      replace (i - Nat.min i 32)%nat with 0%nat by lia. reflexivity. }
    destruct (middle (azimuth fine (fst x))) eqn:M; cbn [negb].
    + rewrite (SX eq_refl) in *. cbn [app length] in *.
      replace (Z.of_nat i + 1) with (Z.of_nat (S i)) by lia. replace (i + (1 + length (speakers l)))%nat with (S i + length (speakers l))%nat by lia.
      destruct (IH fuel (S i) arr1 rest) as (arr' & E & A1 & A2 & A3); try lia; [exact (Forall_inv_tail V)|exact (Forall_inv_tail P)| |].
      { intros j g Hj. apply NN. lia. }
      exists arr'. split; [exact E|]. split; [exact A1|]. split.
      { rewrite <- F1. transitivity (firstn i (firstn (S i) arr')); [rewrite firstn_firstn; f_equal; lia|]. rewrite A2, firstn_firstn. f_equal. lia. }
      cbn [Nat.add]. rewrite (skipn_nth arr' i f').
      2:{ rewrite <- (nth_firstn_lt arr' i (S i)), A2, nth_firstn_lt by lia. exact G1. }
      cbn [firstn]. constructor; [exact K2|exact A3].
    + rewrite runA_flag. destruct (snd x) eqn:SN; cbn [b2z]; [change (negb (1 =? 0)) with true|change (negb (0 =? 0)) with false]; cbv iota.
      * cbn [app length] in *. rewrite runA_aset by lia. replace (Z.to_nat (Z.of_nat i + 1)) with (S i) by lia.
        set (g' := s_f_azdir f' (u16 (1 - f_azdir f'))) in *.
        set (arr2 := firstn (S i) arr1 ++ g' :: skipn (S (S i)) arr1).
        assert (L2 : length arr2 = 32%nat) by (unfold arr2; rewrite set_len; lia).
        replace (Z.of_nat i + 2) with (Z.of_nat (S (S i))) by lia.
        replace (i + (2 + length (speakers l)))%nat with (S (S i) + length (speakers l))%nat by lia.
        assert (F2 : firstn (S i) arr2 = firstn (S i) arr1).
        { unfold arr2. rewrite firstn_app, firstn_firstn, Nat.min_id, firstn_length, L1.
          replace (S i - Nat.min (S i) 32)%nat with 0%nat by lia. cbn [firstn]. apply app_nil_r. }
        assert (G2 : nth_error arr2 (S i) = Some g').
        { unfold arr2. rewrite nth_error_app2 by (rewrite firstn_length; lia). rewrite firstn_length, L1.
          replace (S i - Nat.min (S i) 32)%nat with 0%nat by lia. reflexivity. }
        destruct (IH fuel (S (S i)) arr2 rest) as (arr' & E & A1 & A2 & A3); try lia; [exact (Forall_inv_tail V)|exact (Forall_inv_tail P)| |].
        { intros j g Hj Hg. apply (NN j g); [lia|]. rewrite <- Hg. unfold arr2. symmetry.
          rewrite nth_error_app2 by (rewrite firstn_length; lia). rewrite firstn_length, L1.
          replace (j - Nat.min (S i) 32)%nat with (S (j - i - 2)) by lia. cbn [nth_error]. rewrite nth_skipn. f_equal. lia. }
        exists arr'. split; [exact E|]. split; [exact A1|].
        assert (P1 : firstn (S i) arr' = firstn (S i) arr1).
        { rewrite <- F2. transitivity (firstn (S i) (firstn (S (S i)) arr')); [rewrite firstn_firstn; f_equal; lia|]. rewrite A2, firstn_firstn. f_equal. lia. }
        split.
        { rewrite <- F1. transitivity (firstn i (firstn (S i) arr')); [rewrite firstn_firstn; f_equal; lia|]. rewrite P1, firstn_firstn. f_equal. lia. }
        cbn [Nat.add]. rewrite (skipn_nth arr' i f').
        2:{ rewrite <- (nth_firstn_lt arr' i (S i)), P1, nth_firstn_lt by lia. exact G1. }
        rewrite (skipn_nth arr' (S i) g').
        2:{ rewrite <- (nth_firstn_lt arr' (S i) (S (S i))), A2, nth_firstn_lt by lia. exact G2. }
        cbn [firstn]. constructor; [exact K2|]. constructor; [exact (K3 eq_refl)|exact A3].
      * cbn [app length] in *.
        replace (Z.of_nat i + 1) with (Z.of_nat (S i)) by lia. replace (i + (1 + length (speakers l)))%nat with (S i + length (speakers l))%nat by lia.
        destruct (IH fuel (S i) arr1 rest) as (arr' & E & A1 & A2 & A3); try lia; [exact (Forall_inv_tail V)|exact (Forall_inv_tail P)| |].
        { intros j g Hj. apply NN. lia. }
        exists arr'. split; [exact E|]. split; [exact A1|]. split.
        { rewrite <- F1. transitivity (firstn i (firstn (S i) arr')); [rewrite firstn_firstn; f_equal; lia|]. rewrite A2, firstn_firstn. f_equal. lia. }
        cbn [Nat.add]. rewrite (skipn_nth arr' i f').
        2:{ rewrite <- (nth_firstn_lt arr' i (S i)), A2, nth_firstn_lt by lia. exact G1. }
        cbn [firstn]. constructor; [exact K2|exact A3].
Qed.

(** ** Layouts *)
Lemma flexispk_run fine l y rest : lay_dim y -> unused y -> (length (speakers l) <= 31)%nat ->
  Forall (valid_flexspk fine) l -> Forall (fun x => plain_pos (fst x)) l ->
  exists y', runA (flexispk y (Z.of_nat (length (speakers l)))) (enc_flex fine l ++ rest) = Done (y', rest) /\
    holds_flex fine l y' /\ l_type y' = l_type y /\ l_num y' = l_num y /\ l_idx y' = l_idx y /\ l_spk y' = l_spk y /\
    length (l_flex y') = 32%nat.
Proof.
  intros [D1 D2] U L V P. unfold flexispk, enc_flex. rewrite <- app_assoc, runA_flag.
  destruct (flex_run fine l (length (speakers l)) 0 (l_flex y) rest) as (arr & E & A1 & A2 & A3); auto; try lia.
  { intros j f _ Hf. exact (nth_error_Forall _ _ _ _ U Hf). }
  rewrite Nat2Z.id, runA_bind. change 0 with (Z.of_nat 0). cbn [Nat.add] in E. rewrite E.
  eexists. split; [reflexivity|]. unfold holds_flex. cbn. auto 10.
Qed.

Lemma ref_flex_run fine l y rest : lay_ok y -> unused y -> (1 <= length (speakers l) <= 20)%nat ->
  Forall (valid_flexspk fine) l -> Forall (fun x => plain_pos (fst x)) l ->
  exists y', runA (ref_layout y) (enc_flex_layout fine l ++ rest) = Done ((0, y'), rest) /\
    l_type y' = 2 /\ l_num y' = Z.of_nat (length (speakers l)) /\ holds_flex fine l y' /\
    l_idx y' = Z.of_nat (length (speakers l)) /\ lay_ok y'.
Proof.
  intros [O1 O2 O3] U L V P. unfold ref_layout, enc_flex_layout. cbv zeta. rewrite <- !app_assoc.
  rewrite (runA_rdb 2 2) by lia. change (negb (2 =? 0)) with true. cbv iota.
  rewrite (read_escape_enc 5 8 16) by (try (cbn; lia); change (esc_max 5 8 16) with 65821; lia).
  set (n := Z.of_nat (length (speakers l))). replace (n - 1 + 1) with n by lia.
  destruct (Z.ltb_spec 24 n); [lia|]. change (2 =? 2) with true. cbv iota. cbn [l_num s_l_num].
  destruct (flexispk_run fine l (s_l_num (s_l_type y 2) n) rest) as (y' & E & H1 & H2 & H3 & H4 & H5 & H6);
    [constructor; assumption|exact U|lia|exact V|exact P|].
  rewrite runA_bind. fold n in E. rewrite E. cbn in H2, H3, H5. rewrite H3.
  destruct (Z.leb_spec n 0); [lia|]. destruct (Z.ltb_spec 20 n); [lia|]. cbn [orb runA].
  eexists. split; [reflexivity|]. cbn. repeat split; auto; try apply H1; cbn; try congruence; lia.
Qed.

Lemma group_flex_run fine l y nch refi rest : lay_ok y -> unused y -> (1 <= length (speakers l) <= 24)%nat ->
  Forall (valid_flexspk fine) l -> Forall (fun x => plain_pos (fst x)) l -> 0 <= refi <= 20 ->
  num_ls (l_idx y) = nch \/ num_ls (l_idx y) <= num_ls refi ->
  exists y', runA (group_layout y nch refi) (enc_flex_layout fine l ++ rest) = Done ((0, y'), rest) /\
    l_type y' = 2 /\ l_num y' = Z.of_nat (length (speakers l)) /\ holds_flex fine l y' /\ l_idx y' = l_idx y.
Proof.
  intros [O1 O2 O3] U L V P R C. unfold group_layout, enc_flex_layout. cbv zeta. rewrite <- !app_assoc.
  rewrite (runA_rdb 2 2) by lia. change (negb (2 =? 0)) with true. cbv iota.
  rewrite !bind_assoc.
  rewrite (read_escape_enc 5 8 16) by (try (cbn; lia); change (esc_max 5 8 16) with 65821; lia).
  set (n := Z.of_nat (length (speakers l))). replace (n - 1 + 1) with n by lia.
  destruct (Z.ltb_spec 24 n); [lia|]. change (2 =? 2) with true. cbv iota. cbn [l_num s_l_num].
  destruct (flexispk_run fine l (s_l_num (s_l_type y 2) n) rest) as (y' & E & H1 & H2 & H3 & H4 & H5 & H6);
    [constructor; assumption|exact U|lia|exact V|exact P|].
  rewrite bind_assoc, runA_bind. fold n in E. rewrite E. cbn [bind]. change (negb (0 =? 0)) with false. cbv iota.
  cbn in H2, H3, H4, H5. rewrite H4.
  rewrite (runA_aget num_ls_tbl (l_idx y) (num_ls (l_idx y))) by (try lia; unfold num_ls; apply nth_error_nth'; cbn; lia).
  rewrite (runA_aget num_ls_tbl refi (num_ls refi)) by (try lia; unfold num_ls; apply nth_error_nth'; cbn; lia).
  replace (negb (num_ls (l_idx y) =? nch) && (num_ls refi <? num_ls (l_idx y))) with false.
  2:{ symmetry. apply andb_false_iff. destruct C as [C|C]; [left; rewrite C, Z.eqb_refl; reflexivity|right; apply Z.ltb_ge; exact C]. }
  eexists. split; [reflexivity|]. repeat split; auto; apply H1.
Qed.

(** ** What goes wrong *)
(** A single loudspeaker by number that is aside but not taken for it. *)
Lemma ref_index_run fine i y rest : lay_ok y -> 0 <= i <= 42 -> ~ seen_aside i -> middle (azimuth true (ByIndex i)) = false ->
  exists y', runA (ref_layout y) (enc_flex_layout fine [(ByIndex i, false)] ++ rest) = Done ((0, y'), flag false ++ rest).
Proof.
  intros [O1 O2 O3] V NS M. unfold ref_layout, enc_flex_layout. cbv zeta. rewrite <- !app_assoc.
  rewrite (runA_rdb 2 2) by lia. change (negb (2 =? 0)) with true. cbv iota. change (length (speakers [(ByIndex i, false)])) with 1%nat.
  rewrite (read_escape_enc 5 8 16) by (try (cbn; lia); change (esc_max 5 8 16) with 65821; lia).
  change (24 <? Z.of_nat 1 - 1 + 1) with false. change (2 =? 2) with true. cbv iota. cbn [l_num s_l_num]. change (Z.of_nat 1 - 1 + 1) with 1.
  unfold flexispk, enc_flex. cbn [map concat]. unfold enc_flexspk. cbn [fst snd enc_pos].
  change (azimuth fine (ByIndex i)) with (azimuth true (ByIndex i)). rewrite M, app_nil_r, <- !app_assoc, bind_assoc, runA_flag.
  change (Z.to_nat 1) with 1%nat. cbn [flex_loop]. change (1 <=? 0) with false. cbv iota. rewrite !bind_assoc.
  destruct (nth_err_some (l_flex y) 0) as [f0 Hf0]; [lia|].
  cbn [l_flex s_l_num s_l_type].
  rewrite (runA_aget (l_flex y) 0 f0) by (try lia; exact Hf0). rewrite bind_assoc.
  unfold spk_description. cbv zeta. rewrite !bind_assoc, runA_flag. change (negb (b2z true =? 0)) with true. cbv iota. rewrite !bind_assoc.
  rewrite (runA_rdb 7 7) by lia. cbn [bind f_cicp s_f_idx s_f_cicp f_idx]. change (b2z true =? 0) with false. cbv iota.
  destruct ((i <? 20) && negb (i =? 0) && negb (i =? 8)) eqn:B; [apply aside_bool in B; [contradiction|lia]|].
  rewrite bind_assoc, runA_aset by lia. change (negb (0 =? 0) && negb (0 =? 180)) with false. cbv iota.
  change (flex_loop 0 (0 + 1) 1 (b2z fine)) with (fun a : list flex => Ret a). cbn. eexists. reflexivity.
Qed.

(** Rear centre in an entry last used for a loudspeaker on the right. *)
Lemma ref_stale_run y f0 b rest : lay_ok y -> nth_error (l_flex y) 0 = Some f0 -> f_azdir f0 = 1 ->
  exists y' f', runA (ref_layout y) (enc_flex_layout true [(ByAngles 0 0 180 false, false)] ++ flag b ++ rest) = Done ((0, y'), rest) /\
    nth_error (l_flex y') 0 = Some f' /\ f_lfe f' = b2z b.
Proof.
  intros [O1 O2 O3] Hf0 D. unfold ref_layout, enc_flex_layout. cbv zeta. rewrite <- !app_assoc.
  rewrite (runA_rdb 2 2) by lia. change (negb (2 =? 0)) with true. cbv iota. change (length (speakers [(ByAngles 0 0 180 false, false)])) with 1%nat.
  rewrite (read_escape_enc 5 8 16) by (try (cbn; lia); change (esc_max 5 8 16) with 65821; lia).
  change (24 <? Z.of_nat 1 - 1 + 1) with false. change (2 =? 2) with true. cbv iota. cbn [l_num s_l_num]. change (Z.of_nat 1 - 1 + 1) with 1.
  unfold flexispk, enc_flex. cbn [map concat]. unfold enc_flexspk. cbn [fst snd enc_pos].
  change (middle (step true * 180)) with true. change (middle (azimuth true (ByAngles 0 0 180 false))) with true. change (0 =? 3) with false. cbv iota.
  rewrite <- !app_assoc, bind_assoc, runA_flag. cbn [app].
  change (Z.to_nat 1) with 1%nat. cbn [flex_loop]. change (1 <=? 0) with false. cbv iota. rewrite !bind_assoc.
  cbn [l_flex s_l_num s_l_type].
  rewrite (runA_aget (l_flex y) 0 f0) by (try lia; exact Hf0). rewrite bind_assoc.
  unfold spk_description. cbv zeta. rewrite !bind_assoc, runA_flag. change (negb (b2z false =? 0)) with false. cbv iota. rewrite !bind_assoc.
  rewrite (runA_rdb 2 2) by lia. change (0 =? 3) with false. cbv iota. rewrite bind_assoc. cbn [bind]. change (negb (0 =? 0)) with false. cbv iota.
  change (negb (b2z true =? 0)) with true. cbv iota. rewrite !bind_assoc. change (Z.abs 180) with 180. rewrite (runA_rdb 8 8) by lia.
  change (180 <? 180) with false. cbv iota. cbn [f_azdir s_f_az s_f_elc s_f_cicp]. rewrite D.
  change (idx_degree 180 1 (b2z true)) with (-180). change (negb (-180 =? 0) && negb (-180 =? 180)) with true. cbv iota.
  rewrite !bind_assoc, runA_flag. cbn [bind]. rewrite !bind_assoc, runA_flag. cbn [bind]. cbn [f_cicp s_f_lfe s_f_azdir s_f_az s_f_elc s_f_cicp f_az f_azdir].
  change (b2z false =? 0) with true. cbv iota. change (idx_degree 180 (b2z false) (b2z true)) with 180.
  rewrite bind_assoc, runA_aset by lia. change (negb (180 =? 0) && negb (180 =? 180)) with false. cbv iota.
  change (flex_loop 0 (0 + 1) 1 (b2z true)) with (fun a : list flex => Ret a). cbn. eexists. eexists. split; [reflexivity|]. split; reflexivity.
Qed.

(** An azimuth beyond the half circle. *)
Lemma ref_angle_run y a rest : lay_ok y -> unused y -> 180 < a < 256 ->
  exists y' f', runA (ref_layout y) (bits_of 2 2 ++ esc_enc 5 8 16 0 ++ flag true ++ flag false ++ bits_of 2 0 ++ bits_of 8 a ++ flag false ++ rest)
    = Done ((0, y'), rest) /\ nth_error (l_flex y') 0 = Some f' /\ f_az f' = a.
Proof.
  intros [O1 O2 O3] U HA. unfold ref_layout. cbv zeta.
  rewrite (runA_rdb 2 2) by lia. change (negb (2 =? 0)) with true. cbv iota.
  rewrite (read_escape_enc 5 8 16) by (try (cbn; lia); change (esc_max 5 8 16) with 65821; lia).
  change (24 <? 0 + 1) with false. change (2 =? 2) with true. cbv iota. cbn [l_num s_l_num]. change (0 + 1) with 1.
  unfold flexispk. rewrite bind_assoc, runA_flag. cbn [app].
  change (Z.to_nat 1) with 1%nat. cbn [flex_loop]. change (1 <=? 0) with false. cbv iota. rewrite !bind_assoc.
  cbn [l_flex s_l_num s_l_type]. destruct (nth_err_some (l_flex y) 0) as [f0 Hf0]; [lia|].
  assert (D := nth_error_Forall _ _ _ _ U Hf0). cbv beta in D.
  rewrite (runA_aget (l_flex y) 0 f0) by (try lia; exact Hf0). rewrite bind_assoc.
  unfold spk_description. cbv zeta. rewrite !bind_assoc, runA_flag. change (negb (b2z false =? 0)) with false. cbv iota. rewrite !bind_assoc.
  rewrite (runA_rdb 2 2) by lia. change (0 =? 3) with false. cbv iota. rewrite bind_assoc. cbn [bind]. change (negb (0 =? 0)) with false. cbv iota.
  change (negb (b2z true =? 0)) with true. cbv iota. rewrite !bind_assoc. rewrite (runA_rdb 8 8) by lia.
  destruct (Z.ltb_spec 180 a); [|lia]. cbn [bind f_cicp f_az f_azdir s_f_az s_f_elc s_f_cicp]. change (b2z false =? 0) with true. cbv iota.
  assert (E : idx_degree a (f_azdir f0) (b2z true) = a).
  { rewrite deg_fine. destruct (Z.eqb_spec (f_azdir f0) 1); [contradiction|]. unfold step. lia. }
  rewrite E, bind_assoc, runA_aset by lia.
  replace (negb (a =? 0) && negb (a =? 180)) with true by (symmetry; apply andb_true_iff; rewrite !negb_true_iff, !Z.eqb_neq; lia).
  rewrite bind_assoc, runA_flag. change (negb (b2z false =? 0)) with false. cbv iota.
  change (flex_loop 0 (0 + 1) 1 (b2z true)) with (fun a : list flex => Ret a). cbn. eexists. eexists. split; [reflexivity|]. split; reflexivity.
Qed.
