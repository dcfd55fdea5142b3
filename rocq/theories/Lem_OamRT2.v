(** * Lem_OamRT2: whole object metadata frames are stored as sent *)

From Coq Require Import ZArith List Lia Bool SpecFloat.
From Verif Require Import Bits BitBuf Prog Wp Loops Leaf Config Lem_Dmx F32 Oam Spec_Oam Lem_OamRT.
Import ListNotations.
Open Scope Z_scope.
Open Scope prog_scope.

(** ** Loops that read no bits *)
Lemma firstn_snoc {A} (l : list A) i x : nth_error l i = Some x -> firstn (S i) l = firstn i l ++ [x].
Proof.
  revert i. induction l as [|a l IH]; intros [|i] E; cbn in E; try discriminate.
  - injection E as ->. reflexivity.
  - cbn [firstn app]. f_equal. apply IH, E.
Qed.

Lemma forP_puti {C} (body : nat -> list C -> prog (list C)) (xs : list C) b l :
  (forall i l1 x, nth_error xs i = Some x -> (b + i < length l)%nat -> put l b (firstn i xs) l1 ->
     body i l1 = Ret (set1 l1 (b + i) x)) ->
  (b + length xs <= length l)%nat ->
  exists l', forP (length xs) 0 body l = Ret l' /\ put l b xs l'.
Proof.
  intros HB HL.
  assert (G : forall m i l1, (i + m = length xs)%nat -> put l b (firstn i xs) l1 ->
     exists l', forP m i body l1 = Ret l' /\ put l b xs l').
  { induction m as [|m IH]; intros i l1 Hi P; cbn [forP].
    - exists l1. split; [reflexivity|]. replace i with (length xs) in P by lia. rewrite firstn_all in P. exact P.
    - destruct (nth_error xs i) as [x|] eqn:Ex; [|apply nth_error_None in Ex; lia].
      rewrite (HB i l1 x) by (auto; lia). cbn [bind]. apply IH; [lia|].
      rewrite (firstn_snoc xs i x Ex).
      pose proof (put_snoc l l1 b (firstn i xs) x P) as P2.
      rewrite firstn_length_le in P2 by lia. apply P2. lia. }
  apply (G (length xs) 0%nat l); [lia|]. apply put_nil.
Qed.

Lemma aget_at {A} (l : list A) b i x : nth_error l (b + i) = Some x -> aget l (Z.of_nat b + Z.of_nat i) = Ret x.
Proof.
  intros E. unfold aget. replace (0 <=? Z.of_nat b + Z.of_nat i) with true by (symmetry; apply Z.leb_le; lia).
  replace (Z.to_nat (Z.of_nat b + Z.of_nat i)) with (b + i)%nat by lia. rewrite E. reflexivity.
Qed.

(** The values present at [b], ... *)
Definition holds {A} (l : list A) (b : nat) (vs : list A) : Prop :=
  forall j x, nth_error vs j = Some x -> nth_error l (b + j) = Some x.

Lemma put_holds {A} (l l' : list A) b vs : put l b vs l' -> holds l' b vs.
Proof. intros (_ & H & _) j x E. apply H, E. Qed.

Lemma descale_run g (raw : list Z) out b vs : holds raw b vs -> (b + length vs <= length out)%nat ->
  exists out', descale_tab g (Z.of_nat b) (Z.of_nat (length vs)) raw out = Ret out' /\ put out b (map g vs) out'.
Proof.
  intros H HL. unfold descale_tab. rewrite Nat2Z.id. rewrite <- (map_length g vs).
  apply forP_puti; [|rewrite map_length; exact HL].
  intros i l1 y Ey Hi P. rewrite nth_error_map in Ey. destruct (nth_error vs i) as [x|] eqn:Ex; [|discriminate].
  injection Ey as <-. rewrite (aget_at raw b i x) by (apply H, Ex). cbn [bind].
  apply aset_set1. destruct P as (L & _). lia.
Qed.

Lemma limit_run lo hi n t : (n <= length t)%nat ->
  exists t', limit_tab lo hi (Z.of_nat n) t = Ret t' /\ put t 0 (map (clamp lo hi) (firstn n t)) t'.
Proof.
  intros HL. unfold limit_tab. rewrite Nat2Z.id.
  assert (LM : length (map (clamp lo hi) (firstn n t)) = n) by (rewrite map_length, firstn_length_le; auto).
  destruct (forP_puti (fun i t => v <- aget t (Z.of_nat i) ;; aset t (Z.of_nat i) (clamp lo hi v))
    (map (clamp lo hi) (firstn n t)) 0 t) as (t' & E & P).
  - intros i l1 y Ey Hi P. rewrite nth_error_map in Ey. destruct (nth_error (firstn n t) i) as [x|] eqn:Ex; [|discriminate].
    injection Ey as <-.
    assert (Hin : (i < n)%nat).
    { assert ((i < length (firstn n t))%nat) by (apply nth_error_Some; congruence). rewrite firstn_length_le in H; lia. }
    assert (El : nth_error l1 (0 + i) = Some x).
    { destruct P as (_ & _ & P3). rewrite P3.
      - rewrite <- Ex. cbn. symmetry. clear -Hin. revert i t Hin. induction n; intros i t Hin; [lia|].
        destruct t, i; cbn; auto. apply IHn. lia.
      - right. rewrite firstn_length_le; [lia|]. rewrite LM. lia. }
    change (Z.of_nat i) with (Z.of_nat 0 + Z.of_nat i).
    rewrite (aget_at l1 0 i x El). cbn [bind]. apply aset_set1. destruct P as (L & _). lia.
  - rewrite LM. exact HL.
  - rewrite LM in E. exists t'. auto.
Qed.

(** ** The tables after a frame *)
Definition wlen (w : raws) (N : nat) : Prop :=
  (length (r_az w) = N /\ length (r_el w) = N /\ length (r_rad w) = N /\ length (r_gain w) = N) /\
  (length (r_sw w) = N /\ length (r_sh w) = N /\ length (r_sd w) = N /\ length (r_pri w) = N).

Definition written (uni dyn : bool) (w : raws) (b : nat) (os : list obj) (w' : raws) : Prop :=
  (put (r_az w) b (map b_az os) (r_az w') /\ put (r_el w) b (map b_el os) (r_el w') /\
   put (r_rad w) b (map b_rad os) (r_rad w') /\ put (r_gain w) b (map b_gain os) (r_gain w')) /\
  put (r_sw w) b (map b_sw os) (r_sw w') /\
  (if uni then r_sh w' = r_sh w /\ r_sd w' = r_sd w
   else put (r_sh w) b (map b_sh os) (r_sh w') /\ put (r_sd w) b (map b_sd os) (r_sd w')) /\
  (if dyn then put (r_pri w) b (map b_pri os) (r_pri w') else r_pri w' = r_pri w).

Lemma put_one {A} (l : list A) b v : (b < length l)%nat -> put l b [v] (set1 l b v).
Proof.
  intros H. pose proof (put_snoc l l b [] v (put_nil l b)) as P. cbn [length app] in P.
  rewrite Nat.add_0_r in P. apply P. lia.
Qed.

Lemma aset_one {A} (l : list A) b (v : A) : (b < length l)%nat -> aset l (Z.of_nat b) v = Ret (set1 l b v).
Proof.
  intros H. pose proof (aset_set1 l b 0 v) as P. rewrite Nat.add_0_r in P.
  change (Z.of_nat 0) with 0 in P. rewrite Z.add_0_r in P. apply P. exact H.
Qed.

Definition flag (x : bool) : Z := if x then 1 else 0.

Lemma intra_run c uni dyn m os w x b N rest :
  oc_uni c = flag uni -> oc_dyn c = flag dyn -> wlen w N -> (0 < length os)%nat -> (b + length os <= N)%nat ->
  Forall legal_obj os -> fair_modes uni dyn m os ->
  b = 0%nat \/ length os = 1%nat \/ uni = false \/ m_sp m <> Fixed ->
  exists w' x', runA (intra_dec c (Z.of_nat (length os)) (Z.of_nat b) w x) (enc_intra uni dyn m os ++ rest) = Done ((w', x'), rest) /\
    written uni dyn w b os w'.
Proof.
  intros Eu Ed ((La & Le & Lr & Lg) & (Lw & Lh & Ld & Lp)) H0 HL HF (Fa & Fe & Fr & Fg & Fs & Fp) HC.
  unfold intra_dec, enc_intra.
  destruct (Nat.leb_spec (length os) 1) as [L1|L1].
  - destruct os as [|o [|]]; cbn in H0, L1; try lia. clear H0 L1. inversion HF as [|? ? HO _]; subst.
    destruct HO as (O1 & O2 & O3 & O4 & O5 & O6 & O7 & O8). cbn [length] in *.
    cbn [map concat]. rewrite app_nil_r. change (Z.of_nat 1 <=? 1) with true. cbv iota.
    rewrite <- !app_assoc.
    rewrite (rd_signed_run 8) by (try change (2 ^ (8 - 1)) with 128; lia). rewrite aset_one by lia. cbn [bind].
    rewrite (rd_signed_run 6) by (try change (2 ^ (6 - 1)) with 32; lia). rewrite aset_one by lia. cbn [bind].
    rewrite (runA_rdb 4 4) by (auto; lia). rewrite aset_one by lia. cbn [bind].
    rewrite (rd_signed_run 7) by (try change (2 ^ (7 - 1)) with 64; lia). rewrite aset_one by lia. cbn [bind].
    rewrite Eu, Ed. destruct uni; cbn [flag spread_of enc_spread Z.eqb Pos.eqb negb].
    + rewrite bind_assoc, (runA_rdb 7 7) by (auto; lia). rewrite aset_one by lia. cbn [bind].
      destruct dyn; cbn [flag Z.eqb Pos.eqb negb].
      * rewrite bind_assoc, (runA_rdb 3 3) by (auto; lia). rewrite aset_one by lia. cbn [bind].
        eexists _, _. split; [reflexivity|]. unfold written. cbn [r_az r_el r_rad r_gain r_sw r_sh r_sd r_pri map].
        repeat split; try reflexivity; try (apply put_one; lia).
      * eexists _, _. split; [reflexivity|]. unfold written. cbn [r_az r_el r_rad r_gain r_sw r_sh r_sd r_pri map].
        repeat split; try reflexivity; try (apply put_one; lia).
    + rewrite bind_assoc. rewrite <- !app_assoc. rewrite (runA_rdb 7 7) by (auto; lia). rewrite aset_one by lia. cbn [bind].
      rewrite bind_assoc. rewrite (runA_rdb 5 5) by (auto; lia). rewrite aset_one by lia. cbn [bind].
      rewrite bind_assoc. rewrite (runA_rdb 4 4) by (auto; lia). rewrite aset_one by lia. cbn [bind].
      destruct dyn; cbn [flag Z.eqb Pos.eqb negb].
      * rewrite bind_assoc, (runA_rdb 3 3) by (auto; lia). rewrite aset_one by lia. cbn [bind].
        eexists _, _. split; [reflexivity|]. unfold written. cbn [r_az r_el r_rad r_gain r_sw r_sh r_sd r_pri map].
        repeat split; try reflexivity; try (apply put_one; lia).
      * eexists _, _. split; [reflexivity|]. unfold written. cbn [r_az r_el r_rad r_gain r_sw r_sh r_sd r_pri map].
        repeat split; try reflexivity; try (apply put_one; lia).
  - replace (Z.of_nat (length os) <=? 1) with false by (symmetry; apply Z.leb_gt; lia).
    assert (HP : forall (P : obj -> Prop), (forall o, legal_obj o -> P o) -> Forall P os)
      by (intros P HPo; eapply Forall_impl; [exact HPo|exact HF]).
    assert (HM : forall (P : Z -> Prop) (g : obj -> Z), (forall o, legal_obj o -> P (g o)) -> Forall P (map g os)).
    { intros P g HPo. apply Forall_map, HP, HPo. }
    rewrite <- !app_assoc.
    destruct (param_run (rd_signed 8) (enc_s 8) (fun v => - 2 ^ (8 - 1) <= v < 2 ^ (8 - 1)) (m_az m) 0 (map b_az os) (r_az w) b
      (enc_how (m_el m) (enc_s 6) 0 (map b_el os) ++
    enc_how (m_rad m) (bits_of 4) 0 (map b_rad os) ++
    enc_how (m_gain m) (enc_s 7) 0 (map b_gain os) ++
    enc_how (m_sp m) (enc_spread uni) (0, 0, 0) (map (spread_of uni) os) ++
    (if dyn then enc_how (m_pri m) (bits_of 3) 0 (map b_pri os) else []) ++ rest)) as (az & E1 & P1).
    { apply (reads_signed 8). lia. } { rewrite map_length; lia. } { rewrite map_length; lia. }
    { apply HM. intros o (O1 & _). exact O1. } { exact Fa. }
    rewrite map_length in E1. rewrite E1. clear E1.
    destruct (param_run (rd_signed 6) (enc_s 6) (fun v => - 2 ^ (6 - 1) <= v < 2 ^ (6 - 1)) (m_el m) 0 (map b_el os) (r_el w) b
      (enc_how (m_rad m) (bits_of 4) 0 (map b_rad os) ++
    enc_how (m_gain m) (enc_s 7) 0 (map b_gain os) ++
    enc_how (m_sp m) (enc_spread uni) (0, 0, 0) (map (spread_of uni) os) ++
    (if dyn then enc_how (m_pri m) (bits_of 3) 0 (map b_pri os) else []) ++ rest)) as (el & E1 & P2).
    { apply (reads_signed 6). lia. } { rewrite map_length; lia. } { rewrite map_length; lia. }
    { apply HM. intros o (_ & O1 & _). exact O1. } { exact Fe. }
    rewrite map_length in E1. rewrite E1. clear E1.
    destruct (param_run (rd 4) (bits_of 4) (fun v => 0 <= v < 2 ^ 4) (m_rad m) 0 (map b_rad os) (r_rad w) b
      (enc_how (m_gain m) (enc_s 7) 0 (map b_gain os) ++
    enc_how (m_sp m) (enc_spread uni) (0, 0, 0) (map (spread_of uni) os) ++
    (if dyn then enc_how (m_pri m) (bits_of 3) 0 (map b_pri os) else []) ++ rest)) as (rad & E1 & P3).
    { apply (reads_rd 4). lia. } { rewrite map_length; lia. } { rewrite map_length; lia. }
    { apply HM. intros o (_ & _ & O1 & _). exact O1. } { exact Fr. }
    rewrite map_length in E1. rewrite E1. clear E1.
    destruct (param_run (rd_signed 7) (enc_s 7) (fun v => - 2 ^ (7 - 1) <= v < 2 ^ (7 - 1)) (m_gain m) 0 (map b_gain os) (r_gain w) b
      (enc_how (m_sp m) (enc_spread uni) (0, 0, 0) (map (spread_of uni) os) ++
    (if dyn then enc_how (m_pri m) (bits_of 3) 0 (map b_pri os) else []) ++ rest)) as (gain & E1 & P4).
    { apply (reads_signed 7). lia. } { rewrite map_length; lia. } { rewrite map_length; lia. }
    { apply HM. intros o (_ & _ & _ & O1 & _). exact O1. } { exact Fg. }
    rewrite map_length in E1. rewrite E1. clear E1.
    set (after := (if dyn then enc_how (m_pri m) (bits_of 3) 0 (map b_pri os) else []) ++ rest).
    assert (SP : exists sw sh sd, (forall B (k : Z * (list Z * list Z * list Z) -> prog B),
      runA (bind (spread_dec (oc_uni c) (Z.of_nat b) (Z.of_nat (length os)) (r_sw w, r_sh w, r_sd w)) k)
        (enc_how (m_sp m) (enc_spread uni) (0, 0, 0) (map (spread_of uni) os) ++ after) =
      runA (k (how_flag (m_sp m), (sw, sh, sd))) after) /\
      put (r_sw w) b (map b_sw os) sw /\
      (if uni then sh = r_sh w /\ sd = r_sd w
       else put (r_sh w) b (map b_sh os) sh /\ put (r_sd w) b (map b_sd os) sd)).
    { destruct uni.
      - destruct (spread_run1 (oc_uni c) (m_sp m) (map (spread_of true) os) (r_sw w) (r_sh w) (r_sd w) b after N) as (sw & E1 & P5); auto.
        { rewrite map_length; lia. } { rewrite map_length; lia. }
        { apply Forall_map, HP. intros o (O1 & O2 & O3 & O4 & O5 & O6 & O7 & O8). cbn. lia. }
        exists sw, (r_sh w), (r_sd w). rewrite map_length in E1. split; [exact E1|]. split; [|auto].
        rewrite map_map in P5. cbn [spread_of fst] in P5.
        destruct HC as [->|[C|[C|C]]]; [destruct (m_sp m); exact P5|lia|discriminate|].
        destruct (m_sp m); [contradiction|exact P5|exact P5].
      - destruct (spread_run3 (oc_uni c) (m_sp m) (map (spread_of false) os) (r_sw w, r_sh w, r_sd w) b after N) as ([[sw sh] sd] & E1 & P5); auto.
        { cbn; auto. } { rewrite map_length; lia. } { rewrite map_length; lia. }
        { apply Forall_map, HP. intros o (O1 & O2 & O3 & O4 & O5 & O6 & O7 & O8). cbn. lia. }
        exists sw, sh, sd. rewrite map_length in E1. split; [exact E1|].
        cbn [put3] in P5. rewrite !map_map in P5. exact P5. }
    destruct SP as (sw & sh & sd & E1 & P5 & P6). rewrite E1. clear E1. cbv beta iota. unfold after.
    rewrite Ed. destruct dyn; cbn [flag Z.eqb negb].
    + destruct (param_run (rd 3) (bits_of 3) (fun v => 0 <= v < 2 ^ 3) (m_pri m) 0 (map b_pri os) (r_pri w) b rest) as (pri & E1 & P7).
      { apply (reads_rd 3). lia. } { rewrite map_length; lia. } { rewrite map_length; lia. }
      { apply HM. intros o (O1 & O2 & O3 & O4 & O5 & O6 & O7 & O8). exact O8. } { apply Fp; reflexivity. }
      eexists _, _. split.
      * rewrite runA_bind. rewrite map_length in E1. rewrite (E1 _ (fun f l' => Ret (f, l'))). cbn [runA]. reflexivity.
      * unfold written. cbn [r_az r_el r_rad r_gain r_sw r_sh r_sd r_pri]. auto 10.
    + cbn [bind app]. eexists _, _. split; [reflexivity|].
      unfold written. cbn [r_az r_el r_rad r_gain r_sw r_sh r_sd r_pri]. auto 10.
Qed.
