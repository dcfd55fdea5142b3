(** * Lem_MctSafe: no undefined behaviour while the side information is read, and
    coefficients inside the tables as long as no codeword is cut off by the end *)

From Coq Require Import ZArith List Lia Bool Ascii String.
From Verif Require Import Bits BitBuf Prog Wp Loops Escape Config Leaf Mct Spec_Mct Lem_MctHuff Lem_MctBand Lem_MctBox Lem_MctRT.
Import ListNotations.
Open Scope list_scope.
Open Scope Z_scope.

(** A Huffman decoder that reports a codeword cut off by the end of the payload. *)
Definition huff_whole (tab : list (Z * Z)) : prog Z :=
  i <- huff tab ;; if i <? 0 then Throw INSUFFICIENT_INPUT_BYTES else Ret i.

Lemma wp_huff_from tab : forall i0 (Q : Z -> Prop), Forall (fun e => 0 < fst e <= 24) tab ->
  Q (-1) -> (forall i, i0 <= i < i0 + Z.of_nat (len tab) -> Q i) -> wp (huff_from tab i0) Q.
Proof.
  induction tab as [|[l c] tab IH]; intros i0 Q F Q1 Q2; [exact Q1|].
  pose proof (Forall_inv F) as F1. cbn [fst] in F1. apply Forall_inv_tail in F. cbn [huff_from].
  unfold avail, peek, skip. cbn [bind wp]. intros a Ha. split; [lia|]. intros v _.
  destruct (v =? c).
  - cbn [bind wp]. split; [lia|]. apply Q2. cbn [len]. lia.
  - apply IH; auto. intros i Hi. apply Q2. cbn [len]. lia.
Qed.

Lemma tab_lens_angle : Forall (fun e : Z * Z => 0 < fst e <= 24) tab_angle.
Proof. apply Forall_forall. intros e H. assert (B : forallb (fun e : Z * Z => (0 <? fst e) && (fst e <=? 24)) tab_angle = true) by (vm_compute; reflexivity).
  rewrite forallb_forall in B. apply B in H. apply andb_true_iff in H. lia. Qed.
Lemma tab_lens_scf : Forall (fun e : Z * Z => 0 < fst e <= 24) tab_scf.
Proof. apply Forall_forall. intros e H. assert (B : forallb (fun e : Z * Z => (0 <? fst e) && (fst e <=? 24)) tab_scf = true) by (vm_compute; reflexivity).
  rewrite forallb_forall in B. apply B in H. apply andb_true_iff in H. lia. Qed.

Lemma wp_whole tab (Q : Z -> Prop) : Forall (fun e => 0 < fst e <= 24) tab ->
  (forall i, 0 <= i < Z.of_nat (len tab) -> Q i) -> wp (huff_whole tab) Q.
Proof.
  intros F HQ. unfold huff_whole. apply wp_bindi. unfold huff.
  apply wp_huff_from; [exact F|exact I|]. intros i Hi. cbn beta.
  replace (i <? 0) with false by (symmetry; apply Z.ltb_ge; lia). apply HQ. lia.
Qed.

(** A decoder of codewords that returns an entry of the table, or -1 when [ct] is set. *)
Definition reads (ct : bool) (hf : list (Z * Z) -> prog Z) : Prop :=
  forall tab (Q : Z -> Prop), Forall (fun e => 0 < fst e <= 24) tab ->
    (forall i, (if ct then -1 else 0) <= i < Z.of_nat (len tab) -> Q i) -> wp (hf tab) Q.

Lemma reads_huff : reads true huff.
Proof. intros tab Q F HQ. apply wp_huff_from; [exact F|apply HQ; lia|]. intros i Hi. apply HQ. lia. Qed.
Lemma reads_whole : reads false huff_whole.
Proof. intros tab Q F HQ. apply wp_whole; [exact F|]. intros i Hi. apply HQ. lia. Qed.

(** ** Coefficients in range *)
Definition val_ok (ct : bool) (ty B v : Z) : Prop :=
  if ty =? 0 then - B <= v <= B else (if ct then - B else 0) <= v <= 64.

Lemma val_mono ct ty B B' v : B <= B' -> val_ok ct ty B v -> val_ok ct ty B' v.
Proof. unfold val_ok. destruct (ty =? 0), ct; lia. Qed.
Lemma val_dflt ct ty B : 0 <= B -> val_ok ct ty B (dflt ty).
Proof. unfold val_ok, dflt. destruct (ty =? 0), ct; lia. Qed.

Definition small (B : Z) : Prop := 0 <= B <= 2 ^ 31 - 200.

Lemma wp_addi a b (Q : Z -> Prop) : - 2 ^ 31 <= a + b < 2 ^ 31 -> Q (a + b) -> wp (Oam.addi a b) Q.
Proof.
  intros H HQ. unfold Oam.addi.
  replace (- 2 ^ 31 <=? a + b) with true by (symmetry; apply Z.leb_le; lia).
  replace (a + b <? 2 ^ 31) with true by (symmetry; apply Z.ltb_lt; lia). exact HQ.
Qed.

Lemma wp_alpha B last idx (Q : Z -> Prop) : small B -> - B <= last <= B -> -1 <= idx < 121 ->
  (forall v, - (B + 61) <= v <= B + 61 -> Q v) -> wp (dec_alpha last idx) Q.
Proof.
  unfold small, dec_alpha. intros S0 H1 H2 HQ. apply wp_bindi, wp_addi; [lia|]. apply wp_addi; [lia|]. apply HQ. lia.
Qed.

Lemma wp_new_full ct hf ty B last (Q : Z -> Prop) : reads ct hf -> small B -> val_ok ct ty B last ->
  (forall v, val_ok ct ty (B + 61) v -> Q v) -> wp (new_full hf ty last) Q.
Proof.
  unfold new_full, val_ok. intros RH S0 H HQ. destruct (ty =? 0).
  - apply wp_bindi, RH; [apply tab_lens_scf|]. intros i Hi. change (Z.of_nat (len tab_scf)) with 121 in Hi.
    assert (Hi' : -1 <= i < 121) by (destruct ct; lia). apply (wp_alpha B last i Q S0 H Hi' HQ).
  - apply wp_bindi, RH; [apply tab_lens_angle|]. intros i Hi. change (Z.of_nat (len tab_angle)) with 65 in Hi. unfold small in S0.
    apply wp_bindi, wp_addi; [destruct ct; lia|]. apply HQ. destruct (Z.leb_spec 65 (last + i)) as [E|E]; destruct ct; lia.
Qed.

Lemma wp_new_band ct hf ty B last (Q : Z -> Prop) : reads ct hf -> small B -> val_ok ct ty B last ->
  (forall v, val_ok ct ty (B + 61) v -> Q v) -> wp (new_band hf ty last) Q.
Proof.
  unfold new_band, val_ok. intros RH S0 H HQ. destruct (ty =? 0).
  - apply wp_bindi, RH; [apply tab_lens_scf|]. intros i Hi. change (Z.of_nat (len tab_scf)) with 121 in Hi.
    assert (Hi' : -1 <= i < 121) by (destruct ct; lia). apply (wp_alpha B last i Q S0 H Hi' HQ).
  - apply wp_bindi, RH; [apply tab_lens_angle|]. intros i Hi. change (Z.of_nat (len tab_angle)) with 65 in Hi. unfold small in S0.
    apply wp_bindi, wp_addi; [destruct ct; lia|]. apply HQ.
    assert (M := Z.mod_pos_bound (last + i) 65 ltac:(lia)). cbv zeta.
    set (w := if 65 <=? last + i then (last + i) mod 65 else last + i).
    assert (W : w <= 64) by (unfold w; destruct (Z.leb_spec 65 (last + i)) as [E|E]; lia).
    destruct (Z.ltb_spec w 0) as [E|E]; destruct ct; lia.
Qed.

Lemma wp_upd {A} (l : list A) i v (Q : list A -> Prop) : (i < len l)%nat -> Q (upd1 l i v) -> wp (aset l (Z.of_nat i) v) Q.
Proof.
  intros H HQ. unfold aset.
  replace (0 <=? Z.of_nat i) with true by (symmetry; apply Z.leb_le; lia).
  replace (Z.of_nat i <? Z.of_nat (len l)) with true by (symmetry; apply Z.ltb_lt; lia).
  cbn [andb wp]. rewrite Nat2Z.id. exact HQ.
Qed.
Lemma wp_get {A} (l : list A) i (Q : A -> Prop) : (i < len l)%nat -> (forall v, nth_error l i = Some v -> Q v) -> wp (aget l (Z.of_nat i)) Q.
Proof. intros H HQ. apply wp_aget; [lia|]. rewrite Nat2Z.id. exact HQ. Qed.

(** Values of the list [l] at positions satisfying [P] are in range. *)
Definition ok_at (ct : bool) (P : nat -> Prop) (ty B : Z) (l : list Z) : Prop :=
  forall t v, P t -> nth_error l t = Some v -> val_ok ct ty B v.

Lemma ok_upd ct (P P' : nat -> Prop) ty B B' l i v : (i < len l)%nat -> B <= B' -> val_ok ct ty B' v ->
  (forall t, P' t -> t <> i -> P t) -> ok_at ct P ty B l -> ok_at ct P' ty B' (upd1 l i v).
Proof.
  intros H HB HV HP HO t w Ht N. destruct (Nat.eq_dec t i) as [->|D].
  - rewrite upd1_eq in N by exact H. injection N as <-. exact HV.
  - rewrite upd1_neq in N by assumption. eapply val_mono; [exact HB|]. apply (HO t w); auto.
Qed.

(** Bands that are switched on. *)
Definition lit (mask : list Z) (n : nat) (t : nat) : Prop := (t < n)%nat /\ exists m, nth_error mask t = Some m /\ 0 < m.

Lemma modn (i n : nat) : (0 < n)%nat -> Z.of_nat i mod Z.of_nat n = Z.of_nat (i mod n).
Proof. intros. rewrite <- Nat2Z.inj_mod. reflexivity. Qed.

Lemma wp_band_wise ct hf ty dt n b (B : Z) : reads ct hf -> 0 <= B -> B + 3904 <= 2 ^ 31 - 200 -> sized b -> 0 <= x_nb b <= 64 ->
  Z.of_nat n <= x_nb b -> (0 < dt -> ok_at ct (fun t => (t < n)%nat) ty B (x_sprev b)) ->
  wp (band_wise hf ty dt (Z.of_nat n) b) (fun b' =>
    exists co sp, b' = mkBox (x_long b) (x_c0 b) (x_c1 b) sp (dflt ty) (x_dt b) (x_dir b) co (x_nb b) (x_mask b) (x_mf b) (x_bw b) (x_ff b) /\
      len co = 64%nat /\ len sp = 64%nat /\ ok_at ct (fun t => (t < n)%nat) ty (B + 3904) sp /\
      ok_at ct (lit (x_mask b) (Z.to_nat (x_nb b))) ty (B + 3904) co).
Proof.
  intros RH B0 BS (L1 & L2 & L3) Hnb Hn HD. unfold band_wise. apply wp_bindi.
  set (nb := Z.to_nat (x_nb b)). assert (Hn' : (n <= nb <= 64)%nat) by lia.
  apply (wp_for (fun i (s : Z * list Z * list Z) => let '(last, co, sp) := s in
      val_ok ct ty (B + 61 * Z.of_nat i) last /\ len co = 64%nat /\ len sp = 64%nat /\
      ok_at ct (fun t => (t < n)%nat /\ (0 < dt \/ (t < i)%nat)) ty (B + 61 * Z.of_nat i) sp /\
      ok_at ct (lit (x_mask b) i) ty (B + 61 * Z.of_nat i) co)).
  - split; [unfold val_ok; destruct (ty =? 0), ct; lia|]. split; [exact L2|]. split; [exact L1|]. split.
    + intros t v [T1 [T2|T2]] N; [|lia]. eapply val_mono; [|apply (HD T2 t v T1 N)]. lia.
    + intros t v [T1 _]; lia.
  - intros i [[last co] sp] Hi (I1 & I2 & I3 & I4 & I5). unfold band_step.
    assert (SM : small (B + 61 * Z.of_nat i)) by (unfold small; lia).
    apply wp_bindi.
    (* the reference *)
    assert (W : wp (if Z.of_nat n =? 0 then Ret last
           else if 0 <? dt then aget sp (Z.of_nat i mod Z.of_nat n)
           else if Z.of_nat i mod Z.of_nat n =? 0 then Ret (dflt ty) else Ret last) (val_ok ct ty (B + 61 * Z.of_nat i))).
    { destruct (Z.eqb_spec (Z.of_nat n) 0) as [E|E]; [exact I1|].
      destruct (Z.ltb_spec 0 dt) as [D|D].
      - rewrite modn by lia. assert (i mod n < n)%nat by (apply Nat.mod_upper_bound; lia).
        apply wp_get; [lia|]. intros v Hv. apply (I4 (i mod n)%nat v); auto.
      - destruct (_ =? 0); [|exact I1]. apply val_dflt. lia. }
    eapply wp_mono; [|exact W]. clear W. intros ref Href. cbv beta.
    apply wp_bindi, wp_get; [lia|]. intros m Hm.
    destruct (Z.ltb_spec 0 m) as [M|M].
    + apply wp_bindi. apply (wp_new_band ct hf ty (B + 61 * Z.of_nat i)); auto. intros v Hv.
      apply wp_bindi, wp_upd; [lia|]. apply wp_bindi.
      assert (OC : ok_at ct (lit (x_mask b) (S i)) ty (B + 61 * Z.of_nat (S i)) (upd1 co i v)).
      { apply (ok_upd ct (lit (x_mask b) i) _ ty (B + 61 * Z.of_nat i)); [lia|lia| | |exact I5].
        - eapply val_mono; [|exact Hv]. lia.
        - intros t [T1 T2] D. split; [lia|exact T2]. }
      assert (OL : val_ok ct ty (B + 61 * Z.of_nat (S i)) v) by (eapply val_mono; [|exact Hv]; lia).
      destruct (Z.eqb_spec (Z.of_nat n) 0) as [E|E].
      * apply wp_ret, wp_ret. cbv beta iota. split; [exact OL|]. rewrite upd1_len by lia. split; [exact I2|]. split; [exact I3|].
        split; [|exact OC]. intros t w [T1 _]; lia.
      * rewrite modn by lia. assert (i mod n < n)%nat by (apply Nat.mod_upper_bound; lia).
        apply wp_upd; [lia|]. apply wp_ret. cbv beta iota. rewrite !upd1_len by lia.
        split; [exact OL|]. split; [exact I2|]. split; [exact I3|]. split; [|exact OC].
        apply (ok_upd ct (fun t => (t < n)%nat /\ (0 < dt \/ (t < i)%nat)) _ ty (B + 61 * Z.of_nat i)); [lia|lia|exact OL| |exact I4].
        intros t [T1 T2] D. split; [exact T1|]. destruct T2 as [T2|T2]; [auto|]. right.
        assert (t <> i) by (intros ->; apply D; rewrite Nat.mod_small by exact T1; reflexivity). lia.
    + apply wp_bindi.
      assert (OC : ok_at ct (lit (x_mask b) (S i)) ty (B + 61 * Z.of_nat (S i)) co).
      { intros t w [T1 (m' & T2 & T3)] N. eapply val_mono; [|apply (I5 t w); [|exact N]]; [lia|].
        split; [|eauto]. assert (t <> i) by (intros ->; rewrite Hm in T2; injection T2 as <-; lia). lia. }
      assert (OL : val_ok ct ty (B + 61 * Z.of_nat (S i)) ref) by (eapply val_mono; [|exact Href]; lia).
      destruct (Z.eqb_spec (Z.of_nat n) 0) as [E|E].
      * apply wp_ret, wp_ret. cbv beta iota. split; [exact OL|]. split; [exact I2|]. split; [exact I3|].
        split; [|exact OC]. intros t w [T1 _]; lia.
      * rewrite modn by lia. assert (i mod n < n)%nat by (apply Nat.mod_upper_bound; lia).
        apply wp_upd; [lia|]. apply wp_ret. cbv beta iota. rewrite !upd1_len by lia.
        split; [exact OL|]. split; [exact I2|]. split; [exact I3|]. split; [|exact OC].
        apply (ok_upd ct (fun t => (t < n)%nat /\ (0 < dt \/ (t < i)%nat)) _ ty (B + 61 * Z.of_nat i)); [lia|lia|apply val_dflt; lia| |exact I4].
        intros t [T1 T2] D. split; [exact T1|]. destruct T2 as [T2|T2]; [auto|]. right.
        assert (t <> i) by (intros ->; apply D; rewrite Nat.mod_small by exact T1; reflexivity). lia.
  - intros [[last co] sp] (I1 & I2 & I3 & I4 & I5). cbn [Nat.add] in *. apply wp_ret. exists co, sp.
    split; [reflexivity|]. split; [exact I2|]. split; [exact I3|]. split.
    + intros t v T1 N. eapply val_mono; [|apply (I4 t v); [|exact N]]; [lia|]. split; [exact T1|]. right. lia.
    + intros t v T1 N. eapply val_mono; [|apply (I5 t v T1 N)]. lia.
Qed.

Lemma wp_full_band ct hf ty dt n b (B : Z) : reads ct hf -> 0 <= B -> B + 3904 <= 2 ^ 31 - 200 -> sized b -> 0 <= x_nb b <= 64 ->
  Z.of_nat n <= x_nb b -> (0 < dt -> val_ok ct ty B (x_fprev b)) ->
  wp (full_band hf ty dt (Z.of_nat n) b) (fun b' =>
    exists co sp nv, b' = mkBox (x_long b) (x_c0 b) (x_c1 b) sp nv (x_dt b) (x_dir b) co (x_nb b) (x_mask b) (x_mf b) (x_bw b) (x_ff b) /\
      len co = 64%nat /\ len sp = 64%nat /\ ok_at ct (fun t => (t < n)%nat) ty (B + 3904) sp /\ val_ok ct ty (B + 3904) nv /\
      ok_at ct (fun t => (t < Z.to_nat (x_nb b))%nat) ty (B + 3904) co).
Proof.
  intros RH B0 BS (L1 & L2 & L3) Hnb Hn HD. unfold full_band. apply wp_bindi.
  set (nb := Z.to_nat (x_nb b)). assert (Hn' : (n <= nb <= 64)%nat) by lia.
  apply (wp_new_full ct hf ty B); [exact RH| | |].
  { unfold small; lia. }
  { destruct (Z.ltb_spec 0 dt) as [D|D]; [apply HD, D|apply val_dflt; lia]. }
  intros nv Hnv. assert (NV : val_ok ct ty (B + 3904) nv) by (eapply val_mono; [|exact Hnv]; lia).
  apply wp_bindi.
  apply (wp_for (fun i (s : list Z * list Z) => let '(co, sp) := s in
      len co = 64%nat /\ len sp = 64%nat /\
      ok_at ct (fun t => (t < n)%nat /\ (t < i)%nat) ty (B + 3904) sp /\ ok_at ct (fun t => (t < i)%nat) ty (B + 3904) co)).
  - split; [exact L2|]. split; [exact L1|]. split; [intros t v [_ T]; lia|intros t v T; lia].
  - intros i [co sp] Hi (I2 & I3 & I4 & I5). unfold full_step. apply wp_bindi, wp_upd; [lia|].
    assert (OC : ok_at ct (fun t => (t < S i)%nat) ty (B + 3904) (upd1 co i nv)).
    { apply (ok_upd ct (fun t => (t < i)%nat) _ ty (B + 3904)); [lia|lia|exact NV| |exact I5]. intros t T D. lia. }
    destruct (Z.eqb_spec (Z.of_nat n) 0) as [E|E].
    + apply wp_ret. cbv beta iota. rewrite upd1_len by lia. split; [exact I2|]. split; [exact I3|]. split; [|exact OC]. intros t w [T1 _]; lia.
    + apply wp_bindi, wp_get; [lia|]. intros m Hm. apply wp_bindi.
      rewrite modn by lia. assert (i mod n < n)%nat by (apply Nat.mod_upper_bound; lia).
      apply wp_upd; [lia|]. apply wp_ret. cbv beta iota. rewrite !upd1_len by lia. split; [exact I2|]. split; [exact I3|]. split; [|exact OC].
      apply (ok_upd ct (fun t => (t < n)%nat /\ (t < i)%nat) _ ty (B + 3904)); [lia|lia| | |exact I4].
      * destruct (0 <? m); [exact NV|apply val_dflt; lia].
      * intros t [T1 T2] D. split; [exact T1|].
        assert (t <> i) by (intros ->; apply D; rewrite Nat.mod_small by exact T1; reflexivity). lia.
  - intros [co sp] (I2 & I3 & I4 & I5). cbn [Nat.add] in *. apply wp_ret. exists co, sp, nv.
    split; [reflexivity|]. split; [exact I2|]. split; [exact I3|]. split; [|split; [exact NV|exact I5]].
    intros t v T1 N. apply (I4 t v); [|exact N]. split; [exact T1|lia].
Qed.

Definition prev_ok (ct : bool) (ty B : Z) (b : box) : Prop :=
  val_ok ct ty B (x_fprev b) /\ forall t v, nth_error (x_sprev b) t = Some v -> val_ok ct ty B v.

Definition coef_ok (ct : bool) (ty B : Z) (b : box) : Prop :=
  0 <= x_nb b <= 64 /\ ok_at ct (lit (x_mask b) (Z.to_nat (x_nb b))) ty B (x_coef b).

Lemma wp_coefs ct hf ty b (B : Z) : reads ct hf -> 0 <= B -> B + 3904 <= 2 ^ 31 - 200 -> sized b -> 0 <= x_nb b <= 64 ->
  (0 < x_dt b -> prev_ok ct ty B b) ->
  wp (mc_coefs hf ty b) (fun b' =>
    sized b' /\ prev_ok ct ty (B + 3904) b' /\ coef_ok ct ty (B + 3904) b' /\ x_c0 b' = x_c0 b /\ x_c1 b' = x_c1 b).
Proof.
  intros RH B0 BS SZ Hnb HD. unfold mc_coefs.
  set (bpw := if x_long b =? 0 then x_nb b / 8 else x_nb b).
  assert (Hb : 0 <= bpw <= x_nb b).
  { unfold bpw. destruct (x_long b =? 0); [|lia]. split; [apply Z.div_pos; lia|]. apply Z.div_le_upper_bound; lia. }
  set (n := Z.to_nat bpw). replace bpw with (Z.of_nat n) by (unfold n; lia). assert (Hn : Z.of_nat n <= x_nb b) by (unfold n; lia).
  clearbody n. clear bpw Hb.
  apply wp_bindi.
  eapply (wp_mono _ (fun b' => exists co sp nv, b' = mkBox (x_long b) (x_c0 b) (x_c1 b) sp nv (x_dt b) (x_dir b) co (x_nb b) (x_mask b) (x_mf b) (x_bw b) (x_ff b) /\
      len co = 64%nat /\ len sp = 64%nat /\ ok_at ct (fun t => (t < n)%nat) ty (B + 3904) sp /\ val_ok ct ty (B + 3904) nv /\
      ok_at ct (lit (x_mask b) (Z.to_nat (x_nb b))) ty (B + 3904) co)).
  - intros b' (co & sp & nv & -> & L1 & L2 & O1 & O2 & O3).
    cbn [x_long x_c0 x_c1 x_sprev x_fprev x_dt x_dir x_coef x_nb x_mask x_mf x_bw x_ff].
    apply wp_bindi.
    apply (wp_for (fun i l => len l = 64%nat /\ ok_at ct (fun t => (t < i)%nat) ty (B + 3904) l)).
    + split; [exact L2|exact O1].
    + intros j l Hj [J1 J2]. apply wp_upd; [lia|]. rewrite upd1_len by lia. split; [exact J1|].
      apply (ok_upd ct (fun t => (t < j)%nat) _ ty (B + 3904)); [lia|lia|apply val_dflt; lia| |exact J2]. intros t T D. lia.
    + intros l [J1 J2]. apply wp_ret.
      cbn [x_long x_c0 x_c1 x_sprev x_fprev x_dt x_dir x_coef x_nb x_mask x_mf x_bw x_ff].
      split; [split; [exact J1|]; split; [exact L1|apply SZ]|]. split.
      * split; [exact O2|]. intros t v N. cbn [x_sprev] in N. apply (J2 t v); [|exact N].
        assert (t < len l)%nat by (apply nth_error_Some; congruence). lia.
      * split; [|auto]. split; [exact Hnb|exact O3].
  - destruct (x_bw b =? 0).
    + eapply wp_mono; [|apply (wp_full_band ct hf ty (x_dt b) n b B RH B0 BS SZ Hnb Hn)].
      * intros b' (co & sp & nv & E & L1 & L2 & O1 & O2 & O3). exists co, sp, nv. repeat (split; [assumption|]).
        intros t v [T _] N. apply (O3 t v T N).
      * intros D. apply (proj1 (HD D)).
    + eapply wp_mono; [|apply (wp_band_wise ct hf ty (x_dt b) n b B RH B0 BS SZ Hnb Hn)].
      * intros b' (co & sp & E & L1 & L2 & O1 & O2). exists co, sp, (dflt ty). repeat (split; [assumption|]).
        split; [apply val_dflt; lia|exact O2].
      * intros D t v _ N. apply (proj2 (HD D) t v N).
Qed.

(** ** The state between frames *)
Definition pair_fits (st : mct) (b : box) : Prop :=
  0 <= x_c0 b /\ t_start st + x_c0 b <= 23 /\ 0 <= x_c1 b /\ t_start st + x_c1 b <= 23.

Definition inv (ct : bool) (B : Z) (st : mct) : Prop :=
  len (t_boxes st) = 16%nat /\ 0 <= t_np st /\ 0 <= t_ptype st <= 1 /\
  0 <= t_start st <= 23 /\ 0 <= t_nch st /\ t_start st + t_nch st <= 24 /\
  len (t_cmap st) = 24%nat /\ Forall (fun c => 0 <= c <= 23) (t_cmap st) /\
  Forall (fun b => sized b /\ pair_fits st b /\ prev_ok ct (t_ptype st) B b) (t_boxes st).

Lemma find0_range c : forall chan0 cnt idx v, find0 c chan0 cnt idx = inl v -> chan0 <= v < chan0 + Z.of_nat c.
Proof.
  induction c as [|c IH]; intros chan0 cnt idx v H; cbn [find0] in H; [discriminate|].
  destruct (cnt =? idx); [injection H as <-; lia|]. apply IH in H. lia.
Qed.
Lemma find1_range c : forall chan1 cnt idx a b, 0 <= chan1 -> find1 c chan1 cnt idx = Some (a, b) ->
  0 <= a < b /\ chan1 <= b < chan1 + Z.of_nat c.
Proof.
  induction c as [|c IH]; intros chan1 cnt idx a b H0 H; cbn [find1] in H; [discriminate|].
  destruct (find0 (Z.to_nat chan1) 0 cnt idx) as [v|cnt'] eqn:E.
  - injection H as <- <-. apply find0_range in E. lia.
  - apply IH in H; lia.
Qed.

Lemma wp_pair nch old (Q : Z * (Z * Z) -> Prop) : 0 <= nch <= 24 ->
  (forall e, Q (e, old)) -> (forall a b, 0 <= a < b -> b < nch -> Q (0, (a, b))) -> wp (mc_pair nch old) Q.
Proof.
  intros Hn H1 H2. unfold mc_pair. set (mx := nch * (nch - 1) / 2 - 1).
  destruct (Z.ltb_spec mx 0) as [M|M]; [apply H1|].
  assert (M2 : mx < 2 ^ 9).
  { unfold mx. assert (nch * (nch - 1) / 2 <= 276); [|lia]. apply Z.div_le_upper_bound; nia. }
  unfold rd. cbn [bind wp]. split.
  { assert (0 <= Z.log2 mx) by apply Z.log2_nonneg. assert (Z.log2 mx < 9); [|lia].
    destruct (Z.eq_dec mx 0) as [->|]; [cbn; lia|]. apply Z.log2_lt_pow2; lia. }
  intros v Hv. destruct (mx <? v); [apply H1|].
  destruct (find1 _ 1 0 v) as [[a b]|] eqn:E; [|apply H1]. apply find1_range in E; [|lia].
  apply H2; lia.
Qed.

Lemma sized_clear d b : sized b -> sized (clear_prev d b).
Proof. intros (A & C & D). split; [apply repeat_length|split; assumption]. Qed.
Lemma prev_clear ct ty B b : 0 <= B -> prev_ok ct ty B (clear_prev (dflt ty) b).
Proof.
  intros HB. split; [apply val_dflt, HB|]. intros t v N. cbn [x_sprev clear_prev] in N. apply nth_error_In, repeat_spec in N. subst. apply val_dflt, HB.
Qed.

Lemma type_changes p t : 0 <= p <= 1 -> 0 <= t <= 1 -> type_change p t = false -> p = t.
Proof.
  intros H1 H2. assert (p = 0 \/ p = 1) as [-> | ->] by lia; assert (t = 0 \/ t = 1) as [-> | ->] by lia; cbn; congruence.
Qed.

Lemma wp_masks mf nb mask (Q : list Z -> Prop) : len mask = 64%nat -> nb <= 64 ->
  (forall l, len l = 64%nat -> Q l) -> wp (mc_masks mf nb mask) Q.
Proof.
  intros L H HQ. unfold mc_masks. apply (wp_for (fun _ l => len l = 64%nat)); [exact L| |intros t; apply HQ].
  intros j l Hj Hl. apply wp_bindi. assert (forall v, wp (aset l (Z.of_nat j) v) (fun l => len l = 64%nat)).
  { intros v. apply wp_upd; [lia|]. rewrite upd1_len by lia. exact Hl. }
  destruct (mf =? 0); [apply H0|]. unfold rd. cbn [wp]. split; [lia|]. intros; apply H0.
Qed.

(** One box. *)
Lemma wp_box ct hf indep sfb st b (B : Z) : reads ct hf -> 0 <= B -> B + 3904 <= 2 ^ 31 - 200 ->
  0 <= t_type st <= 1 -> 0 <= t_ptype st <= 1 -> 0 <= t_start st <= 23 -> 0 <= t_nch st -> t_start st + t_nch st <= 24 ->
  len (t_cmap st) = 24%nat -> Forall (fun c => 0 <= c <= 23) (t_cmap st) -> len sfb = 24%nat ->
  sized b -> pair_fits st b -> (t_ptype st = t_type st -> prev_ok ct (t_type st) B b) ->
  wp (mc_box hf indep sfb st b) (fun r => fst r = 0 ->
    sized (snd r) /\ pair_fits st (snd r) /\ prev_ok ct (t_type st) (B + 3904) (snd r) /\ coef_ok ct (t_type st) (B + 3904) (snd r)).
Proof.
  intros RH B0 BS HT HP HS HN HSN L24 FC LS SZ PF PV. unfold mc_box. apply wp_bindi.
  assert (W : wp (if t_keep st =? 0 then mc_pair (t_nch st) (x_c0 b, x_c1 b) else Ret (0, (x_c0 b, x_c1 b)))
     (fun r => 0 <= fst (snd r) /\ t_start st + fst (snd r) <= 23 /\ 0 <= snd (snd r) /\ t_start st + snd (snd r) <= 23)).
  { destruct (t_keep st =? 0); [|exact PF]. apply wp_pair; [lia|intros e; exact PF|]. intros x y Hx Hy. cbn [fst snd]. lia. }
  assert (MAIN : forall ff, wp ('(e, (c0, c1)) <- (if t_keep st =? 0 then mc_pair (t_nch st) (x_c0 b, x_c1 b) else Ret (0, (x_c0 b, x_c1 b))) ;;
  let b := mkBox (x_long b) c0 c1 (x_sprev b) (x_fprev b) (x_dt b) (x_dir b)
                 (x_coef b) (x_nb b) (x_mask b) (x_mf b) (x_bw b) ff in
  if negb (e =? 0) then Ret (e, b)
  else
    cm <- aget (t_cmap st) (t_start st + c0) ;;
    si <- aget sfb cm ;;
    match si with
    | None => Ret (E_MCT, b)
    | Some islong =>
      let b := if Bool.eqb (x_long b =? 0) (islong =? 0) then b else clear_prev (dflt (t_type st)) b in
      mf <- rd 1 ;;
      bw <- rd 1 ;;
      nb <- (if (bw =? 0) && (mf =? 0) then Ret 64
             else sh <- rd 1 ;; n <- rd 5 ;; Ret (if sh =? 0 then n else n * 8)) ;;
      let b := mkBox islong (x_c0 b) (x_c1 b) (x_sprev b) (x_fprev b) (x_dt b) (x_dir b)
                     (x_coef b) nb (x_mask b) mf bw (x_ff b) in
      if 64 <? nb then Ret (E_BANDS, b)
      else
        mask <- mc_masks mf nb (x_mask b) ;;
        dir <- (if t_type st =? 0 then rd 1 else Ret 0) ;;
        dt <- (if 0 <? indep then Ret 0 else rd 1) ;;
        let b := mkBox (x_long b) (x_c0 b) (x_c1 b) (x_sprev b) (x_fprev b) dt dir
                       (x_coef b) (x_nb b) mask (x_mf b) (x_bw b) (x_ff b) in
        if type_change (t_ptype st) (t_type st) && negb (dt =? 0) then Ret (E_DT, b)
        else
          b <- mc_coefs hf (t_type st) b ;;
          Ret (0, b)
    end) (fun r => fst r = 0 ->
    sized (snd r) /\ pair_fits st (snd r) /\ prev_ok ct (t_type st) (B + 3904) (snd r) /\ coef_ok ct (t_type st) (B + 3904) (snd r))).
  { intros ff. apply wp_bindi. eapply wp_mono; [|exact W]. clear W. intros (e & c0 & c1) (P1 & P2 & P3 & P4). cbn [fst snd] in *.
    cbv beta iota zeta.
    destruct (Z.eqb_spec e 0) as [->|E]; cbn [negb]; [|cbn [wp fst]; congruence].
    apply wp_bindi, wp_aget; [lia|]. intros cm Hcm. apply wp_bindi.
    assert (0 <= cm <= 23) by (rewrite Forall_forall in FC; apply FC; eapply nth_error_In; exact Hcm).
    apply wp_aget; [lia|]. intros [islong|] _; [|cbn [wp fst]; discriminate].
    set (b1 := mkBox (x_long b) c0 c1 (x_sprev b) (x_fprev b) (x_dt b) (x_dir b) (x_coef b) (x_nb b) (x_mask b) (x_mf b) (x_bw b) ff).
    set (b2 := if Bool.eqb (x_long b1 =? 0) (islong =? 0) then b1 else clear_prev (dflt (t_type st)) b1).
    assert (Z2 : sized b2 /\ x_c0 b2 = c0 /\ x_c1 b2 = c1 /\ (t_ptype st = t_type st -> prev_ok ct (t_type st) B b2)).
    { unfold b2. destruct (Bool.eqb _ _); [split; [exact SZ|]|split; [apply sized_clear; exact SZ|]]; (split; [reflexivity|]; split; [reflexivity|]).
      - exact PV.
      - intros _. apply prev_clear, B0. }
    clearbody b2. destruct Z2 as (Z1 & Z2 & Z3 & Z4). clear b1.
    unfold rd at 1. cbn [bind wp]. split; [lia|]. intros mf _.
    unfold rd at 1. cbn [bind wp]. split; [lia|]. intros bw _. apply wp_bindi.
    assert (NB : wp (if (bw =? 0) && (mf =? 0) then Ret 64 else sh <- rd 1 ;; n <- rd 5 ;; Ret (if sh =? 0 then n else n * 8)) (fun nb => 0 <= nb)).
    { destruct ((bw =? 0) && (mf =? 0)); [cbn; lia|]. unfold rd. cbn [bind wp]. split; [lia|]. intros sh _. split; [lia|]. intros n Hn. destruct (sh =? 0); lia. }
    eapply wp_mono; [|exact NB]. clear NB. intros nb Hnb. cbv beta in *.
    destruct (Z.ltb_spec 64 nb) as [G|G]; [cbn [wp fst]; discriminate|].
    apply wp_bindi. cbn [x_mask]. apply wp_masks; [apply Z1|exact G|]. intros mask LM. cbv beta.
    apply wp_bindi.
    assert (R1 : forall (Q : Z -> Prop), (forall v, Q v) -> wp (if t_type st =? 0 then rd 1 else Ret 0) Q).
    { intros Q HQ. destruct (_ =? 0); [|apply HQ]. unfold rd. cbn [wp]. split; [lia|]. intros; apply HQ. }
    apply R1. intros dir. clear R1. apply wp_bindi.
    assert (R1 : forall (Q : Z -> Prop), (forall v, Q v) -> wp (if 0 <? indep then Ret 0 else rd 1) Q).
    { intros Q HQ. destruct (0 <? indep); [apply HQ|]. unfold rd. cbn [wp]. split; [lia|]. intros; apply HQ. }
    apply R1. intros dt. clear R1. cbn [x_long x_c0 x_c1 x_sprev x_fprev x_dt x_dir x_coef x_nb x_mask x_mf x_bw x_ff].
    set (b3 := mkBox islong (x_c0 b2) (x_c1 b2) (x_sprev b2) (x_fprev b2) dt dir (x_coef b2) nb mask mf bw (x_ff b2)).
    destruct (type_change (t_ptype st) (t_type st) && negb (dt =? 0)) eqn:TC; [cbn [wp fst]; discriminate|].
    apply wp_bindi. eapply wp_mono; [|apply (wp_coefs ct hf (t_type st) b3 B RH B0 BS)].
    - intros b' (Q1 & Q2 & Q3 & Q4 & Q5). cbn [wp fst snd]. intros _. split; [exact Q1|]. split; [|split; [exact Q2|exact Q3]].
      unfold pair_fits. rewrite Q4, Q5. cbn [b3 x_c0 x_c1]. rewrite Z2, Z3. auto.
    - split; [apply Z1|]. split; [apply Z1|exact LM].
    - unfold b3; cbn [x_nb]. lia.
    - cbn [b3 x_dt]. intros D. apply Z4. apply type_changes; auto.
      replace (dt =? 0) with false in TC by (symmetry; apply Z.eqb_neq; lia). cbn [negb] in TC. rewrite andb_true_r in TC. exact TC. }
  destruct (t_fill st =? 0).
  - apply (MAIN 0).
  - unfold rd. cbn [wp]. split; [lia|]. intros ff _. apply (MAIN ff).
Qed.

(** The fields before the boxes. *)
Lemma wp_head ct indep st (B : Z) : 0 <= B -> inv ct B st ->
  wp (mc_head indep st) (fun r => fst r = 0 ->
    0 <= t_type (snd r) <= 1 /\ t_ptype (snd r) = t_ptype st /\ t_start (snd r) = t_start st /\ t_nch (snd r) = t_nch st /\
    t_cmap (snd r) = t_cmap st /\ 0 <= t_np (snd r) <= 16 /\ len (t_boxes (snd r)) = 16%nat /\
    Forall (fun b => sized b /\ pair_fits st b /\ (t_ptype st = t_type (snd r) -> prev_ok ct (t_type (snd r)) B b)) (t_boxes (snd r)) /\
    Forall (fun b => prev_ok ct (t_type (snd r)) B b) (skipn (Z.to_nat (t_np (snd r))) (t_boxes (snd r)))).
Proof.
  intros B0 (L & HN & HP & HS & HC & HSN & LM & FC & FB). unfold mc_head.
  unfold rd at 1. cbn [bind wp]. split; [lia|]. intros fill _.
  unfold rd at 1. cbn [bind wp]. split; [lia|]. intros ty Hty. change (2 ^ 1) with 2 in Hty.
  assert (R1 : forall (Q : Z -> Prop), (forall v, Q v) -> wp (if 0 <? indep then Ret 0 else rd 1) Q).
  { intros Q HQ. destruct (0 <? indep); [apply HQ|]. unfold rd. cbn [wp]. split; [lia|]. intros; apply HQ. }
  apply wp_bindi, R1. intros keep. clear R1. cbv beta zeta.
  set (boxes := if 0 <? indep then map (clear_prev (dflt ty)) (t_boxes st) else t_boxes st).
  assert (LB : len boxes = 16%nat) by (unfold boxes; destruct (0 <? indep); [rewrite map_length|]; exact L).
  assert (FB2 : Forall (fun b => sized b /\ pair_fits st b /\ (t_ptype st = ty -> prev_ok ct ty B b)) boxes).
  { assert (F0 : Forall (fun b => sized b /\ pair_fits st b /\ (t_ptype st = ty -> prev_ok ct ty B b)) (t_boxes st)).
    { eapply Forall_impl; [|exact FB]. intros b (A1 & A2 & A3). split; [exact A1|]. split; [exact A2|]. intros <-. exact A3. }
    unfold boxes. destruct (0 <? indep); [|exact F0]. apply Forall_forall. intros x Hx. apply in_map_iff in Hx. destruct Hx as (b & <- & Hb).
    rewrite Forall_forall in F0. destruct (F0 b Hb) as (A1 & A2 & _). split; [apply sized_clear, A1|]. split; [exact A2|].
    intros _. apply prev_clear, B0. }
  clearbody boxes. apply wp_bindi.
  assert (R1 : forall (Q : Z -> Prop), (forall v, 0 <= v -> Q v) -> wp (if keep =? 0 then read_escape 5 8 16 else Ret (t_np st)) Q).
  { intros Q HQ. destruct (keep =? 0); [|apply HQ, HN]. eapply wp_mono; [|apply (wp_read_escape 5 8 16 (fun v => 0 <= v)); try lia; intros v Hv; lia]. intros v Hv. apply HQ, Hv. }
  apply R1. intros np Hnp. clear R1. destruct (Z.ltb_spec 16 np) as [G|G]; [cbn [wp fst]; discriminate|].
  cbn [wp fst snd]. intros _. cbn [t_type t_ptype t_start t_nch t_cmap t_np t_boxes].
  split; [lia|]. do 4 (split; [reflexivity|]). split; [lia|].
  assert (LF : len (firstn (Z.to_nat np) boxes) = Z.to_nat np) by (rewrite firstn_length; lia).
  split; [rewrite app_length, map_length, skipn_length; lia|]. split.
  - apply Forall_app. split.
    + apply Forall_forall. intros x Hx. rewrite Forall_forall in FB2. apply FB2. rewrite <- (firstn_skipn (Z.to_nat np) boxes). apply in_or_app. left. exact Hx.
    + apply Forall_forall. intros x Hx. apply in_map_iff in Hx. destruct Hx as (b & <- & Hb).
      assert (Hb2 : In b boxes) by (rewrite <- (firstn_skipn (Z.to_nat np) boxes); apply in_or_app; right; exact Hb).
      rewrite Forall_forall in FB2. destruct (FB2 b Hb2) as (A1 & A2 & _). split; [apply sized_clear, A1|]. split; [exact A2|].
      intros _. apply prev_clear, B0.
  - rewrite skipn_app, LF, Nat.sub_diag. cbn [skipn]. rewrite skipn_all2 by lia. cbn [app].
    apply Forall_forall. intros x Hx. apply in_map_iff in Hx. destruct Hx as (b & <- & Hb). apply prev_clear, B0.
Qed.

Lemma nth_in {A} (P : A -> Prop) (l : list A) i x : Forall P l -> nth_error l i = Some x -> P x.
Proof. rewrite Forall_forall. intros H N. apply H. eapply nth_error_In, N. Qed.

Lemma forall_nth {A} (P : A -> Prop) (l : list A) : (forall i x, nth_error l i = Some x -> P x) -> Forall P l.
Proof. intros H. apply Forall_forall. intros x Hx. apply In_nth_error in Hx. destruct Hx as [i Hi]. eapply H, Hi. Qed.

Lemma prev_mono ct ty B B' b : B <= B' -> prev_ok ct ty B b -> prev_ok ct ty B' b.
Proof. intros H (A1 & A2). split; [eapply val_mono; eauto|]. intros t v N. eapply val_mono; eauto. Qed.

(** What the box gives the processing of the frame. *)
Definition ready (ct : bool) (B : Z) (st : mct) : Prop :=
  Forall (fun b => pair_fits st b /\ coef_ok ct (t_type st) B b) (firstn (Z.to_nat (t_np st)) (t_boxes st)).

Lemma nth_error_firstn_lt {A} (l : list A) : forall n i, (i < n)%nat -> nth_error (firstn n l) i = nth_error l i.
Proof. induction l as [|x l IH]; intros [|n] [|i] H; try lia; cbn; auto. apply IH. lia. Qed.
Lemma nth_error_skipn_plus {A} (l : list A) : forall n i, nth_error (skipn n l) i = nth_error l (n + i).
Proof. induction l as [|x l IH]; intros [|n] i; cbn; auto. destruct i; reflexivity. Qed.

Theorem wp_parse ct hf indep sfb st (B : Z) : reads ct hf -> 0 <= B -> B + 3904 <= 2 ^ 31 - 200 -> inv ct B st -> len sfb = 24%nat ->
  wp (mc_parse_with hf indep sfb st) (fun r => fst r = 0 ->
    inv ct (B + 3904) (snd r) /\ ready ct (B + 3904) (snd r) /\ 0 <= t_np (snd r) <= 16 /\
    t_start (snd r) = t_start st /\ t_cmap (snd r) = t_cmap st /\ t_nch (snd r) = t_nch st).
Proof.
  intros RH B0 BS IV LS. unfold mc_parse_with. apply wp_bindi. eapply wp_mono; [|apply (wp_head ct indep st B B0 IV)].
  destruct IV as (L & HN & HP & HS & HC & HSN & LM & FC & FB).
  intros (e & h) H. cbn [fst snd] in H. destruct (Z.eqb_spec e 0) as [->|E]; cbn [negb]; [|cbn [wp fst]; congruence].
  destruct (H eq_refl) as (T1 & T2 & T3 & T4 & T5 & T6 & T7 & T8 & T9). clear H.
  apply wp_bindi. unfold mc_boxes.
  set (n := Z.to_nat (t_np h)) in *. assert (n <= 16)%nat by (unfold n; lia).
  apply (wp_forE (fun i bs => len bs = 16%nat /\
      (forall j b, nth_error bs j = Some b -> sized b /\ pair_fits st b /\ ((j < i)%nat -> prev_ok ct (t_type h) (B + 3904) b /\ coef_ok ct (t_type h) (B + 3904) b)) /\
      (forall j b, (i <= j)%nat -> nth_error bs j = Some b -> nth_error (t_boxes h) j = Some b))
    (fun _ _ => True)).
  - split; [exact T7|]. split; [|auto]. intros j b N. pose proof (nth_in _ _ _ _ T8 N) as (A1 & A2 & A3).
    split; [exact A1|]. split; [exact A2|lia].
  - intros j bs Hj (I1 & I2 & I3). apply wp_bindi, wp_get; [lia|]. intros b Hb.
    pose proof (nth_in _ _ _ _ T8 (I3 j b (Nat.le_refl _) Hb)) as (A1 & A2 & A3).
    apply wp_bindi. eapply wp_mono; [|apply (wp_box ct hf indep sfb h b B RH B0 BS)]; rewrite ?T2, ?T3, ?T4, ?T5; auto; try lia.
    + intros (e & b') HQ. cbn [fst snd] in HQ. apply wp_bindi, wp_upd; [lia|]. cbn [wp fst snd].
      destruct (Z.eqb_spec e 0) as [->|E]; [|exact I]. destruct (HQ eq_refl) as (Q1 & Q2 & Q3 & Q4).
      rewrite upd1_len by lia. split; [exact I1|]. split.
      * intros k c N. destruct (Nat.eq_dec k j) as [->|D].
        -- rewrite upd1_eq in N by lia. injection N as <-. split; [exact Q1|]. split; [|auto].
           unfold pair_fits in *. rewrite T3 in Q2. exact Q2.
        -- rewrite upd1_neq in N by lia. destruct (I2 k c N) as (C1 & C2 & C3). split; [exact C1|]. split; [exact C2|]. intros. apply C3. lia.
      * intros k c Hk N. rewrite upd1_neq in N by lia. apply I3; [lia|exact N].
    + unfold pair_fits in *. rewrite T3. exact A2.
  - intros bs (I1 & I2 & I3). cbn [Nat.add] in *. cbv beta iota. cbn [Z.eqb negb wp fst snd]. intros _.
    cbn [t_type t_ptype t_start t_nch t_cmap t_np t_boxes]. rewrite T3, T4, T5. fold n.
    assert (LF : len (firstn n bs) = n) by (rewrite firstn_length; lia).
    split; [|split; [|auto]].
    + unfold inv. cbn [t_type t_ptype t_start t_nch t_cmap t_np t_boxes]. rewrite app_length, map_length, skipn_length, LF.
      do 8 (split; [first [assumption|lia]|]).
      apply Forall_app. split; apply forall_nth; intros i x N.
      * assert (i < n)%nat by (rewrite <- LF; apply nth_error_Some; congruence).
        rewrite nth_error_firstn_lt in N by assumption. destruct (I2 i x N) as (C1 & C2 & C3).
        split; [exact C1|]. split; [unfold pair_fits in *; cbn [t_start]; exact C2|]. apply C3. assumption.
      * rewrite nth_error_map, nth_error_skipn_plus in N. destruct (nth_error bs (n + i)) as [b|] eqn:Nb; [|discriminate].
        injection N as <-. destruct (I2 _ _ Nb) as (C1 & C2 & _). split; [exact C1|]. split.
        { unfold pair_fits. cbn [t_start no_pair x_c0 x_c1]. lia. }
        apply I3 in Nb; [|lia]. rewrite <- nth_error_skipn_plus in Nb. pose proof (nth_in _ _ _ _ T9 Nb) as P.
        change (prev_ok ct (t_type h) (B + 3904) b). eapply prev_mono; [|exact P]. lia.
    + unfold ready. cbn [t_type t_ptype t_start t_nch t_cmap t_np t_boxes]. fold n. rewrite firstn_app, LF, Nat.sub_diag. cbn [firstn]. rewrite app_nil_r.
      rewrite firstn_firstn, Nat.min_id. apply forall_nth; intros i x N.
      assert (i < n)%nat by (rewrite <- LF; apply nth_error_Some; congruence).
      rewrite nth_error_firstn_lt in N by assumption. destruct (I2 i x N) as (C1 & C2 & C3).
      split; [unfold pair_fits in *; cbn [t_start]; exact C2|]. apply C3. assumption.
  - intros e bs E _. cbv beta iota. replace (e =? 0) with false by (symmetry; apply Z.eqb_neq; exact E). cbn [negb wp fst]. congruence.
Qed.
