(** * Lem_MctBand: the bands of a box are read back, window by window *)

From Coq Require Import ZArith List Lia Bool Ascii String.
From Verif Require Import Bits BitBuf Prog Wp Loops Config Mct Spec_Mct Lem_MctHuff.
Import ListNotations.
Open Scope list_scope.
Open Scope Z_scope.

Notation len := List.length.

Definition upd1 {A} (l : list A) (i : nat) (v : A) : list A := firstn i l ++ v :: skipn (S i) l.

Lemma upd1_len {A} (l : list A) i v : (i < len l)%nat -> len (upd1 l i v) = len l.
Proof. apply aset_len. Qed.
Lemma upd1_eq {A} (l : list A) i v : (i < len l)%nat -> nth_error (upd1 l i v) i = Some v.
Proof. apply nth_aset_eq. Qed.
Lemma upd1_neq {A} (l : list A) i t v : (i < len l)%nat -> t <> i -> nth_error (upd1 l i v) t = nth_error l t.
Proof.
  intros H N. unfold upd1. revert i t H N. induction l as [|x l IH]; intros i t H N; [cbn in H; lia|].
  destruct i as [|i].
  - destruct t; [lia|]. reflexivity.
  - destruct t; [reflexivity|]. cbn [firstn app nth_error skipn]. apply (IH i t); cbn in *; lia.
Qed.
Global Opaque upd1.

Lemma aset_run {A B} (l : list A) i v (k : list A -> prog B) bs : (i < len l)%nat ->
  runA (bind (aset l (Z.of_nat i) v) k) bs = runA (k (upd1 l i v)) bs.
Proof.
  intros H. unfold aset.
  replace (0 <=? Z.of_nat i) with true by (symmetry; apply Z.leb_le; lia).
  replace (Z.of_nat i <? Z.of_nat (len l)) with true by (symmetry; apply Z.ltb_lt; lia).
  cbn [andb bind]. rewrite Nat2Z.id. reflexivity.
Qed.

Lemma aget_run {A B} (l : list A) i v (k : A -> prog B) bs : nth_error l i = Some v ->
  runA (bind (aget l (Z.of_nat i)) k) bs = runA (k v) bs.
Proof.
  intros H. unfold aget.
  replace (0 <=? Z.of_nat i) with true by (symmetry; apply Z.leb_le; lia).
  rewrite Nat2Z.id, H. reflexivity.
Qed.

Definition on (o : option Z) : Z := match o with Some _ => 1 | None => 0 end.
Definition stl (k : kind) (o : option Z) : Z := match o with Some q => q | None => dk k end.

Lemma forP_split {S} a : forall b i (body : nat -> S -> prog S) s l,
  runA (forP (a + b) i body s) l = runA (bind (forP a i body s) (fun s' => forP b (i + a) body s')) l.
Proof.
  induction a as [|a IH]; intros b i body s l.
  - cbn [Nat.add forP bind]. rewrite Nat.add_0_r. reflexivity.
  - cbn [Nat.add forP]. rewrite bind_assoc. rewrite !runA_bind. destruct (runA (body i s) l) as [[s' l']| |]; auto.
    rewrite IH. replace (i + Datatypes.S a)%nat with (Datatypes.S i + a)%nat by lia. reflexivity.
Qed.

Section Row.
Context (k : kind) (time : bool) (n base : nat) (mask : list Z).
Hypothesis Hn : (0 < n)%nat.
Hypothesis Hb : (base mod n = 0)%nat.
Hypothesis Hmax : (base + n <= 64)%nat.

Lemma band_mod j : (j < n)%nat -> Z.of_nat (base + j) mod Z.of_nat n = Z.of_nat j.
Proof.
  intros H. rewrite <- Nat2Z.inj_mod. f_equal. rewrite Nat.add_mod by lia. rewrite Hb.
  rewrite Nat.add_0_l, Nat.mod_mod by lia. apply Nat.mod_small. exact H.
Qed.

Definition step := band_step huff (kz k) (if time then 1 else 0) (Z.of_nat n) mask.

(** The reference the band at [j] is coded against in frequency direction. *)
Definition fref (j : nat) (last : Z) : Z := match j with O => dk k | _ => last end.

Lemma band_row prev r : forall j last co sp rest,
  (j + len r = n)%nat -> len co = 64%nat -> len sp = 64%nat ->
  (forall t o, nth_error r t = Some o -> nth_error mask (base + j + t) = Some (on o)) ->
  (if time then (forall t, (j <= t < n)%nat -> nth_error sp t = Some (nth t prev (dk k))) /\
                time_ok k prev j r
   else freq_ok k (fref j last) r) ->
  (forall t, (j <= t < n)%nat -> ref_fits k (nth t prev (dk k))) ->
  ref_fits k (fref j last) ->
  exists last' co' sp',
    runA (forP (len r) (base + j) step (last, co, sp))
         ((if time then time_row k prev j r else freq_row k (fref j last) r) ++ rest)
      = Done ((last', co', sp'), rest) /\
    len co' = 64%nat /\ len sp' = 64%nat /\
    (forall t, (t < base + j)%nat -> nth_error co' t = nth_error co t) /\
    (forall t q, nth_error r t = Some (Some q) -> nth_error co' (base + j + t) = Some q) /\
    (forall t, (t < j)%nat -> nth_error sp' t = nth_error sp t) /\
    (forall t o, nth_error r t = Some o -> nth_error sp' (j + t) = Some (stl k o)) /\
    (forall t, (n <= t)%nat -> nth_error sp' t = nth_error sp t).
Proof.
  induction r as [|o r IH]; intros j last co sp rest Hj Lc Ls HM HT HP HR.
  - cbn [len forP]. exists last, co, sp. destruct time; cbn [time_row freq_row app runA];
      (split; [reflexivity|]); repeat split; auto; intros t; intros; destruct t; discriminate.
  - cbn [len] in Hj. cbn [len forP].
    assert (Hj' : (j < n)%nat) by lia.
    assert (M0 := HM 0%nat o eq_refl). rewrite Nat.add_0_r in M0.
    set (ref := if time then nth j prev (dk k) else fref j last).
    assert (FR : ref_fits k ref) by (unfold ref; destruct time; [apply HP; lia|exact HR]).
    (* the value of last_val used by the band *)
    assert (G : forall (B : Type) (K : Z -> prog B) bs,
      runA (bind (if Z.of_nat n =? 0 then Ret last
           else if 0 <? (if time then 1 else 0) then aget sp (Z.of_nat (base + j) mod Z.of_nat n)
           else if Z.of_nat (base + j) mod Z.of_nat n =? 0 then Ret (dflt (kz k))
           else Ret last) K) bs = runA (K ref) bs).
    { intros B K bs. replace (Z.of_nat n =? 0) with false by (symmetry; apply Z.eqb_neq; lia).
      rewrite band_mod by exact Hj'. unfold ref. destruct time.
      - cbn [Z.ltb Z.compare]. apply aget_run. apply HT. lia.
      - cbn [Z.ltb Z.compare]. unfold fref. destruct j as [|j].
        + cbn [Z.of_nat Z.eqb bind]. rewrite dflt_kz. reflexivity.
        + replace (Z.of_nat (S j) =? 0) with false by (symmetry; apply Z.eqb_neq; lia). reflexivity. }
    assert (E : forall last1 co1 sp1 bs bs', 
      (forall (B : Type) (K : Z * list Z * list Z -> prog B), runA (bind (step (base + j) (last, co, sp)) K) bs
         = runA (K (last1, co1, sp1)) bs') ->
      runA (bind (step (base + j) (last, co, sp)) (fun s' => forP (len r) (S (base + j)) step s')) bs
      = runA (forP (len r) (base + S j) step (last1, co1, sp1)) bs').
    { intros. rewrite H. replace (base + S j)%nat with (S (base + j)) by lia. reflexivity. }
    assert (MV : forall t o0, nth_error r t = Some o0 -> nth_error mask (base + S j + t) = Some (on o0)).
    { intros t o0 Ht. replace (base + S j + t)%nat with (base + j + S t)%nat by lia. apply HM. exact Ht. }
    destruct o as [q|].
    + (* a band with a coefficient *)
      assert (CD : codable k ref q).
      { unfold ref. destruct time; [destruct HT as [_ HT]|]; cbn [time_ok freq_ok] in HT; apply HT. }
      set (co1 := upd1 co (base + j) q). set (sp1 := upd1 sp j q).
      assert (Lc1 : len co1 = 64%nat) by (unfold co1; rewrite upd1_len; lia).
      assert (Ls1 : len sp1 = 64%nat) by (unfold sp1; rewrite upd1_len; lia).
      destruct (IH (S j) q co1 sp1 rest) as (l' & c' & s' & R & A1 & A2 & A3 & A4 & A5 & A6 & A7); auto; try lia.
      { destruct time.
        - destruct HT as [HT1 HT2]. cbn [time_ok] in HT2. split; [|apply HT2].
          intros t Ht. unfold sp1. rewrite upd1_neq by lia. apply HT1. lia.
        - cbn [freq_ok] in HT. cbn [fref]. apply HT. }
      { intros t Ht. apply HP. lia. }
      { cbn [fref]. destruct k; cbn in *; auto. }
      exists l', c', s'. split; [|split; [exact A1|split; [exact A2|]]].
      * replace ((if time then time_row k prev j (Some q :: r) else freq_row k (fref j last) (Some q :: r)) ++ rest)
          with (code k ref q ++ (if time then time_row k prev (S j) r else freq_row k (fref (S j) q) r) ++ rest)
          by (unfold ref; destruct time; cbn [time_row freq_row fref]; rewrite <- app_assoc; reflexivity).
        rewrite (E q co1 sp1 _ ((if time then time_row k prev (S j) r else freq_row k (fref (S j) q) r) ++ rest)); [exact R|].
        intros B K. unfold step, band_step. rewrite bind_assoc, G. rewrite bind_assoc.
        rewrite (aget_run mask (base + j) 1) by exact M0. cbn [Z.ltb Z.compare].
        rewrite bind_assoc. rewrite new_band_run by assumption.
        rewrite bind_assoc. rewrite aset_run by lia.
        replace (Z.of_nat n =? 0) with false by (symmetry; apply Z.eqb_neq; lia).
        rewrite band_mod by exact Hj'. rewrite bind_assoc. rewrite aset_run by lia. reflexivity.
      * split; [|split; [|split; [|split]]].
        -- intros t Ht. rewrite A3 by lia. unfold co1. apply upd1_neq; lia.
        -- intros [|t] q0 Ht; cbn in Ht.
           ++ injection Ht as <-. rewrite Nat.add_0_r. rewrite A3 by lia. unfold co1. apply upd1_eq. lia.
           ++ replace (base + j + S t)%nat with (base + S j + t)%nat by lia. apply A4. exact Ht.
        -- intros t Ht. rewrite A5 by lia. unfold sp1. apply upd1_neq; lia.
        -- intros [|t] o0 Ht; cbn in Ht.
           ++ injection Ht as <-. rewrite Nat.add_0_r. rewrite A5 by lia. unfold sp1. apply upd1_eq. lia.
           ++ replace (j + S t)%nat with (S j + t)%nat by lia. apply A6. exact Ht.
        -- intros t Ht. rewrite A7 by lia. unfold sp1. apply upd1_neq; lia.
    + (* a band switched off *)
      set (sp1 := upd1 sp j (dk k)).
      assert (Ls1 : len sp1 = 64%nat) by (unfold sp1; rewrite upd1_len; lia).
      destruct (IH (S j) ref co sp1 rest) as (l' & c' & s' & R & A1 & A2 & A3 & A4 & A5 & A6 & A7); auto; try lia.
      { destruct time.
        - destruct HT as [HT1 HT2]. cbn [time_ok] in HT2. split; [|apply HT2].
          intros t Ht. unfold sp1. rewrite upd1_neq by lia. apply HT1. lia.
        - cbn [freq_ok] in HT. cbn [fref]. exact HT. }
      { intros t Ht. apply HP. lia. }
      exists l', c', s'. split; [|split; [exact A1|split; [exact A2|]]].
      * replace (if time then time_row k prev j (None :: r) else freq_row k (fref j last) (None :: r))
          with (if time then time_row k prev (S j) r else freq_row k (fref (S j) ref) r)
          by (unfold ref; destruct time; reflexivity).
        rewrite (E ref co sp1 _ ((if time then time_row k prev (S j) r else freq_row k (fref (S j) ref) r) ++ rest)); [exact R|].
        intros B K. unfold step, band_step. rewrite bind_assoc, G. rewrite bind_assoc.
        rewrite (aget_run mask (base + j) 0) by exact M0. cbn [Z.ltb Z.compare].
        replace (Z.of_nat n =? 0) with false by (symmetry; apply Z.eqb_neq; lia).
        rewrite band_mod by exact Hj'. rewrite bind_assoc. rewrite aset_run by lia. rewrite dflt_kz. reflexivity.
      * split; [|split; [|split; [|split]]].
        -- intros t Ht. apply A3. lia.
        -- intros [|t] q0 Ht; cbn in Ht; [discriminate|].
           replace (base + j + S t)%nat with (base + S j + t)%nat by lia. apply A4. exact Ht.
        -- intros t Ht. rewrite A5 by lia. unfold sp1. apply upd1_neq; lia.
        -- intros [|t] o0 Ht; cbn in Ht.
           ++ injection Ht as <-. rewrite Nat.add_0_r. rewrite A5 by lia. unfold sp1. apply upd1_eq. lia.
           ++ replace (j + S t)%nat with (S j + t)%nat by lia. apply A6. exact Ht.
        -- intros t Ht. rewrite A7 by lia. unfold sp1. apply upd1_neq; lia.
Qed.
End Row.

Section FullRow.
Context (k : kind) (nv : Z) (n base : nat) (mask : list Z).
Hypothesis Hn : (0 < n)%nat.
Hypothesis Hb : (base mod n = 0)%nat.
Hypothesis Hmax : (base + n <= 64)%nat.

Definition fstep := full_step (kz k) (Z.of_nat n) nv mask.

Lemma full_row r : forall j co sp rest,
  (j + len r = n)%nat -> len co = 64%nat -> len sp = 64%nat ->
  (forall t o, nth_error r t = Some o -> nth_error mask (base + j + t) = Some (on o)) ->
  (forall t q, nth_error r t = Some (Some q) -> q = nv) ->
  exists co' sp',
    runA (forP (len r) (base + j) fstep (co, sp)) rest = Done ((co', sp'), rest) /\
    len co' = 64%nat /\ len sp' = 64%nat /\
    (forall t, (t < base + j)%nat -> nth_error co' t = nth_error co t) /\
    (forall t q, nth_error r t = Some (Some q) -> nth_error co' (base + j + t) = Some q) /\
    (forall t, (t < j)%nat -> nth_error sp' t = nth_error sp t) /\
    (forall t o, nth_error r t = Some o -> nth_error sp' (j + t) = Some (stl k o)) /\
    (forall t, (n <= t)%nat -> nth_error sp' t = nth_error sp t).
Proof.
  induction r as [|o r IH]; intros j co sp rest Hj Lc Ls HM HV.
  - cbn [len forP]. exists co, sp. cbn [runA].
    (split; [reflexivity|]); repeat split; auto; intros t; intros; destruct t; discriminate.
  - cbn [len] in Hj. cbn [len forP].
    assert (Hj' : (j < n)%nat) by lia.
    assert (M0 := HM 0%nat o eq_refl). rewrite Nat.add_0_r in M0.
    set (co1 := upd1 co (base + j) nv). set (sp1 := upd1 sp j (stl k o)).
    assert (Lc1 : len co1 = 64%nat) by (unfold co1; rewrite upd1_len; lia).
    assert (Ls1 : len sp1 = 64%nat) by (unfold sp1; rewrite upd1_len; lia).
    assert (MV : forall t o0, nth_error r t = Some o0 -> nth_error mask (base + S j + t) = Some (on o0)).
    { intros t o0 Ht. replace (base + S j + t)%nat with (base + j + S t)%nat by lia. apply HM. exact Ht. }
    destruct (IH (S j) co1 sp1 rest) as (c' & s' & R & A1 & A2 & A3 & A4 & A5 & A6 & A7); auto; try lia.
    { intros t q Ht. apply (HV (S t)). exact Ht. }
    exists c', s'. split; [|split; [exact A1|split; [exact A2|]]].
    + assert (E : forall (B : Type) (K : list Z * list Z -> prog B),
        runA (bind (fstep (base + j) (co, sp)) K) rest = runA (K (co1, sp1)) rest).
      { intros B K. unfold fstep, full_step. rewrite bind_assoc. rewrite aset_run by lia.
        replace (Z.of_nat n =? 0) with false by (symmetry; apply Z.eqb_neq; lia).
        rewrite bind_assoc. rewrite (aget_run mask (base + j) (on o)) by exact M0.
        rewrite band_mod by assumption. rewrite bind_assoc. rewrite aset_run by lia.
        replace (if 0 <? on o then nv else dflt (kz k)) with (stl k o); [reflexivity|].
        destruct o as [q|]; cbn; [|rewrite dflt_kz; reflexivity]. apply (HV 0%nat). reflexivity. }
      rewrite E. replace (S (base + j)) with (base + S j)%nat by lia. exact R.
    + split; [|split; [|split; [|split]]].
      * intros t Ht. rewrite A3 by lia. unfold co1. apply upd1_neq; lia.
      * intros [|t] q0 Ht; cbn in Ht.
        -- injection Ht as ->. rewrite Nat.add_0_r. rewrite A3 by lia. unfold co1.
           rewrite (HV 0%nat q0 eq_refl). apply upd1_eq. lia.
        -- replace (base + j + S t)%nat with (base + S j + t)%nat by lia. apply A4. exact Ht.
      * intros t Ht. rewrite A5 by lia. unfold sp1. apply upd1_neq; lia.
      * intros [|t] o0 Ht; cbn in Ht.
        -- injection Ht as <-. rewrite Nat.add_0_r. rewrite A5 by lia. unfold sp1. apply upd1_eq. lia.
        -- replace (j + S t)%nat with (S j + t)%nat by lia. apply A6. exact Ht.
      * intros t Ht. rewrite A7 by lia. unfold sp1. apply upd1_neq; lia.
Qed.
End FullRow.

(** ** Several windows *)
Definition masks_of (rows : list (list (option Z))) (base n : nat) (mask : list Z) : Prop :=
  forall w row t o, nth_error rows w = Some row -> nth_error row t = Some o ->
    nth_error mask (base + w * n + t) = Some (on o).

Definition co_has (rows : list (list (option Z))) (base n : nat) (co : list Z) : Prop :=
  forall w row t q, nth_error rows w = Some row -> nth_error row t = Some (Some q) ->
    nth_error co (base + w * n + t) = Some q.

Lemma nth_settle k row t : nth t (settle k row) (dk k) = match nth_error row t with Some o => stl k o | None => dk k end.
Proof.
  revert t. induction row as [|o row IH]; intros [|t]; cbn; auto. 
Qed.

Lemma fits_dk k : ref_fits k (dk k). Proof. destruct k; cbn; lia. Qed.

Lemma freq_fits k : forall row ref t q, freq_ok k ref row -> nth_error row t = Some (Some q) -> ref_fits k q.
Proof.
  induction row as [|o row IH]; intros ref [|t] q H N; cbn in N; try discriminate.
  - injection N as ->. cbn in H. destruct H as [H _]. destruct k; cbn in *; auto.
  - destruct o; cbn in H; [destruct H as [_ H]|]; eapply IH; eauto.
Qed.
Lemma time_fits k prev : forall row j t q, time_ok k prev j row -> nth_error row t = Some (Some q) -> ref_fits k q.
Proof.
  induction row as [|o row IH]; intros j [|t] q H N; cbn in N; try discriminate.
  - injection N as ->. cbn in H. destruct H as [H _]. destruct k; cbn in *; auto.
  - destruct o; cbn in H; [destruct H as [_ H]|]; eapply IH; eauto.
Qed.

Lemma stl_fits k (time : bool) prev row :
  (if time then time_ok k prev 0 row else freq_ok k (dk k) row) ->
  forall t, ref_fits k (nth t (settle k row) (dk k)).
Proof.
  intros H t. rewrite nth_settle. destruct (nth_error row t) as [[q|]|] eqn:E; try apply fits_dk.
  cbn. destruct time; [eapply time_fits|eapply freq_fits]; eauto.
Qed.

Lemma last_cons2 {A} (a b : A) l d : last (a :: b :: l) d = last (b :: l) d.
Proof. reflexivity. Qed.

Lemma band_rows k time n mask rows : forall prev base last co sp rest,
  Forall (fun r => len r = n) rows -> (base mod n = 0)%nat -> (base + len rows * n <= 64)%nat ->
  len co = 64%nat -> len sp = 64%nat -> masks_of rows base n mask ->
  (time = true -> forall t, (t < n)%nat -> nth_error sp t = Some (nth t prev (dk k))) ->
  (forall t, (t < n)%nat -> ref_fits k (nth t prev (dk k))) ->
  rows_ok k time prev rows ->
  exists last' co' sp',
    runA (forP (len rows * n) base (band_step huff (kz k) (if time then 1 else 0) (Z.of_nat n) mask) (last, co, sp))
         (rows_bits k time prev rows ++ rest) = Done ((last', co', sp'), rest) /\
    len co' = 64%nat /\ len sp' = 64%nat /\
    (forall t, (t < base)%nat -> nth_error co' t = nth_error co t) /\
    co_has rows base n co' /\
    (rows <> [] -> forall t, (t < n)%nat -> nth_error sp' t = Some (nth t (settle k (List.last rows [])) (dk k))).
Proof.
  induction rows as [|row rows IH]; intros prev base last co sp rest FA Hb Hm Lc Ls HM HS HP HR.
  - exists last, co, sp. cbn. repeat split; auto; try congruence.
    intros w r t q H. destruct w; discriminate.
  - pose proof (Forall_inv FA) as Lr. cbn beta in Lr. apply Forall_inv_tail in FA.
    cbn [len Nat.mul] in *. cbn [rows_ok] in HR. destruct HR as [HR1 HR2].
    destruct (Nat.eq_dec n 0) as [->|Hn].
    { (* no bands at all *)
      assert (Z0 : forall rs pv, Forall (fun r => len r = 0%nat) rs -> rows_bits k time pv rs = []).
      { induction rs as [|r rs IHr]; intros pv F; [reflexivity|].
        pose proof (Forall_inv F) as L0. cbn beta in L0. apply Forall_inv_tail in F. destruct r; [|discriminate].
        cbn [rows_bits]. rewrite IHr by exact F. destruct time; reflexivity. }
      rewrite (Z0 (row :: rows)) by (constructor; assumption).
      rewrite Nat.mul_0_r. cbn [Nat.add forP app runA]. exists last, co, sp. repeat split; auto; try lia.
      intros w r t q Hw Ht. exfalso.
      assert (Forall (fun r => len r = 0%nat) (row :: rows)) as F by (constructor; assumption).
      rewrite Forall_forall in F. apply nth_error_In in Hw. apply F in Hw. destruct r; [destruct t; discriminate|discriminate]. }
    destruct (band_row k time n base mask ltac:(lia) Hb ltac:(lia) prev row 0 last co sp (rows_bits k time (settle k row) rows ++ rest))
      as (l1 & c1 & s1 & R1 & A1 & A2 & A3 & A4 & A5 & A6 & A7); auto.
    { intros t o Ht. replace (base + 0 + t)%nat with (base + 0 * n + t)%nat by lia. eapply HM; [reflexivity|exact Ht]. }
    { destruct time; [split; [intros t Ht; apply HS; auto; lia|exact HR1]|exact HR1]. }
    { intros t Ht. apply HP. lia. }
    { cbn. apply fits_dk. }
    assert (S1 : forall t, (t < n)%nat -> nth_error s1 t = Some (nth t (settle k row) (dk k))).
    { intros t Ht. rewrite nth_settle. destruct (nth_error_Some_ex row t ltac:(lia)) as [o Eo]. rewrite Eo. apply (A6 t o Eo). }
    destruct (IH (settle k row) (base + n)%nat l1 c1 s1 rest) as (l2 & c2 & s2 & R2 & B1 & B2 & B3 & B4 & B5); auto; try lia.
    { rewrite Nat.add_mod by lia. rewrite Hb, Nat.mod_same by lia. apply Nat.mod_0_l. lia. }
    { intros w r t o Hw Ht. replace (base + n + w * n + t)%nat with (base + S w * n + t)%nat by lia. eapply HM; [exact Hw|exact Ht]. }
    { intros t Ht. eapply stl_fits. exact HR1. }
    exists l2, c2, s2. split; [|split; [exact B1|split; [exact B2|split; [|split]]]].
    + rewrite forP_split. rewrite runA_bind. cbn [rows_bits]. rewrite <- app_assoc.
      unfold step in R1. rewrite Lr in R1. rewrite Nat.add_0_r in R1. cbn [fref] in R1. rewrite R1. exact R2.
    + intros t Ht. rewrite B3 by lia. apply A3. lia.
    + intros [|w] r t q Hw Ht.
      * cbn in Hw. injection Hw as <-. assert (t < len row)%nat by (apply nth_error_Some; congruence).
        rewrite B3 by lia. replace (base + 0 * n + t)%nat with (base + 0 + t)%nat by lia. apply A4. exact Ht.
      * replace (base + S w * n + t)%nat with (base + n + w * n + t)%nat by lia. eapply B4; eauto.
    + intros _ t Ht. destruct rows as [|r2 rows].
      * cbn [List.last]. cbn in R2. injection R2. intros. subst. apply S1. exact Ht.
      * rewrite last_cons2. apply B5; [discriminate|exact Ht].
Qed.

Lemma full_rows k nv n mask rows : forall base co sp rest,
  Forall (fun r => len r = n) rows -> (base mod n = 0)%nat -> (base + len rows * n <= 64)%nat ->
  len co = 64%nat -> len sp = 64%nat -> masks_of rows base n mask ->
  (forall w row t q, nth_error rows w = Some row -> nth_error row t = Some (Some q) -> q = nv) ->
  exists co' sp',
    runA (forP (len rows * n) base (full_step (kz k) (Z.of_nat n) nv mask) (co, sp)) rest
      = Done ((co', sp'), rest) /\
    len co' = 64%nat /\ len sp' = 64%nat /\
    (forall t, (t < base)%nat -> nth_error co' t = nth_error co t) /\
    co_has rows base n co' /\
    (rows <> [] -> forall t, (t < n)%nat -> nth_error sp' t = Some (nth t (settle k (List.last rows [])) (dk k))).
Proof.
  induction rows as [|row rows IH]; intros base co sp rest FA Hb Hm Lc Ls HM HV.
  - exists co, sp. cbn. repeat split; auto; try congruence.
    intros w r t q H. destruct w; discriminate.
  - assert (FA0 := FA). pose proof (Forall_inv FA) as Lr. cbn beta in Lr. apply Forall_inv_tail in FA.
    cbn [len Nat.mul] in *.
    destruct (Nat.eq_dec n 0) as [->|Hn].
    { rewrite Nat.mul_0_r. cbn [Nat.add forP app runA]. exists co, sp. repeat split; auto; try lia.
      intros w r t q Hw Ht. exfalso.
      rewrite Forall_forall in FA0. apply nth_error_In in Hw. apply FA0 in Hw. destruct r; [destruct t; discriminate|discriminate]. }
    destruct (full_row k nv n base mask ltac:(lia) Hb ltac:(lia) row 0 co sp rest)
      as (c1 & s1 & R1 & A1 & A2 & A3 & A4 & A5 & A6 & A7); auto.
    { intros t o Ht. replace (base + 0 + t)%nat with (base + 0 * n + t)%nat by lia. eapply HM; [reflexivity|exact Ht]. }
    { intros t q Ht. apply (HV 0%nat row t q eq_refl Ht). }
    assert (S1 : forall t, (t < n)%nat -> nth_error s1 t = Some (nth t (settle k row) (dk k))).
    { intros t Ht. rewrite nth_settle. destruct (nth_error_Some_ex row t ltac:(lia)) as [o Eo]. rewrite Eo. apply (A6 t o Eo). }
    destruct (IH (base + n)%nat c1 s1 rest) as (c2 & s2 & R2 & B1 & B2 & B3 & B4 & B5); auto; try lia.
    { rewrite Nat.add_mod by lia. rewrite Hb, Nat.mod_same by lia. apply Nat.mod_0_l. lia. }
    { intros w r t o Hw Ht. replace (base + n + w * n + t)%nat with (base + S w * n + t)%nat by lia. eapply HM; [exact Hw|exact Ht]. }
    { intros w r t q Hw Ht. apply (HV (S w) r t q Hw Ht). }
    exists c2, s2. split; [|split; [exact B1|split; [exact B2|split; [|split]]]].
    + rewrite forP_split. rewrite runA_bind.
      unfold fstep in R1. rewrite Lr in R1. rewrite Nat.add_0_r in R1. rewrite R1. exact R2.
    + intros t Ht. rewrite B3 by lia. apply A3. lia.
    + intros [|w] r t q Hw Ht.
      * cbn in Hw. injection Hw as <-. assert (t < len row)%nat by (apply nth_error_Some; congruence).
        rewrite B3 by lia. replace (base + 0 * n + t)%nat with (base + 0 + t)%nat by lia. apply A4. exact Ht.
      * replace (base + S w * n + t)%nat with (base + n + w * n + t)%nat by lia. eapply B4; eauto.
    + intros _ t Ht. destruct rows as [|r2 rows].
      * cbn [List.last]. cbn in R2. injection R2. intros. subst. apply S1. exact Ht.
      * rewrite last_cons2. apply B5; [discriminate|exact Ht].
Qed.

(** The references beyond the bands of a window. *)
Lemma tail_run {B} (d : Z) n sp (K : list Z -> prog B) rest : (n <= 64)%nat -> len sp = 64%nat ->
  exists sp', runA (bind (forP (64 - n) n (fun i l => aset l (Z.of_nat i) d) sp) K) rest = runA (K sp') rest /\
    len sp' = 64%nat /\ (forall t, (t < n)%nat -> nth_error sp' t = nth_error sp t) /\
    (forall t, (n <= t < 64)%nat -> nth_error sp' t = Some d).
Proof.
  intros Hn. remember (64 - n)%nat as m eqn:Em. revert n Hn Em sp.
  induction m as [|m IH]; intros n Hn Em sp Ls.
  - exists sp. repeat split; auto. intros; lia.
  - cbn [forP]. destruct (IH (S n) ltac:(lia) ltac:(lia) (upd1 sp n d)) as (sp' & R & L & A & C).
    { rewrite upd1_len; lia. }
    exists sp'. split; [rewrite bind_assoc, aset_run by lia; exact R|]. split; [exact L|]. split.
    + intros t Ht. rewrite A by lia. apply upd1_neq; lia.
    + intros t Ht. destruct (Nat.eq_dec t n) as [->|]; [|apply C; lia].
      rewrite A by lia. apply upd1_eq. lia.
Qed.
