(** * Lem_OamEnhRT: enhanced object metadata frames are read as sent *)

From Coq Require Import ZArith List Lia Bool SpecFloat.
From Verif Require Import Bits BitBuf Prog Wp Loops Leaf Frame Config Lem_Dmx F32 Oam Spec_OamEnh Lem_OamRT Lem_OamRT2 Lem_OamFrame
  Lem_MhasProps Lem_OamEnh.
Import ListNotations.
Open Scope Z_scope.
Open Scope prog_scope.

(** ** Statements *)
Definition shows_sector (s : sect) (r : sector) (only : bool) : Prop :=
  match s with
  | Predef i => sc_idx r = i /\ (only = false -> sc_pre r = 1)
  | Box a b e f => sc_pre r = 0 /\ sc_minaz r = box_az a /\ sc_maxaz r = box_az b /\ sc_minel r = box_el e /\ sc_maxel r = box_el f
  end.
Definition shows_exc (only : bool) (old : exclu) (u : upd (list sect)) (new : exclu) : Prop :=
  match u with
  | New ss => ex_num new = Z.of_nat (length ss) /\
              forall j s, nth_error ss j = Some s -> exists r, nth_error (ex_sec new) j = Some r /\ shows_sector s r only
  | Keep => ex_num new = ex_num old /\
            forall j, (j < Z.to_nat (ex_num old))%nat -> exists s r, nth_error (ex_sec old) j = Some s /\
              nth_error (ex_sec new) j = Some r /\ kept_sector s r
  end.
Definition shows7 (old : f32) (u : upd Z) (new : f32) : Prop :=
  match u with New v => new = lit v 127 | Keep => new = old end.

Definition cfg_is (c : enhc) (k : ecfg) : Prop :=
  en_diff c = flag (k_diff k) /\ en_cdiff c = flag (k_cdiff k) /\ en_cexc c = flag (k_cexc k) /\
  (forall i, (i < 24)%nat -> nth_error (en_div c) i = Some (flag (k_div k i))) /\
  (forall i, (i < 24)%nat -> nth_error (en_pre c) i = Some (flag (k_only k i))).

(** ** Elementary steps *)
Lemma nth_set1_eq {A} (l : list A) k v : (k < length l)%nat -> nth_error (set1 l k v) k = Some v.
Proof. intros H. unfold set1. apply nth_aset_eq. exact H. Qed.
Lemma nth_set1_neq {A} (l : list A) k j v : (k < length l)%nat -> j <> k -> nth_error (set1 l k v) j = nth_error l j.
Proof. intros H N. unfold set1. apply nth_aset_neq; auto. Qed.
Lemma len_set1 {A} (l : list A) k v : (k < length l)%nat -> length (set1 l k v) = length l.
Proof. intros H. unfold set1. apply aset_len. lia. Qed.
Lemma aget0 {A} (l : list A) k x : nth_error l k = Some x -> aget l (Z.of_nat k) = Ret x.
Proof. intros E. unfold aget. replace (0 <=? Z.of_nat k) with true by (symmetry; apply Z.leb_le; lia). rewrite Nat2Z.id, E. reflexivity. Qed.
Lemma has_nth {A} (l : list A) k : (k < length l)%nat -> exists x, nth_error l k = Some x.
Proof. intros H. destruct (nth_error l k) eqn:E; eauto. apply nth_error_None in E. lia. Qed.

Lemma az_scale3 v : 0 <= v < 128 -> ang_az v = box_az v.
Proof.
  intros H. apply feqb_eq. apply (range_check (fun v => feqb (ang_az v) (box_az v)) 0 128); [vm_compute; reflexivity|exact H].
Qed.
Lemma el_scale6 v : 0 <= v < 32 -> ang_el v = box_el v.
Proof.
  intros H. apply feqb_eq. apply (range_check (fun v => feqb (ang_el v) (box_el v)) 0 32); [vm_compute; reflexivity|exact H].
Qed.
Lemma scale7 v : 0 <= v < 128 -> f_div (of_int v) (lit 127 1) = lit v 127.
Proof.
  intros H. apply feqb_eq. apply (range_check (fun v => feqb (f_div (of_int v) (lit 127 1)) (lit v 127)) 0 128); [vm_compute; reflexivity|exact H].
Qed.

Lemma rd_flag {A} (b : bool) (k : Z -> prog A) rest : runA (bind (rd 1) k) (b :: rest) = runA (k (flag b)) rest.
Proof.
  replace (b :: rest) with (bits_of 1 (flag b) ++ rest) by (destruct b; reflexivity).
  apply runA_rdb; [reflexivity|lia|destruct b; cbn; lia].
Qed.
Lemma rd_bits {A} (n : Z) m v (k : Z -> prog A) rest : n = Z.of_nat m -> (m <= 24)%nat -> 0 <= v < 2 ^ n ->
  runA (bind (rd n) k) (bits_of m v ++ rest) = runA (k v) rest.
Proof. apply runA_rdb. Qed.

(** ** One sector *)
Lemma sector_run only s s0 rest : legal_sect only s ->
  exists r, runA (sector_dec (flag only) s0) (enc_sect only s ++ rest) = Done (r, rest) /\ shows_sector s r only.
Proof.
  intros H. unfold sector_dec. destruct s as [i|a b e f]; cbn [legal_sect enc_sect] in *.
  - destruct only; cbn [flag app Z.eqb Pos.eqb].
    + rewrite rd_bits by (cbn; lia). eexists. split; [reflexivity|]. cbn. split; [reflexivity|discriminate].
    + rewrite rd_flag. cbn [flag Z.eqb Pos.eqb negb]. rewrite rd_bits by (cbn; lia).
      eexists. split; [reflexivity|]. cbn. auto.
  - destruct H as (-> & Ha & Hb & He & Hf). cbn [flag app Z.eqb]. rewrite rd_flag. cbn [flag Z.eqb negb].
    rewrite <- !app_assoc. rewrite !rd_bits by (cbn; lia).
    eexists. split; [reflexivity|]. cbn [shows_sector sc_pre sc_minaz sc_maxaz sc_minel sc_maxel].
    rewrite !az_scale3, !el_scale6 by lia. auto.
Qed.

Lemma sectors_run only : forall ss b l rest, Forall (legal_sect only) ss -> length l = 15%nat -> (b + length ss <= 15)%nat ->
  exists l', runA (forP (length ss) b (fun i l =>
            s <- aget l (Z.of_nat i) ;; s <- sector_dec (flag only) s ;; aset l (Z.of_nat i) s) l)
       (concat (map (enc_sect only) ss) ++ rest) = Done (l', rest) /\ length l' = 15%nat /\
    (forall j, (j < b)%nat -> nth_error l' j = nth_error l j) /\
    (forall j s, nth_error ss j = Some s -> exists r, nth_error l' (b + j) = Some r /\ shows_sector s r only).
Proof.
  induction ss as [|s ss IH]; intros b l rest HF HL HB; cbn [length] in *.
  - exists l. cbn [forP map concat app]. split; [reflexivity|]. split; [exact HL|]. split; [auto|]. intros [|j] s E; discriminate.
  - inversion_clear HF as [|? ? H1 H2]. cbn [forP map concat]. rewrite <- app_assoc.
    destruct (has_nth l b) as (s0 & E0); [lia|]. rewrite !bind_assoc. rewrite (aget0 _ _ _ E0). cbn [bind].
    destruct (sector_run only s s0 (concat (map (enc_sect only) ss) ++ rest) H1) as (r & E1 & S1).
    rewrite bind_assoc, runA_bind, E1. rewrite aset_one by lia. cbn [bind].
    destruct (IH (S b) (set1 l b r) rest H2) as (l' & E & L' & P1 & P2); [rewrite len_set1; lia|lia|].
    exists l'. split; [exact E|]. split; [exact L'|]. split.
    + intros j Hj. rewrite P1 by lia. apply nth_set1_neq; lia.
    + intros [|j] s' Es.
      * injection Es as <-. exists r. rewrite Nat.add_0_r. split; [|exact S1]. rewrite P1 by lia. apply nth_set1_eq. lia.
      * destruct (P2 j s' Es) as (r' & E' & S'). exists r'. split; [|exact S']. rewrite <- E'. f_equal. lia.
Qed.

(** Copying the sectors that are kept. *)
Lemma copy_run (p : list sector) : forall n b l, length l = 15%nat -> length p = 15%nat -> (b + n <= 15)%nat ->
  exists l', forP n b (fun i l => s <- aget p (Z.of_nat i) ;; aset l (Z.of_nat i) s) l = Ret l' /\ length l' = 15%nat /\
    (forall j, (j < b)%nat -> nth_error l' j = nth_error l j) /\
    (forall j, (b <= j < b + n)%nat -> nth_error l' j = nth_error p j).
Proof.
  induction n as [|n IH]; intros b l HL HP HB.
  - exists l. cbn. split; [reflexivity|]. split; [exact HL|]. split; [auto|]. intros; lia.
  - cbn [forP]. destruct (has_nth p b) as (s0 & E0); [lia|]. rewrite (aget0 _ _ _ E0). cbn [bind].
    rewrite aset_one by lia. cbn [bind].
    destruct (IH (S b) (set1 l b s0)) as (l' & E & L' & P1 & P2); [rewrite len_set1; lia|lia|lia|].
    exists l'. split; [exact E|]. split; [exact L'|]. split.
    + intros j Hj. rewrite P1 by lia. apply nth_set1_neq; lia.
    + intros j Hj. destruct (Nat.eq_dec j b) as [->|N]; [|apply P2; lia]. rewrite P1 by lia. rewrite nth_set1_eq by lia. auto.
Qed.

(** ** One exclusion *)
Definition xshape (x : exclu) : Prop := 0 <= ex_num x <= 15 /\ length (ex_sec x) = 15%nat.
Definition shape (st : enhst) : Prop :=
  length (e_close st) = 24%nat /\ length (e_exc st) = 24%nat /\ length (e_pexc st) = 24%nat /\ length (e_diff st) = 24%nat /\
  length (e_pdiff st) = 24%nat /\ length (e_div st) = 24%nat /\ length (e_pdiv st) = 24%nat /\
  Forall xshape (e_exc st) /\ Forall xshape (e_pexc st).

Definition upd_exc (st : enhst) (k : nat) (x : exclu) : enhst :=
  mkEnh (e_close st) (set1 (e_exc st) k x) (e_diff st) (e_div st) (e_pexc st) (e_pdiff st) (e_pdiv st).

Definition exc_new (only : bool) (p : exclu) (u : upd (list sect)) (new : exclu) : Prop :=
  match u with
  | New ss => ex_num new = Z.of_nat (length ss) /\
              forall j s, nth_error ss j = Some s -> exists r, nth_error (ex_sec new) j = Some r /\ shows_sector s r only
  | Keep => ex_num new = ex_num p /\
            forall j, (j < Z.to_nat (ex_num p))%nat -> nth_error (ex_sec new) j = nth_error (ex_sec p) j
  end.

Lemma Forall_set1 {A} (P : A -> Prop) l k v : (k < length l)%nat -> Forall P l -> P v -> Forall P (set1 l k v).
Proof.
  intros Hk HF Hv. unfold set1. apply Forall_app. split; [|constructor; [exact Hv|]].
  - apply Forall_forall. intros x Hx. rewrite Forall_forall in HF. apply HF. rewrite <- (firstn_skipn k l). apply in_or_app. auto.
  - apply Forall_forall. intros x Hx. rewrite Forall_forall in HF. apply HF. rewrite <- (firstn_skipn (S k) l). apply in_or_app. auto.
Qed.

Lemma exclu_run indep only k u st p rest : shape st -> (k < 24)%nat -> nth_error (e_pexc st) k = Some p ->
  legal_upd indep (legal_sects only) u ->
  exists x, runA (exclu_dec (flag indep) (flag only) (Z.of_nat k) st) (enc_upd indep (enc_sects only) u ++ rest)
      = Done (upd_exc st k x, rest) /\ exc_new only p u x /\ xshape x.
Proof.
  intros (C & E & PE & F & PF & V & PV & X & PX) Hk Ep HU. unfold exclu_dec.
  destruct (has_nth (e_exc st) k) as (c & Ec); [lia|].
  assert (Xc : xshape c) by (rewrite Forall_forall in X; apply X; eapply nth_error_In; eauto).
  assert (Xp : xshape p) by (rewrite Forall_forall in PX; apply PX; eapply nth_error_In; eauto).
  destruct Xc as (Xc1 & Xc2), Xp as (Xp1 & Xp2).
  destruct u as [|ss].
  - cbn [legal_upd] in HU. subst indep. cbn [flag negb Z.eqb enc_upd app]. rewrite rd_flag. rewrite (aget0 _ _ _ Ec). cbn [bind].
    cbn [flag negb Z.eqb]. rewrite (aget0 _ _ _ Ep). cbn [bind].
    destruct (copy_run (ex_sec p) (Z.to_nat (ex_num p)) 0 (ex_sec c)) as (l' & El & L' & _ & P2); auto; [lia|].
    rewrite El. cbn [bind]. rewrite aset_one by lia. cbn [bind].
    eexists. split; [reflexivity|]. split; [|split; [cbn; lia|exact L']]. cbn [exc_new ex_num ex_sec]. split; [reflexivity|].
    intros j Hj. apply P2. lia.
  - destruct HU as (HL & HF). unfold enc_upd. rewrite <- app_assoc.
    replace (runA _ _) with (runA (c0 <- (num <- rd 4 ;;
          secs <- forP (Z.to_nat num) 0 (fun i l =>
            s <- aget l (Z.of_nat i) ;; s <- sector_dec (flag only) s ;; aset l (Z.of_nat i) s) (ex_sec c) ;;
          Ret (mkEx num secs)) ;;
       exc <- aset (e_exc st) (Z.of_nat k) c0 ;;
       Ret (mkEnh (e_close st) exc (e_diff st) (e_div st) (e_pexc st) (e_pdiff st) (e_pdiv st))) (enc_sects only ss ++ rest)).
    2:{ destruct indep; cbn [flag negb Z.eqb app]; [|rewrite rd_flag]; cbn [bind]; rewrite (aget0 _ _ _ Ec); cbn [bind]; reflexivity. }
    unfold enc_sects. rewrite <- app_assoc. rewrite bind_assoc. rewrite rd_bits by (try (cbn; lia); lia).
    rewrite Nat2Z.id. rewrite bind_assoc.
    destruct (sectors_run only ss 0 (ex_sec c) rest HF Xc2 HL) as (l' & El & L' & _ & P2).
    rewrite runA_bind, El. cbn [bind]. rewrite aset_one by lia. cbn [bind].
    eexists. split; [reflexivity|]. split; [|split; [cbn; lia|exact L']]. cbn [exc_new ex_num ex_sec]. split; [reflexivity|exact P2].
Qed.

Lemma keep7_run indep prev k cur u old rest : length prev = 24%nat -> length cur = 24%nat -> (k < 24)%nat ->
  nth_error prev k = Some old -> legal_upd indep seven_bits u ->
  exists v, runA (keep7 (flag indep) prev (Z.of_nat k) cur) (enc_upd indep (bits_of 7) u ++ rest) = Done (set1 cur k v, rest) /\
    shows7 old u v.
Proof.
  intros HP HC Hk Eo HU. unfold keep7. destruct u as [|x].
  - cbn [legal_upd] in HU. subst indep. cbn [flag negb Z.eqb enc_upd app]. rewrite rd_flag. cbn [flag negb Z.eqb].
    rewrite (aget0 _ _ _ Eo). cbn [bind]. rewrite aset_one by lia. eexists. split; [reflexivity|]. reflexivity.
  - cbn [legal_upd] in HU. unfold seven_bits in HU. unfold enc_upd. rewrite <- app_assoc.
    exists (lit x 127). split; [|reflexivity].
    destruct indep; cbn [flag negb Z.eqb app bind]; [|rewrite rd_flag; cbn [flag negb Z.eqb]];
      rewrite bind_assoc, rd_bits by (cbn; lia); cbn [bind]; rewrite aset_one by lia; rewrite scale7 by lia; reflexivity.
Qed.

(** ** The push *)
Lemma map2_nth {A B C} (f : A -> B -> C) : forall l m j a b, nth_error l j = Some a -> nth_error m j = Some b ->
  nth_error (map2 f l m) j = Some (f a b).
Proof.
  induction l as [|x l IH]; intros [|y m] [|j] a b E1 E2; try discriminate; cbn in *.
  - congruence.
  - eauto.
Qed.
Lemma map2_len {A B C} (f : A -> B -> C) : forall l m, length l = length m -> length (map2 f l m) = length l.
Proof. induction l as [|x l IH]; intros [|y m] E; cbn in *; try discriminate; auto. Qed.

Lemma push_shape c p : xshape c -> xshape p -> xshape (push_exclu c p).
Proof. intros (A1 & A2) (B1 & B2). split; [exact A1|]. cbn [push_exclu ex_sec]. rewrite map2_len; congruence. Qed.

Definition push_body (st : enhst) (i : nat) (a : list exclu * list f32 * list f32) : prog (list exclu * list f32 * list f32) :=
  let '(pe, pf, pv) := a in
     c <- aget (e_exc st) (Z.of_nat i) ;; p <- aget pe (Z.of_nat i) ;;
     pe <- aset pe (Z.of_nat i) (push_exclu c p) ;;
     v <- aget (e_div st) (Z.of_nat i) ;; pv <- aset pv (Z.of_nat i) v ;;
     f <- aget (e_diff st) (Z.of_nat i) ;; pf <- aset pf (Z.of_nat i) f ;;
     Ret (pe, pf, pv).

(** Everything but the predefined-sector flags of [c]. *)
Definition pushed (c p' : exclu) : Prop :=
  ex_num p' = ex_num c /\ forall j s, nth_error (ex_sec c) j = Some s -> exists s', nth_error (ex_sec p') j = Some s' /\ kept_sector s s'.

Lemma push_pushed c p : xshape c -> xshape p -> pushed c (push_exclu c p).
Proof.
  intros (A1 & A2) (B1 & B2). split; [reflexivity|]. intros j s E.
  destruct (has_nth (ex_sec p) j) as (r & Er). { pose proof (nth_error_Some (ex_sec c) j) as N. rewrite E in N. assert (j < length (ex_sec c))%nat by (apply N; discriminate). lia. }
  exists (push_sector s r). split; [apply map2_nth; auto|]. unfold kept_sector, push_sector. cbn. auto.
Qed.

Lemma push_loop st : shape st -> forall n b pe pf pv, (b + n <= 24)%nat -> length pe = 24%nat -> length pf = 24%nat -> length pv = 24%nat ->
  Forall xshape pe ->
  exists pe' pf' pv', forP n b (push_body st) (pe, pf, pv) = Ret (pe', pf', pv') /\
    length pe' = 24%nat /\ length pf' = 24%nat /\ length pv' = 24%nat /\ Forall xshape pe' /\
    (forall j, (j < b)%nat -> nth_error pe' j = nth_error pe j /\ nth_error pf' j = nth_error pf j /\ nth_error pv' j = nth_error pv j) /\
    (forall j, (b <= j < b + n)%nat -> nth_error pf' j = nth_error (e_diff st) j /\ nth_error pv' j = nth_error (e_div st) j /\
       exists c p', nth_error (e_exc st) j = Some c /\ nth_error pe' j = Some p' /\ pushed c p').
Proof.
  intros (C & E & PE & F & PF & V & PV & X & PX). induction n as [|n IH]; intros b pe pf pv HB L1 L2 L3 XP.
  - exists pe, pf, pv. cbn. repeat (split; [auto; fail|]). intros; lia.
  - cbn [forP]. unfold push_body at 1.
    destruct (has_nth (e_exc st) b) as (c & Ec); [lia|]. destruct (has_nth pe b) as (p & Ep); [lia|].
    destruct (has_nth (e_div st) b) as (v & Ev); [lia|]. destruct (has_nth (e_diff st) b) as (f & Ef); [lia|].
    rewrite (aget0 _ _ _ Ec). cbn [bind]. rewrite (aget0 _ _ _ Ep). cbn [bind]. rewrite aset_one by lia. cbn [bind].
    rewrite (aget0 _ _ _ Ev). cbn [bind]. rewrite aset_one by lia. cbn [bind].
    rewrite (aget0 _ _ _ Ef). cbn [bind]. rewrite aset_one by lia. cbn [bind].
    assert (Xc : xshape c) by (rewrite Forall_forall in X; apply X; eapply nth_error_In; eauto).
    assert (Xp : xshape p) by (rewrite Forall_forall in XP; apply XP; eapply nth_error_In; eauto).
    destruct (IH (S b) (set1 pe b (push_exclu c p)) (set1 pf b f) (set1 pv b v)) as (pe' & pf' & pv' & E1 & M1 & M2 & M3 & X' & Q1 & Q2);
      try (rewrite len_set1; lia); try lia.
    { apply Forall_set1; auto; [lia|apply push_shape; auto]. }
    exists pe', pf', pv'. split; [exact E1|]. split; [exact M1|]. split; [exact M2|]. split; [exact M3|]. split; [exact X'|]. split.
    + intros j Hj. destruct (Q1 j) as (R1 & R2 & R3); [lia|]. rewrite R1, R2, R3. rewrite !nth_set1_neq by lia. auto.
    + intros j Hj. destruct (Nat.eq_dec j b) as [->|N]; [|apply Q2; lia].
      destruct (Q1 b) as (R1 & R2 & R3); [lia|]. rewrite R1, R2, R3. rewrite !nth_set1_eq by lia.
      split; [auto|]. split; [auto|]. exists c, (push_exclu c p). split; [auto|]. split; [auto|]. apply push_pushed; auto.
Qed.

(** The previous-frame tables of [s] are the current tables of [st]. *)
Definition before (n : nat) (st s : enhst) : Prop :=
  forall j, (j < n)%nat -> nth_error (e_pdiff s) j = nth_error (e_diff st) j /\ nth_error (e_pdiv s) j = nth_error (e_div st) j /\
       exists c p', nth_error (e_exc st) j = Some c /\ nth_error (e_pexc s) j = Some p' /\ pushed c p'.

Lemma push_run st n : shape st -> (n <= 24)%nat -> exists s, enh_push (Z.of_nat n) st = Ret s /\ shape s /\ before n st s /\
  e_close s = e_close st /\ e_exc s = e_exc st /\ e_diff s = e_diff st /\ e_div s = e_div st.
Proof.
  intros SH Hn. pose proof SH as (C & E & PE & F & PF & V & PV & X & PX). unfold enh_push.
  destruct (push_loop st SH n 0 (e_pexc st) (e_pdiff st) (e_pdiv st)) as (pe' & pf' & pv' & E1 & M1 & M2 & M3 & X' & _ & Q2); auto.
  rewrite Nat2Z.id. match goal with |- context [forP _ 0 ?f _] => change f with (push_body st) end. rewrite E1. cbn [bind].
  eexists. split; [reflexivity|]. split; [unfold shape; cbn; auto 12|]. split; [|cbn; auto]. intros j Hj. cbn. apply Q2. lia.
Qed.

Lemma exc_shows only c p u x : pushed c p -> xshape c -> xshape p -> exc_new only p u x -> shows_exc only c u x.
Proof.
  intros (P1 & P2) (Xc1 & Xc2) (Xp1 & Xp2). destruct u as [|ss]; cbn [exc_new shows_exc]; [|auto].
  intros (N1 & N2). split; [congruence|]. intros j Hj. destruct (has_nth (ex_sec c) j) as (s & Es); [lia|].
  destruct (P2 j s Es) as (s' & Es' & K). exists s, s'. split; [exact Es|]. split; [|exact K]. rewrite N2 by (rewrite P1; lia). exact Es'.
Qed.

(** ** One object *)
Definition obj_body (c : enhc) (indep : Z) (i : nat) (st : enhst) : prog enhst :=
    cl <- rd 1 ;;
    close <- aset (e_close st) (Z.of_nat i) cl ;;
    hd <- aget (en_div c) (Z.of_nat i) ;;
    dv <- (if hd =? 1 then keep7 indep (e_pdiv st) (Z.of_nat i) (e_div st) else Ret (e_div st)) ;;
    df <- (if negb (en_diff c =? 0) && (en_cdiff c =? 0)
           then keep7 indep (e_pdiff st) (Z.of_nat i) (e_diff st) else Ret (e_diff st)) ;;
    let st := mkEnh close (e_exc st) df dv (e_pexc st) (e_pdiff st) (e_pdiv st) in
    if en_cexc c =? 0 then
      only <- aget (en_pre c) (Z.of_nat i) ;; exclu_dec indep only (Z.of_nat i) st
    else Ret st.

(** What the tables [s] say about object [i], given the tables [st] before the frame. *)
Definition obj_shows (k : ecfg) (st : enhst) (i : nat) (x : eobj) (s : enhst) : Prop :=
  nth_error (e_close s) i = Some (x_close x) /\
  (k_div k i = true -> exists old new, nth_error (e_div st) i = Some old /\ nth_error (e_div s) i = Some new /\ shows7 old (x_div x) new) /\
  (k_diff k = true -> k_cdiff k = false ->
     exists old new, nth_error (e_diff st) i = Some old /\ nth_error (e_diff s) i = Some new /\ shows7 old (x_diff x) new) /\
  (k_cexc k = false ->
     exists old new, nth_error (e_exc st) i = Some old /\ nth_error (e_exc s) i = Some new /\ shows_exc (k_only k i) old (x_exc x) new).

Definition same_at (s s' : enhst) (j : nat) : Prop :=
  nth_error (e_close s') j = nth_error (e_close s) j /\ nth_error (e_div s') j = nth_error (e_div s) j /\
  nth_error (e_diff s') j = nth_error (e_diff s) j /\ nth_error (e_exc s') j = nth_error (e_exc s) j.
Definition same_prev (s s' : enhst) : Prop :=
  e_pexc s' = e_pexc s /\ e_pdiff s' = e_pdiff s /\ e_pdiv s' = e_pdiv s.

(** The group's own entries (object 0), when they are common, are not touched by the objects. *)
Definition group_same (k : ecfg) (s s' : enhst) : Prop :=
  (k_cexc k = true -> e_exc s' = e_exc s) /\ (k_cdiff k = true -> e_diff s' = e_diff s).

Lemma flag1 b : (flag b =? 1) = b. Proof. destruct b; reflexivity. Qed.
Lemma flag0 b : (flag b =? 0) = negb b. Proof. destruct b; reflexivity. Qed.

Lemma opt7 (on : bool) indep prev k cur u old rest : length prev = 24%nat -> length cur = 24%nat -> (k < 24)%nat ->
  nth_error prev k = Some old -> legal_upd indep seven_bits u ->
  exists l, runA (if on then keep7 (flag indep) prev (Z.of_nat k) cur else Ret cur) ((if on then enc_upd indep (bits_of 7) u else []) ++ rest)
     = Done (l, rest) /\ length l = 24%nat /\ (forall j, j <> k -> nth_error l j = nth_error cur j) /\
    (on = true -> exists v, nth_error l k = Some v /\ shows7 old u v) /\ (on = false -> l = cur).
Proof.
  intros HP HC Hk Eo HU. destruct on.
  - destruct (keep7_run indep prev k cur u old rest) as (v & E & S7); auto. exists (set1 cur k v). split; [exact E|].
    split; [rewrite len_set1; lia|]. split; [intros; apply nth_set1_neq; lia|]. split; [|discriminate]. intros _.
    exists v. split; [apply nth_set1_eq; lia|exact S7].
  - exists cur. split; [reflexivity|]. split; [exact HC|]. split; [auto|]. split; [discriminate|auto].
Qed.

Lemma obj_run c k indep i x st s n rest : cfg_is c k -> shape s -> shape st -> before n st s -> (i < n <= 24)%nat -> legal_eobj k indep i x ->
  exists s', runA (obj_body c (flag indep) i s) (enc_eobj k indep i x ++ rest) = Done (s', rest) /\ shape s' /\
    obj_shows k st i x s' /\ (forall j, j <> i -> same_at s s' j) /\ same_prev s s' /\ group_same k s s'.
Proof.
  intros (K1 & K2 & K3 & K4 & K5) SH SH0 HB Hi (L1 & L2 & L3 & L4).
  pose proof SH as (C & E & PE & F & PF & V & PV & X & PX). pose proof SH0 as (C0 & E0 & PE0 & F0 & PF0 & V0 & PV0 & X0 & PX0).
  destruct (HB i) as (B1 & B2 & c0 & p0 & B3 & B4 & B5); [lia|].
  destruct (has_nth (e_diff st) i) as (df0 & G1); [lia|]. destruct (has_nth (e_div st) i) as (dv0 & G2); [lia|].
  assert (Xc : xshape c0) by (rewrite Forall_forall in X0; apply X0; eapply nth_error_In; eauto).
  assert (Xp : xshape p0) by (rewrite Forall_forall in PX; apply PX; eapply nth_error_In; eauto).
  unfold obj_body, enc_eobj. rewrite <- !app_assoc. rewrite rd_bits by (cbn; lia). rewrite aset_one by lia. cbn [bind].
  rewrite (aget0 _ _ _ (K4 i ltac:(lia))). cbn [bind]. rewrite flag1, K1, K2, K3, !flag0, Bool.negb_involutive.
  destruct (opt7 (k_div k i) indep (e_pdiv s) i (e_div s) (x_div x) dv0 
    ((if k_diff k && negb (k_cdiff k) then enc_upd indep (bits_of 7) (x_diff x) else []) ++
     (if k_cexc k then [] else enc_upd indep (enc_sects (k_only k i)) (x_exc x)) ++ rest)) as (dv & D1 & D2 & D3 & D4 & D4'); auto; [lia|congruence|].
  rewrite runA_bind, D1.
  destruct (opt7 (k_diff k && negb (k_cdiff k)) indep (e_pdiff s) i (e_diff s) (x_diff x) df0 
     ((if k_cexc k then [] else enc_upd indep (enc_sects (k_only k i)) (x_exc x)) ++ rest)) as (df & D5 & D6 & D7 & D8 & D8'); auto; [lia|congruence|].
  rewrite runA_bind, D5. cbv zeta. rewrite Bool.negb_involutive || idtac.
  set (s1 := mkEnh (set1 (e_close s) i (x_close x)) (e_exc s) df dv (e_pexc s) (e_pdiff s) (e_pdiv s)).
  assert (SH1 : shape s1). { unfold shape, s1. cbn. rewrite len_set1 by lia. auto 12. }
  assert (S1 : forall j, j <> i -> same_at s s1 j).
  { intros j Hj. unfold same_at, s1. cbn. split; [apply nth_set1_neq; lia|]. auto. }
  assert (HCl : nth_error (e_close s1) i = Some (x_close x)) by (apply nth_set1_eq; lia).
  assert (HDv : k_div k i = true -> exists old new, nth_error (e_div st) i = Some old /\ nth_error dv i = Some new /\ shows7 old (x_div x) new).
  { intros Hd. destruct (D4 Hd) as (v & Ev & Sv). exists dv0, v. auto. }
  assert (HDf : k_diff k = true -> k_cdiff k = false ->
     exists old new, nth_error (e_diff st) i = Some old /\ nth_error df i = Some new /\ shows7 old (x_diff x) new).
  { intros H1 H2. destruct D8 as (v & Ev & Sv); [rewrite H1, H2; reflexivity|]. exists df0, v. auto. }
  assert (HGd : k_cdiff k = true -> df = e_diff s).
  { intros H. apply D8'. rewrite H. apply Bool.andb_false_r. }
  destruct (k_cexc k) eqn:Ke; cbn [negb].
  - exists s1. split; [reflexivity|]. split; [exact SH1|]. split; [|split; [exact S1|split; [unfold same_prev, s1; cbn; auto|]]].
    + unfold obj_shows. rewrite Ke. split; [exact HCl|]. split; [exact HDv|]. split; [exact HDf|]. discriminate.
    + split; [intros _; reflexivity|exact HGd].
  - rewrite (aget0 _ _ _ (K5 i ltac:(lia))). cbn [bind].
    destruct (exclu_run indep (k_only k i) i (x_exc x) s1 p0 rest) as (xx & E1 & E2 & E3); auto; [lia|].
    rewrite E1. exists (upd_exc s1 i xx). split; [reflexivity|]. split; [|split; [|split; [|split; [unfold same_prev; cbn; auto|]]]].
    + unfold shape, upd_exc, s1. cbn. rewrite !len_set1 by lia. repeat (split; [assumption|]). split; [|assumption].
      apply Forall_set1; auto. lia.
    + unfold obj_shows. rewrite Ke. split; [exact HCl|]. split; [exact HDv|]. split; [exact HDf|]. intros _.
      exists c0, xx. split; [exact B3|]. split; [apply nth_set1_eq; unfold s1; cbn; lia|]. eapply exc_shows; eauto.
    + intros j Hj. destruct (S1 j Hj) as (T1 & T2 & T3 & T4). unfold same_at, upd_exc. cbn.
      split; [exact T1|]. split; [exact T2|]. split; [exact T3|]. rewrite nth_set1_neq by lia. reflexivity.
    + split; [congruence|exact HGd].
Qed.

Lemma before_prev n st s s' : same_prev s s' -> before n st s -> before n st s'.
Proof. intros (P1 & P2 & P3) H j Hj. rewrite P1, P2, P3. apply H, Hj. Qed.

Lemma shows_same k st i x s s' : same_at s s' i -> obj_shows k st i x s -> obj_shows k st i x s'.
Proof. intros (S1 & S2 & S3 & S4). unfold obj_shows. rewrite S1, S2, S3, S4. auto. Qed.

Fixpoint legal_objs (k : ecfg) (indep : bool) (i : nat) (xs : list eobj) : Prop :=
  match xs with [] => True | x :: xs => legal_eobj k indep i x /\ legal_objs k indep (S i) xs end.

Lemma objs_run c k indep st n rest : cfg_is c k -> shape st -> (n <= 24)%nat ->
  forall xs b s, shape s -> before n st s -> (b + length xs <= n)%nat -> legal_objs k indep b xs ->
  exists s', runA (forP (length xs) b (obj_body c (flag indep)) s) (enc_eobjs k indep b xs ++ rest) = Done (s', rest) /\
    (forall j, (j < b)%nat -> same_at s s' j) /\ group_same k s s' /\
    (forall j x, nth_error xs j = Some x -> obj_shows k st (b + j) x s').
Proof.
  intros HC SH0 Hn. induction xs as [|x xs IH]; intros b s SH HB Hb HL; cbn [length enc_eobjs legal_objs forP] in *.
  - exists s. split; [reflexivity|]. split; [intros; unfold same_at; auto|]. split; [split; auto|]. intros [|j] x E; discriminate.
  - destruct HL as (L1 & L2). rewrite <- app_assoc.
    destruct (obj_run c k indep b x st s n (enc_eobjs k indep (S b) xs ++ rest)) as (s1 & E1 & SH1 & O1 & A1 & P1 & G1); auto; [lia|].
    rewrite runA_bind, E1.
    destruct (IH (S b) s1) as (s' & E2 & A2 & G2 & O2); auto; [eapply before_prev; eauto|lia|].
    exists s'. split; [exact E2|]. split; [|split].
    + intros j Hj. destruct (A2 j) as (T1 & T2 & T3 & T4); [lia|]. destruct (A1 j) as (U1 & U2 & U3 & U4); [lia|].
      unfold same_at. rewrite T1, T2, T3, T4. auto.
    + destruct G1 as (G11 & G12), G2 as (G21 & G22). split; intros H; [rewrite G21, G11; auto|rewrite G22, G12; auto].
    + intros [|j] y Ey.
      * injection Ey as <-. rewrite Nat.add_0_r. eapply shows_same; [apply A2; lia|exact O1].
      * replace (b + S j)%nat with (S b + j)%nat by lia. apply O2, Ey.
Qed.

(** ** The frame *)
Lemma enh_read c k indep gx gd xs st rest :
  cfg_is c k -> shape st -> (0 < length xs <= 24)%nat ->
  legal_upd indep (legal_sects (k_only k 0)) gx -> legal_upd indep seven_bits gd -> legal_objs k indep 0 xs ->
  exists st', runA (enh_frame c (Z.of_nat (length xs)) (flag indep) st) (enc_enh k indep gx gd xs ++ rest) = Done (st', rest) /\
    (forall j x, nth_error xs j = Some x -> obj_shows k st j x st') /\
    (k_cexc k = true -> exists old new, nth_error (e_exc st) 0 = Some old /\ nth_error (e_exc st') 0 = Some new /\
       shows_exc (k_only k 0) old gx new) /\
    (k_diff k = true -> k_cdiff k = true -> exists old new, nth_error (e_diff st) 0 = Some old /\ nth_error (e_diff st') 0 = Some new /\
       shows7 old gd new).
Proof.
  intros HC SH Hn Lx Ld Lo. pose proof HC as (K1 & K2 & K3 & K4 & K5). unfold enh_frame, enc_enh. rewrite <- !app_assoc.
  destruct (push_run st (length xs) SH) as (s & -> & SHs & HB & R1 & R2 & R3 & R4); [lia|]. cbn [bind].
  pose proof SH as (C0 & E0 & PE0 & F0 & PF0 & V0 & PV0 & X0 & PX0).
  pose proof SHs as (C & E & PE & F & PF & V & PV & X & PX).
  destruct (HB 0%nat) as (B1 & B2 & c0 & p0 & B3 & B4 & B5); [lia|].
  assert (Xc : xshape c0) by (rewrite Forall_forall in X0; apply X0; eapply nth_error_In; eauto).
  assert (Xp : xshape p0) by (rewrite Forall_forall in PX; apply PX; eapply nth_error_In; eauto).
  destruct (has_nth (e_diff st) 0) as (df0 & G1); [lia|].
  rewrite K1, K2, K3, !flag0, !Bool.negb_involutive.
  set (r2 := (if k_diff k && k_cdiff k then enc_upd indep (bits_of 7) gd else []) ++ enc_eobjs k indep 0 xs ++ rest).
  assert (S1 : exists s1, runA (if k_cexc k then only <- aget (en_pre c) 0 ;; exclu_dec (flag indep) only 0 s else Ret s)
     ((if k_cexc k then enc_upd indep (enc_sects (k_only k 0)) gx else []) ++ r2) = Done (s1, r2) /\ shape s1 /\ same_prev s s1 /\
     e_diff s1 = e_diff s /\
     (k_cexc k = true -> exists old new, nth_error (e_exc st) 0 = Some old /\ nth_error (e_exc s1) 0 = Some new /\ shows_exc (k_only k 0) old gx new)).
  { destruct (k_cexc k).
    - change 0 with (Z.of_nat 0) at 1 2. rewrite (aget0 _ _ _ (K5 0%nat ltac:(lia))). cbn [bind].
      destruct (exclu_run indep (k_only k 0) 0 gx s p0 r2) as (xx & E1 & E2 & E3); auto; [lia|].
      rewrite E1. exists (upd_exc s 0 xx). split; [reflexivity|]. split.
      { unfold shape, upd_exc. cbn [e_close e_exc e_diff e_div e_pexc e_pdiff e_pdiv]. rewrite !len_set1 by lia.
        repeat (split; [assumption|]). split; [|assumption]. apply Forall_set1; auto. lia. }
      split; [unfold same_prev; cbn; auto|]. split; [reflexivity|]. intros _. exists c0, xx. split; [exact B3|].
      split; [apply nth_set1_eq; lia|]. eapply exc_shows; eauto.
    - exists s. split; [reflexivity|]. split; [exact SHs|]. split; [unfold same_prev; auto|]. split; [reflexivity|discriminate]. }
  destruct S1 as (s1 & E1 & SH1 & SP1 & SD1 & X1). rewrite runA_bind, E1. unfold r2.
  pose proof SH1 as (C' & E' & PE' & F' & PF' & V' & PV' & X' & PX'). pose proof SP1 as (SP11 & SP12 & SP13).
  set (r3 := enc_eobjs k indep 0 xs ++ rest).
  assert (S2 : exists s2, runA (if k_diff k && k_cdiff k then
           d <- keep7 (flag indep) (e_pdiff s1) 0 (e_diff s1) ;;
           Ret (mkEnh (e_close s1) (e_exc s1) d (e_div s1) (e_pexc s1) (e_pdiff s1) (e_pdiv s1))
         else Ret s1) ((if k_diff k && k_cdiff k then enc_upd indep (bits_of 7) gd else []) ++ r3) = Done (s2, r3) /\ shape s2 /\ same_prev s1 s2 /\
     e_exc s2 = e_exc s1 /\
     (k_diff k = true -> k_cdiff k = true -> exists old new, nth_error (e_diff st) 0 = Some old /\ nth_error (e_diff s2) 0 = Some new /\ shows7 old gd new)).
  { destruct (k_diff k && k_cdiff k) eqn:EK.
    - change 0 with (Z.of_nat 0) at 1. destruct (keep7_run indep (e_pdiff s1) 0 (e_diff s1) gd df0 r3) as (v & E2 & S7); auto; [lia|congruence|].
      rewrite runA_bind, E2. cbn [runA]. eexists. split; [reflexivity|]. split.
      { unfold shape. cbn [e_close e_exc e_diff e_div e_pexc e_pdiff e_pdiv]. rewrite !len_set1 by lia. auto 12. }
      split; [unfold same_prev; cbn; auto|]. split; [reflexivity|]. intros _ _. exists df0, v. split; [exact G1|].
      split; [apply nth_set1_eq; lia|exact S7].
    - exists s1. split; [reflexivity|]. split; [exact SH1|]. split; [unfold same_prev; auto|]. split; [reflexivity|].
      intros Hk1 Hk2. rewrite Hk1, Hk2 in EK. discriminate. }
  destruct S2 as (s2 & E2 & SH2 & SP2 & SE2 & X2). rewrite runA_bind, E2. unfold r3. rewrite Nat2Z.id.
  match goal with |- context [forP _ 0 ?f _] => change f with (fun i st => 
     obj_body (mkEn (en_diff c) (en_cdiff c) (en_exc c) (en_cexc c) (en_close c) (en_thr c) (en_div c) (en_az c) (en_pre c) (en_ndiv c)) (flag indep) i st) || idtac end.
  destruct (objs_run c k indep st (length xs) rest HC SH ltac:(lia) xs 0 s2 SH2) as (s' & E3 & _ & (G3 & G4) & O3); auto.
  { eapply before_prev; [exact SP2|]. eapply before_prev; [exact SP1|]. exact HB. }
  match goal with |- context [runA ?p _] => replace p with (forP (length xs) 0 (obj_body c (flag indep)) s2) end.
  2:{ unfold obj_body. rewrite K1, K2, K3, !flag0. rewrite ?Bool.negb_involutive. reflexivity. }
  exists s'. split; [exact E3|]. split; [exact O3|]. split.
  - intros Hx. destruct (X1 Hx) as (old & new & T1 & T2 & T3). exists old, new. split; [exact T1|]. split; [|exact T3].
    rewrite (G3 Hx), SE2. exact T2.
  - intros Hd1 Hd2. destruct (X2 Hd1 Hd2) as (old & new & T1 & T2 & T3). exists old, new. split; [exact T1|]. split; [|exact T3].
    rewrite (G4 Hd2). exact T2.
Qed.
