(** * Lem_OamEnh: enhanced object metadata frames *)

From Coq Require Import ZArith List Lia Bool SpecFloat.
From Verif Require Import Bits BitBuf Prog Wp Loops Leaf Frame Config Lem_Dmx F32 Oam Spec_Oam Lem_OamRT Lem_OamRT2 Lem_OamFrame
  Lem_MhasProps.
Import ListNotations.
Open Scope Z_scope.
Open Scope prog_scope.

Definition sec_ok (s : sector) : Prop :=
  between (lit (-180) 1) (lit 180 1) (sc_minaz s) /\ between (lit (-180) 1) (lit 180 1) (sc_maxaz s) /\
  between (lit (-90) 1) (lit 90 1) (sc_minel s) /\ between (lit (-90) 1) (lit 90 1) (sc_maxel s).
Definition ex_ok (x : exclu) : Prop := 0 <= ex_num x <= 15 /\ length (ex_sec x) = 15%nat /\ Forall sec_ok (ex_sec x).
Definition unit_ok (v : f32) : Prop := between (lit 0 1) (lit 1 1) v.
Definition enh_ok (st : enhst) : Prop :=
  length (e_close st) = 24%nat /\
  (length (e_exc st) = 24%nat /\ Forall ex_ok (e_exc st)) /\ (length (e_pexc st) = 24%nat /\ Forall ex_ok (e_pexc st)) /\
  (length (e_diff st) = 24%nat /\ Forall unit_ok (e_diff st)) /\ (length (e_pdiff st) = 24%nat /\ Forall unit_ok (e_pdiff st)) /\
  (length (e_div st) = 24%nat /\ Forall unit_ok (e_div st)) /\ (length (e_pdiv st) = 24%nat /\ Forall unit_ok (e_pdiv st)).

Definition T {A} (n : nat) (P : A -> Prop) (l : list A) : Prop := length l = n /\ Forall P l.

Lemma wp_tget {A} n (P : A -> Prop) l i (Q : A -> Prop) :
  T n P l -> 0 <= i < Z.of_nat n -> (forall v, P v -> Q v) -> wp (aget l i) Q.
Proof.
  intros (L & F) Hi HQ. unfold aget. replace (0 <=? i) with true by (symmetry; apply Z.leb_le; lia).
  destruct (nth_error l (Z.to_nat i)) as [v|] eqn:E.
  - apply wp_ret, HQ. apply nth_error_In in E. rewrite Forall_forall in F. auto.
  - apply nth_error_None in E. lia.
Qed.

Lemma wp_tset {A} n (P : A -> Prop) l i v (Q : list A -> Prop) :
  T n P l -> 0 <= i < Z.of_nat n -> P v -> (forall l', T n P l' -> Q l') -> wp (aset l i v) Q.
Proof.
  intros (L & F) Hi Hv HQ. apply wp_aset; [lia|]. apply HQ. split; [rewrite aset_length; lia|].
  apply Forall_aset; auto.
Qed.

Lemma map2_ok l m : length l = 15%nat -> length m = 15%nat -> Forall sec_ok l -> 
  length (map2 push_sector l m) = 15%nat /\ Forall sec_ok (map2 push_sector l m).
Proof.
  assert (G : forall n l m, length l = n -> length m = n -> Forall sec_ok l ->
    length (map2 push_sector l m) = n /\ Forall sec_ok (map2 push_sector l m)).
  { induction n as [|n IH]; intros [|a l0] [|b m0] H1 H2 HF; try discriminate; [cbn; auto|].
    inversion HF as [|? ? H3 H4]; subst. injection H1 as H1. injection H2 as H2.
    destruct (IH l0 m0 H1 H2 H4) as (L1 & F1). cbn [map2 length]. split; [lia|]. constructor; [exact H3|exact F1]. }
  apply G.
Qed.

Lemma push_ok c p : ex_ok c -> ex_ok p -> ex_ok (push_exclu c p).
Proof.
  intros (A1 & A2 & A3) (B1 & B2 & B3). destruct (map2_ok _ _ A2 B2 A3) as (L & F).
  unfold ex_ok, push_exclu. cbn [ex_num ex_sec]. auto.
Qed.

Lemma wp_push n st (Q : enhst -> Prop) : 0 <= n <= 24 -> enh_ok st -> (forall st', enh_ok st' -> Q st') -> wp (enh_push n st) Q.
Proof.
  intros Hn (C & E & PE & F & PF & V & PV) HQ. unfold enh_push. apply wp_bindi.
  apply (wp_for (fun _ '(pe, pf, pv) => T 24 ex_ok pe /\ T 24 unit_ok pf /\ T 24 unit_ok pv)).
  - auto.
  - intros i [[pe pf] pv] Hi (H1 & H2 & H3).
    apply wp_bindi, (wp_tget 24 ex_ok); auto; [lia|]. intros c Hc.
    apply wp_bindi, (wp_tget 24 ex_ok); auto; [lia|]. intros p Hp.
    apply wp_bindi, (wp_tset 24 ex_ok); auto; [lia|apply push_ok; auto|]. intros pe' H1'.
    apply wp_bindi, (wp_tget 24 unit_ok); auto; [lia|]. intros v Hv.
    apply wp_bindi, (wp_tset 24 unit_ok); auto; [lia|]. intros pv' H3'.
    apply wp_bindi, (wp_tget 24 unit_ok); auto; [lia|]. intros f Hf.
    apply wp_bindi, (wp_tset 24 unit_ok); auto; [lia|]. intros pf' H2'.
    apply wp_ret; auto.
  - intros [[pe pf] pv] (H1 & H2 & H3). apply wp_ret, HQ. unfold enh_ok. cbn [e_close e_exc e_pexc e_diff e_pdiff e_div e_pdiv].
    unfold T in *. auto 10.
Qed.

Lemma az_ok v : between (lit (-180) 1) (lit 180 1) (ang_az v).
Proof. apply clamp_between; reflexivity. Qed.
Lemma el_ok v : between (lit (-90) 1) (lit 90 1) (ang_el v).
Proof. apply clamp_between; reflexivity. Qed.

Lemma wp_sector only s (Q : sector -> Prop) : sec_ok s -> (forall s', sec_ok s' -> Q s') -> wp (sector_dec only s) Q.
Proof.
  intros (A1 & A2 & A3 & A4) HQ. unfold sector_dec. destruct (only =? 1).
  - apply wp_bindi, wp_rd; [lia|]. intros i _. apply wp_ret, HQ. unfold sec_ok. auto.
  - apply wp_bindi, wp_rd; [lia|]. intros p _. destruct (negb (p =? 1)).
    + do 4 (apply wp_bindi, wp_rd; [lia|]; intros ? _). apply wp_ret, HQ.
      split; [apply az_ok|]. split; [apply az_ok|]. split; apply el_ok.
    + apply wp_bindi, wp_rd; [lia|]. intros i _. apply wp_ret, HQ. unfold sec_ok. auto.
Qed.

Lemma wp_exclu indep only obj st (Q : enhst -> Prop) : 0 <= obj < 24 -> enh_ok st -> (forall st', enh_ok st' -> Q st') ->
  wp (exclu_dec indep only obj st) Q.
Proof.
  intros Ho (C & E & PE & F & PF & V & PV) HQ. unfold exclu_dec. apply wp_bindi.
  apply (wp_mono _ (fun _ => True)).
  2:{ destruct (negb (indep =? 0)); [apply wp_ret; exact I|]. apply wp_rd0 || (apply wp_rd; [lia|]; auto). }
  intros keep _. apply wp_bindi, (wp_tget 24 ex_ok); auto. intros c (C1 & C2 & C3). apply wp_bindi.
  apply (wp_mono _ ex_ok).
  - intros c' Hc'. apply wp_bindi, (wp_tset 24 ex_ok); auto. intros exc Hx. apply wp_ret, HQ.
    unfold enh_ok. cbn [e_close e_exc e_pexc e_diff e_pdiff e_div e_pdiv]. unfold T in *. auto 10.
  - destruct (negb (keep =? 0)).
    + apply wp_bindi, (wp_tget 24 ex_ok); auto. intros p (P1 & P2 & P3). apply wp_bindi.
      apply (wp_for (fun _ => T 15 sec_ok)).
      * split; auto.
      * intros i l Hi Hl. apply wp_bindi, (wp_tget 15 sec_ok); [split; auto|lia|]. intros s Hs.
        apply (wp_tset 15 sec_ok); auto. lia.
      * intros l (L1 & L2). apply wp_ret. unfold ex_ok. auto.
    + apply wp_bindi, wp_rd; [lia|]. intros num Hnum. change (2 ^ 4) with 16 in Hnum. apply wp_bindi.
      apply (wp_for (fun _ => T 15 sec_ok)).
      * split; auto.
      * intros i l Hi Hl. apply wp_bindi, (wp_tget 15 sec_ok); auto; [lia|]. intros s Hs.
        apply wp_bindi, wp_sector; auto. intros s' Hs'. apply (wp_tset 15 sec_ok); auto. lia.
      * intros l (L1 & L2). apply wp_ret. unfold ex_ok. cbn [ex_num ex_sec]. split; [lia|auto].
Qed.

Definition betweenb (lo hi x : f32) : bool := f_le lo x && f_le x hi.
Lemma seven v : 0 <= v < 128 -> unit_ok (f_div (of_int v) (lit 127 1)).
Proof.
  intros H. pose proof (range_check (fun v => betweenb (lit 0 1) (lit 1 1) (f_div (of_int v) (lit 127 1))) 0 128
    ltac:(vm_compute; reflexivity) v H) as X. cbv beta in X. unfold betweenb in X. apply andb_prop in X. exact X.
Qed.

Lemma wp_keep7 indep prev obj cur (Q : list f32 -> Prop) : 0 <= obj < 24 -> T 24 unit_ok prev -> T 24 unit_ok cur ->
  (forall l, T 24 unit_ok l -> Q l) -> wp (keep7 indep prev obj cur) Q.
Proof.
  intros Ho HP HC HQ. unfold keep7. apply wp_bindi. apply (wp_mono _ (fun _ => True)).
  2:{ destruct (negb (indep =? 0)); [apply wp_ret; exact I|]. apply wp_rd; [lia|]; auto. }
  intros keep _. apply wp_bindi. apply (wp_mono _ unit_ok).
  - intros v Hv. apply (wp_tset 24 unit_ok); auto.
  - destruct (negb (keep =? 0)); [apply (wp_tget 24 unit_ok); auto|].
    apply wp_bindi, wp_rd; [lia|]. intros v Hv. apply wp_ret. apply seven. exact Hv.
Qed.

Lemma wp_enh c n indep st (Q : enhst -> Prop) : 0 <= n <= 24 -> length (en_div c) = 24%nat -> length (en_pre c) = 24%nat ->
  enh_ok st -> (forall st', enh_ok st' -> Q st') -> wp (enh_frame c n indep st) Q.
Proof.
  intros Hn HD HP HS HQ. unfold enh_frame. apply wp_bindi, wp_push; auto. intros st1 H1.
  apply wp_bindi. apply (wp_mono _ enh_ok).
  2:{ destruct (negb (en_cexc c =? 0)); [|apply wp_ret; auto].
      apply wp_bindi, (wp_tget 24 (fun _ => True)); [split; [exact HP|apply Forall_forall; auto]|lia|]. intros only _.
      apply wp_exclu; auto. lia. }
  intros st2 H2. apply wp_bindi. apply (wp_mono _ enh_ok).
  2:{ destruct (negb (en_diff c =? 0) && negb (en_cdiff c =? 0)); [|apply wp_ret; auto].
      destruct H2 as (C & E & PE & F & PF & V & PV).
      apply wp_bindi, wp_keep7; auto; [lia|]. intros d Hd. apply wp_ret. unfold enh_ok.
      cbn [e_close e_exc e_pexc e_diff e_pdiff e_div e_pdiv]. unfold T in *. auto 10. }
  intros st3 H3. apply (wp_for (fun _ => enh_ok)); auto.
  intros i s Hi (C & E & PE & F & PF & V & PV).
  apply wp_bindi, wp_rd; [lia|]. intros cl _.
  apply wp_bindi, (wp_tset 24 (fun _ => True)); [split; [exact C|apply Forall_forall; auto]|lia|auto|]. intros close (HC & _).
  apply wp_bindi, (wp_tget 24 (fun _ => True)); [split; [exact HD|apply Forall_forall; auto]|lia|]. intros hd _.
  apply wp_bindi. apply (wp_mono _ (T 24 unit_ok)).
  2:{ destruct (hd =? 1); [|apply wp_ret; auto]. apply wp_keep7; auto. lia. }
  intros dv Hdv. apply wp_bindi. apply (wp_mono _ (T 24 unit_ok)).
  2:{ destruct (negb (en_diff c =? 0) && (en_cdiff c =? 0)); [|apply wp_ret; auto]. apply wp_keep7; auto. lia. }
  intros df Hdf. cbv zeta.
  assert (OK : enh_ok (mkEnh close (e_exc s) df dv (e_pexc s) (e_pdiff s) (e_pdiv s))).
  { unfold enh_ok. cbn [e_close e_exc e_pexc e_diff e_pdiff e_div e_pdiv]. unfold T in *. auto 10. }
  destruct (en_cexc c =? 0); [|apply wp_ret; auto].
  apply wp_bindi, (wp_tget 24 (fun _ => True)); [split; [exact HP|apply Forall_forall; auto]|lia|]. intros only _.
  apply wp_exclu; auto. lia.
Qed.

Definition zero_sec : sector := let z := S754_zero false in mkSec 0 0 z z z z.
Definition zero_enh : enhst :=
  let x := repeat (mkEx 0 (repeat zero_sec 15)) 24 in let z := repeat (S754_zero false) 24 in
  mkEnh (repeat 0 24) x z z x z z.

Lemma Forall_repeat {A} (P : A -> Prop) x n : P x -> Forall P (repeat x n).
Proof. intros H. apply Forall_forall. intros y Hy. apply repeat_spec in Hy. subst. exact H. Qed.

Lemma zero_enh_ok : enh_ok zero_enh.
Proof.
  assert (U : unit_ok (S754_zero false)) by (split; reflexivity).
  assert (X : ex_ok (mkEx 0 (repeat zero_sec 15))).
  { split; [cbn; lia|]. split; [reflexivity|]. apply Forall_repeat. split; [split; reflexivity|].
    split; [split; reflexivity|]. split; split; reflexivity. }
  split; [reflexivity|]. split; [split; [reflexivity|apply Forall_repeat; exact X]|].
  split; [split; [reflexivity|apply Forall_repeat; exact X]|].
  split; [split; [reflexivity|apply Forall_repeat; exact U]|]. split; [split; [reflexivity|apply Forall_repeat; exact U]|].
  split; [split; [reflexivity|apply Forall_repeat; exact U]|]. split; [reflexivity|apply Forall_repeat; exact U].
Qed.

(** Histories of frames. *)
Fixpoint enh_history (c : enhc) (n : Z) (st : enhst) (ds : list (Z * list Z)) : outcome enhst :=
  match ds with
  | [] => Done st
  | (indep, d) :: ds =>
    match exec (enh_frame c n indep st) (fresh d) with
    | Done (st', _) => enh_history c n st' ds
    | Jmp e => Jmp e
    | UB r => UB r
    end
  end.

Lemma enh_history_ok c n : 0 <= n <= 24 -> length (en_div c) = 24%nat -> length (en_pre c) = 24%nat ->
  forall ds st, Forall (fun d => are_bytes (snd d)) ds -> enh_ok st ->
  match enh_history c n st ds with Done st' => enh_ok st' | Jmp _ => True | UB _ => False end.
Proof.
  intros Hn HD HP. induction ds as [|[indep d] ds IH]; intros st HF HS; cbn [enh_history]; auto.
  inversion_clear HF as [|? ? H1 H2].
  pose proof (wp_exec _ enh_ok (fresh d) (wp_enh c n indep st enh_ok Hn HD HP HS (fun _ H => H)) (wf_fresh d H1)) as W.
  destruct (exec (enh_frame c n indep st) (fresh d)) as [[st' s']|j|r]; auto. apply IH; tauto.
Qed.

(** Keeping the exclusion of the group: everything but the predefined-sector flags is that
    of the previous frame. *)
Definition kept_sector (s s' : sector) : Prop :=
  sc_idx s' = sc_idx s /\ sc_minaz s' = sc_minaz s /\ sc_maxaz s' = sc_maxaz s /\ sc_minel s' = sc_minel s /\ sc_maxel s' = sc_maxel s.
