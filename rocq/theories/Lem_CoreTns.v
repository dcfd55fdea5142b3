(** * Lem_CoreTns: TNS data is read as sent *)

From Coq Require Import ZArith List Lia Bool.
From Verif Require Import Bits BitBuf Prog Wp Loops Config CoreIcs Spec_CoreIcs Lem_Asi Spec_Asi Lem_AsiRT Lem_MctBand Lem_CoreIcs.
Import ListNotations.
Open Scope list_scope.
Open Scope Z_scope.

Lemma one_flag b : [b] = Spec_Asi.flag b.
Proof. destruct b; reflexivity. Qed.

(** ** Coefficients *)
Lemma coef_value n c : (n = 2 \/ n = 3 \/ n = 4)%nat ->
  - 2 ^ (Z.of_nat n - 1) <= c < 2 ^ (Z.of_nat n - 1) ->
  let t := c mod 2 ^ Z.of_nat n in
  (if Z.land t (nth n sgn_mask 0) =? 0 then t else Z.lor t (nth n neg_mask 0)) = c.
Proof.
  intros [-> | [-> | ->]] H; cbn in H.
  - assert (c = -2 \/ c = -1 \/ c = 0 \/ c = 1) as D by lia. repeat (destruct D as [-> | D]; [reflexivity|]). subst; reflexivity.
  - assert (c = -4 \/ c = -3 \/ c = -2 \/ c = -1 \/ c = 0 \/ c = 1 \/ c = 2 \/ c = 3) as D by lia.
    repeat (destruct D as [-> | D]; [reflexivity|]). subst; reflexivity.
  - assert (c = -8 \/ c = -7 \/ c = -6 \/ c = -5 \/ c = -4 \/ c = -3 \/ c = -2 \/ c = -1 \/ c = 0 \/ c = 1 \/ c = 2 \/ c = 3 \/ c = 4 \/ c = 5 \/ c = 6 \/ c = 7) as D by lia.
    repeat (destruct D as [-> | D]; [reflexivity|]). subst; reflexivity.
Qed.

Lemma coefs_run n : (n = 2 \/ n = 3 \/ n = 4)%nat -> forall cs done l rest,
  Forall (fun c => - 2 ^ (Z.of_nat n - 1) <= c < 2 ^ (Z.of_nat n - 1)) cs -> (len cs <= len l)%nat ->
  runA (forP (len cs) (len done) (tns_coef (Z.of_nat n)) (done ++ l))
       (flat_map (fun c => bits_of n (c mod 2 ^ Z.of_nat n)) cs ++ rest) =
  Done (done ++ cs ++ skipn (len cs) l, rest).
Proof.
  intros Hn. induction cs as [|c cs IH]; intros done l rest F H.
  - reflexivity.
  - apply Forall_cons_iff in F. destruct F as [F1 F]. destruct l as [|x l]; [cbn in H; lia|]. cbn [len forP flat_map]. rewrite <- app_assoc.
    unfold tns_coef at 1. rewrite !bind_assoc.
    rewrite (aget_run _ n (nth n sgn_mask 0)) by (destruct Hn as [-> | [-> | ->]]; reflexivity). rewrite bind_assoc.
    rewrite (aget_run _ n (nth n neg_mask 0)) by (destruct Hn as [-> | [-> | ->]]; reflexivity). rewrite bind_assoc.
    rewrite (runA_rdb (Z.of_nat n) n) by (try reflexivity; try lia; apply Z.mod_pos_bound; destruct Hn as [-> | [-> | ->]]; reflexivity).
    cbv zeta in *. rewrite coef_value by auto. rewrite aset_run by (rewrite app_length; cbn; lia). rewrite upd1_app.
    replace (done ++ c :: l) with ((done ++ [c]) ++ l) by (rewrite <- app_assoc; reflexivity).
    replace (S (len done)) with (len (done ++ [c])) by (rewrite app_length; cbn; lia).
    rewrite IH by (auto; cbn in H; lia). rewrite <- app_assoc. reflexivity.
Qed.

(** ** One filter *)
Definition holds_filt (top : Z) (f : sfilt) (g : tfilt) : Prop :=
  f_stop g = top /\ f_start g = top - sf_len f /\ f_order g = Z.of_nat (len (sf_coef f)) /\
  (sf_coef f <> [] -> f_dir g = sf_dir f /\ firstn (len (sf_coef f)) (f_coef g) = sf_coef f) /\ len (f_coef g) = 15%nat.

Lemma wid_range islong : nb_len (wid islong) = (if islong then 6 else 4)%nat /\ nb_order (wid islong) = (if islong then 4 else 3)%nat /\
  nb_filt (wid islong) = (if islong then 2 else 1)%nat.
Proof. destruct islong; auto. Qed.

Lemma filter_run islong fine top f g rest : valid_filt (wid islong) fine f -> sf_len f < top -> len (f_coef g) = 15%nat ->
  exists g', runA (tns_filter (Z.of_nat (nb_len (wid islong))) (Z.of_nat (nb_order (wid islong))) (b2z fine + 3) top g)
      (enc_filt (wid islong) fine f ++ rest) = Done ((0, (top - sf_len f, g')), rest) /\ holds_filt top f g'.
Proof.
  intros (V1 & V2 & V3 & V4) H L. unfold tns_filter, enc_filt. rewrite <- !app_assoc.
  assert (N1 : (nb_len (wid islong) <= 24)%nat) by (destruct islong; cbn; lia).
  assert (N2 : (nb_order (wid islong) <= 24)%nat) by (destruct islong; cbn; lia).
  rewrite (runA_rdb (Z.of_nat (nb_len (wid islong))) (nb_len (wid islong))) by (try reflexivity; lia). cbv zeta.
  replace (top - sf_len f <=? 0) with false by (symmetry; apply Z.leb_gt; lia).
  rewrite (runA_rdb (Z.of_nat (nb_order (wid islong))) (nb_order (wid islong))) by (try reflexivity; lia).
  assert (O15 : (len (sf_coef f) <= 15)%nat) by (destruct islong; cbn in V2; lia).
  destruct (sf_coef f) as [|c cs] eqn:EC.
  - cbn [len]. change (Z.of_nat 0 =? 0) with true. cbv iota. eexists. split; [reflexivity|]. unfold holds_filt. rewrite EC. cbn. repeat split; auto; congruence.
  - rewrite <- EC in *. assert (OP : 0 < Z.of_nat (len (sf_coef f))) by (rewrite EC; cbn; lia).
    replace (Z.of_nat (len (sf_coef f)) =? 0) with false by (symmetry; apply Z.eqb_neq; lia).
    rewrite <- !app_assoc. rewrite (runA_rdb 1 1) by (try reflexivity; lia). rewrite one_flag, runA_flag.
    set (n := cbits fine (sf_small f)) in *.
    replace (b2z fine + 3 - b2z (sf_small f)) with (Z.of_nat n) by (unfold n, cbits; destruct fine, (sf_small f); reflexivity).
    rewrite Nat2Z.id, runA_bind.
    pose proof (coefs_run n ltac:(unfold n, cbits; destruct fine, (sf_small f); cbn; auto) (sf_coef f) [] (f_coef g) rest V4 ltac:(lia)) as C.
    cbn [len app] in C. rewrite C. eexists. split; [reflexivity|]. unfold holds_filt. cbn. repeat split; auto.
    + rewrite firstn_app, Nat.sub_diag, firstn_all. cbn. apply app_nil_r.
    + rewrite app_length, skipn_length. lia.
Qed.

(** ** One window *)
Definition dim_twin (t : twin) : Prop := len (t_filt t) = 3%nat /\ Forall (fun g => len (f_coef g) = 15%nat) (t_filt t).
Definition holds_twin (bands : Z) (w : swin) (t : twin) : Prop :=
  n_filt t = Z.of_nat (len (sw_filt w)) /\
  (sw_filt w <> [] -> t_res t = if sw_fine w then 4 else 3) /\
  forall j f, nth_error (sw_filt w) j = Some f ->
    exists g, nth_error (t_filt t) j = Some g /\
      holds_filt (bands - zsum (map sf_len (firstn j (sw_filt w)))) f g.

Definition filt_body (sb ob res : Z) := fun (j : nat) (st : Z * list tfilt) =>
        let '(top, fs) := st in
        f <- aget fs (Z.of_nat j) ;;
        '(e, (top, f)) <- tns_filter sb ob res top f ;;
        fs <- aset fs (Z.of_nat j) f ;;
        Ret (e, (top, fs)).

Lemma filts_run islong fine : forall fs done gs top rest, Forall (valid_filt (wid islong) fine) fs ->
  zsum (map sf_len fs) < top -> (len fs <= len gs)%nat -> Forall (fun g => len (f_coef g) = 15%nat) (done ++ gs) ->
  exists new, runA (forE (len fs) (len done) (filt_body (Z.of_nat (nb_len (wid islong))) (Z.of_nat (nb_order (wid islong))) (b2z fine + 3)) (top, done ++ gs))
      (flat_map (enc_filt (wid islong) fine) fs ++ rest) =
    Done ((0, (top - zsum (map sf_len fs), done ++ new ++ skipn (len fs) gs)), rest) /\
    len new = len fs /\ Forall (fun g => len (f_coef g) = 15%nat) new /\
    forall j f, nth_error fs j = Some f -> exists g, nth_error new j = Some g /\ holds_filt (top - zsum (map sf_len (firstn j fs))) f g.
Proof.
  induction fs as [|f fs IH]; intros done gs top rest V SM L D.
  - exists []. cbn. split; [|split; [|split]]; auto. 
    + repeat f_equal; lia.
    + intros [|j] f; discriminate.
  - apply Forall_cons_iff in V. destruct V as [V1 V]. destruct gs as [|g gs]; [cbn in L; lia|].
    change (zsum (map sf_len (f :: fs))) with (sf_len f + zsum (map sf_len fs)) in SM.
    assert (Z0 : 0 <= zsum (map sf_len fs)) by (clear - V; induction V as [|x l (A & _) _ IH]; cbn; unfold zsum in *; lia).
    pose proof D as D0. apply Forall_app in D. destruct D as [D1 D]. apply Forall_cons_iff in D. destruct D as [D2 D].
    destruct (filter_run islong fine top f g (flat_map (enc_filt (wid islong) fine) fs ++ rest) V1 ltac:(lia) D2) as (g' & X & H).
    destruct (IH (done ++ [g']) gs (top - sf_len f) rest V ltac:(lia) ltac:(cbn in L; lia)) as (new & Y & N1 & N2 & N3).
    { rewrite <- app_assoc. apply Forall_app. split; auto. constructor; auto. apply H. }
    exists (g' :: new). split; [|split; [|split]].
    + cbn [len forE flat_map]. rewrite <- app_assoc. unfold filt_body at 1. cbv beta iota. rewrite !bind_assoc.
      rewrite (aget_run _ _ g) by (rewrite nth_error_app2 by lia; rewrite Nat.sub_diag; reflexivity).
      rewrite bind_assoc, runA_bind, X. cbv beta iota. rewrite bind_assoc, aset_run by (rewrite app_length; cbn; lia). rewrite upd1_app. cbn [bind].
      change (0 =? 0) with true. cbv iota.
      replace (done ++ g' :: gs) with ((done ++ [g']) ++ gs) by (rewrite <- app_assoc; reflexivity).
      replace (S (len done)) with (len (done ++ [g'])) by (rewrite app_length; cbn; lia).
      rewrite Y. rewrite <- app_assoc. change (zsum (map sf_len (f :: fs))) with (sf_len f + zsum (map sf_len fs)).
      f_equal. f_equal. f_equal. f_equal. lia.
    + cbn. lia.
    + constructor; auto. apply H.
    + intros [|j] q E; cbn [nth_error] in E.
      * injection E as <-. exists g'. split; [reflexivity|]. cbn [firstn map]. change (zsum []) with 0. rewrite Z.sub_0_r. exact H.
      * destruct (N3 j q E) as (k & K1 & K2). exists k. split; [exact K1|]. cbn [firstn map].
        change (zsum (sf_len f :: map sf_len (firstn j fs))) with (sf_len f + zsum (map sf_len (firstn j fs))).
        rewrite Z.sub_add_distr. exact K2.
Qed.

Lemma window_run islong bands w t rest : valid_twin (wid islong) w -> above bands w -> 0 < bands -> dim_twin t ->
  exists t', runA (tns_window (Z.of_nat (nb_filt (wid islong))) (Z.of_nat (nb_len (wid islong))) (Z.of_nat (nb_order (wid islong))) bands t)
      (enc_twin (wid islong) w ++ rest) = Done ((0, t'), rest) /\ holds_twin bands w t' /\ dim_twin t'.
Proof.
  intros [V1 V2] A B [D1 D2]. unfold tns_window, enc_twin. rewrite <- app_assoc.
  assert (N1 : (nb_filt (wid islong) <= 24)%nat) by (destruct islong; cbn; lia).
  rewrite (runA_rdb (Z.of_nat (nb_filt (wid islong))) (nb_filt (wid islong))) by (try reflexivity; lia).
  assert (L3 : (len (sw_filt w) <= 3)%nat) by (destruct islong; cbn in V1; lia).
  destruct (sw_filt w) as [|f0 fs0] eqn:EF.
  - cbn [len]. change (Z.of_nat 0 =? 0) with true. cbv iota. eexists. split; [reflexivity|]. split; [|split; auto].
    unfold holds_twin. rewrite EF. cbn. split; [reflexivity|]. split; [congruence|]. intros [|j] f; discriminate.
  - rewrite <- EF in *. replace (Z.of_nat (len (sw_filt w)) =? 0) with false by (symmetry; apply Z.eqb_neq; rewrite EF; cbn; lia).
    rewrite <- app_assoc. rewrite one_flag, runA_flag. rewrite Nat2Z.id.
    destruct (filts_run islong (sw_fine w) (sw_filt w) [] (t_filt t) bands rest V2 A ltac:(lia) D2) as (new & X & M1 & M2 & M3).
    cbn [len app] in X. unfold filt_body in X. rewrite runA_bind, X. eexists. split; [reflexivity|]. split.
    + split; [reflexivity|]. split; [intros _; cbn [t_res]; destruct (sw_fine w); reflexivity|].
      cbn [t_filt]. intros j f E. destruct (M3 j f E) as (g & G1 & G2). exists g. split; [|exact G2].
      rewrite nth_error_app1; [exact G1|]. apply nth_error_Some. congruence.
    + split; cbn [t_filt]; [rewrite app_length, skipn_length; lia|]. apply Forall_app. split; auto.
      apply Forall_forall. intros g Hg. rewrite Forall_forall in D2. apply D2. rewrite <- (firstn_skipn (len (sw_filt w)) (t_filt t)). apply in_or_app. auto.
Qed.

(** ** A frame *)
Definition dim_tns (t : tns) : Prop := len (t_win t) = 8%nat /\ Forall dim_twin (t_win t).

Definition win_body (nb sb ob bands : Z) := fun (i : nat) ws =>
        w <- aget ws (Z.of_nat i) ;;
        '(e, w) <- tns_window nb sb ob bands w ;;
        ws <- aset ws (Z.of_nat i) w ;;
        Ret (e, ws).

Lemma windows_run islong bands : forall l done ts rest, Forall (valid_twin (wid islong)) l -> Forall (above bands) l -> 0 < bands ->
  (len l <= len ts)%nat -> Forall dim_twin (done ++ ts) ->
  exists new, runA (forE (len l) (len done) (win_body (Z.of_nat (nb_filt (wid islong))) (Z.of_nat (nb_len (wid islong))) (Z.of_nat (nb_order (wid islong))) bands) (done ++ ts))
      (flat_map (enc_twin (wid islong)) l ++ rest) = Done ((0, done ++ new ++ skipn (len l) ts), rest) /\
    Forall2 (holds_twin bands) l new /\ Forall dim_twin new.
Proof.
  induction l as [|w l IH]; intros done ts rest V A B L D.
  - exists []. cbn. auto.
  - apply Forall_cons_iff in V. destruct V as [V1 V]. apply Forall_cons_iff in A. destruct A as [A1 A]. destruct ts as [|t ts]; [cbn in L; lia|].
    pose proof D as D0. apply Forall_app in D. destruct D as [D1 D]. apply Forall_cons_iff in D. destruct D as [D2 D].
    destruct (window_run islong bands w t (flat_map (enc_twin (wid islong)) l ++ rest) V1 A1 B D2) as (t' & X & H & D').
    destruct (IH (done ++ [t']) ts rest V A B ltac:(cbn in L; lia)) as (new & Y & N1 & N2).
    { rewrite <- app_assoc. apply Forall_app. split; auto. constructor; auto. }
    exists (t' :: new). split; [|split; constructor; auto].
    cbn [len forE flat_map]. rewrite <- app_assoc. unfold win_body at 1. rewrite !bind_assoc.
    rewrite (aget_run _ _ t) by (rewrite nth_error_app2 by lia; rewrite Nat.sub_diag; reflexivity).
    rewrite bind_assoc, runA_bind, X. cbv beta iota. rewrite bind_assoc, aset_run by (rewrite app_length; cbn; lia). rewrite upd1_app. cbn [bind].
    change (0 =? 0) with true. cbv iota.
    replace (done ++ t' :: ts) with ((done ++ [t']) ++ ts) by (rewrite <- app_assoc; reflexivity).
    replace (S (len done)) with (len (done ++ [t'])) by (rewrite app_length; cbn; lia).
    rewrite Y. rewrite <- app_assoc. reflexivity.
Qed.

Definition holds_tns (bands : Z) (l : list swin) (t : tns) : Prop :=
  n_sub t = Z.of_nat (len l) /\ Forall2 (holds_twin bands) l (firstn (len l) (t_win t)).

Lemma tns_run nl ns islong l t rest : valid_tns islong l -> Forall (above (if islong then nl else ns)) l ->
  0 < nl -> 0 < ns -> dim_tns t ->
  exists t', runA (read_tns nl ns (Some islong) t) (enc_tns islong l ++ rest) = Done ((0, t'), rest) /\
    holds_tns (if islong then nl else ns) l t' /\ dim_tns t'.
Proof.
  intros [V1 V2] A B1 B2 [D1 D2].
  destruct (windows_run islong (if islong then nl else ns) l [] (t_win t) rest V2 A ltac:(destruct islong; lia) ltac:(destruct islong; lia) D2) as (new & X & H1 & H2).
  cbn [len app] in X. assert (LN : len new = len l) by (symmetry; eapply F2_length; exact H1).
  exists (mkTns (Z.of_nat (len l)) (new ++ skipn (len l) (t_win t))). split; [|split].
  - unfold read_tns, enc_tns. unfold win_body in X. destruct islong; rewrite V1 in X |- *; rewrite runA_bind; cbv zeta beta iota;
    [change (Z.to_nat 1) with 1%nat | change (Z.to_nat 8) with 8%nat]; cbn [wid nb_filt nb_len nb_order Z.of_nat Pos.of_succ_nat Pos.succ] in X |- *; rewrite X; reflexivity.
  - unfold holds_tns. cbn [n_sub t_win]. split; [reflexivity|]. rewrite <- LN at 1. rewrite firstn_app, Nat.sub_diag, firstn_all. cbn [firstn]. rewrite app_nil_r. exact H1.
  - split; cbn [t_win]; [rewrite app_length, skipn_length; destruct islong; lia|]. apply Forall_app. split; auto.
    apply Forall_forall. intros g Hg. rewrite Forall_forall in D2. apply D2. rewrite <- (firstn_skipn (len l) (t_win t)). apply in_or_app. auto.
Qed.
