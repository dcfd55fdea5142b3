(** * Lem_CoreChanProps: channel headers read from a buffer *)

From Coq Require Import ZArith List Lia Bool.
From Verif Require Import Bits BitBuf Prog Wp Loops Leaf Config Oam Lem_ConfigSafe Lem_MctSafe CoreIcs CoreSte CorePair CoreScf CoreChan Lem_Asi Spec_Asi Lem_AsiRT Lem_MhasProps Lem_MctBand
  Spec_CoreScf Lem_CoreScf Lem_CoreScfRun Lem_CoreScfSafe Spec_CoreIcs Lem_CoreIcs Lem_CoreTns Spec_CoreSte Lem_CoreSte Spec_CorePair Lem_CorePair Lem_CoreSafe Lem_CoreProps Spec_CoreChan Lem_CoreChan.
Import ListNotations.
Open Scope list_scope.
Open Scope Z_scope.
Local Notation len := List.length.

(** ** No undefined behaviour in the parts *)
Definition good (nl : Z) (ns : nat) (w : wst) (si : sinfo) : Prop :=
  win_ok nl ns w si /\ (w_seq w = 2 -> nth 0 (g_len si) 0 <> 0).

Lemma wp_ics_len nl ws prev w si : (len ws <= 15)%nat -> len (w_gd w) = 8%nat -> si_dim si ->
  wp (ics_info nl ws prev w si) (fun r => let '(e, (w', si')) := r in e = 0 -> w_seq w' = 2 -> nth 0 (g_len si') 0 <> 0).
Proof.
  intros L G D. unfold ics_info. apply wp_bindi, wp_rd; [lia|]. intros c Hc. cbv zeta.
  destruct (win_seq_select c prev =? -1). { apply wp_ret. discriminate. }
  apply wp_bindi, wp_rd; [lia|]. intros sh _. cbn [w_gd w_shape w_max].
  destruct (Z.eqb_spec (win_seq_select c prev) 2) as [E2|N2].
  - apply wp_bindi, wp_rd; [lia|]. intros m Hm. apply wp_bindi, wp_rd; [lia|]. intros g Hg. change (2 ^ 7) with 128 in Hg.
    destruct (Z.ltb_spec (Z.of_nat (len ws)) m) as [|LM]. { apply wp_ret. discriminate. }
    apply wp_bindi. eapply wp_mono; [|apply wp_ends; [lia|exact G]]. intros gd (same & LS & ->).
    destruct (runs_facts same LS) as (F1 & F2 & F3).
    unfold calc_grp_offset. rewrite !wp_bind. eapply wp_mono; [|apply wp_lens; [exact LS|apply D]]. intros r ->. cbv beta iota. rewrite wp_bind.
    rewrite Nat2Z.id. eapply wp_mono; [|apply wp_offsets; [exact L|lia| |apply D]].
    2:{ rewrite app_length, skipn_length. destruct D as [D _]. lia. }
    intros tbl LT. apply wp_ret. apply wp_ret. intros _ _. cbn [g_len]. destruct (runs 1 same) as [|g0 gs]; [cbn in F3; lia|]. cbn. inversion F2; lia.
  - apply wp_bindi, wp_rd; [lia|]. intros m Hm. apply wp_bindi. destruct (w_gd w) as [|g0 gd] eqn:EG; [cbn in G; lia|]. apply wp_asetL; [cbn [List.length]; lia|]. intros l' L' El.
    destruct (Z.ltb_spec nl m) as [|LM]; apply wp_ret; [discriminate|]. cbn [w_seq]. intros _ X. contradiction.
Qed.

Lemma wp_front nl ws nf cw second prev w si : (len ws <= 15)%nat -> len (w_gd w) = 8%nat -> si_dim si -> ((cw =? 0) = false -> good nl (len ws) w si) ->
  wp (chan_window nl ws nf cw second prev w si) (fun r => let '(e, (g, _, _, w', si')) := r in
    0 <= g < 256 /\ len (w_gd w') = 8%nat /\ si_dim si' /\ (e = 0 -> good nl (len ws) w' si')).
Proof.
  intros L G D H. unfold chan_window. apply wp_bindi, wp_rd; [lia|]. intros g Hg. change (2 ^ 8) with 256 in Hg. apply wp_bindi.
  assert (X : wp (if nf =? 0 then Ret 0 else rd 8) (fun _ => True)) by (destruct (nf =? 0); [apply wp_ret; exact I|apply wp_rd; [lia|auto]]).
  eapply wp_mono; [|exact X]. intros lev _. cbv zeta. destruct (cw =? 0); cbn [negb].
  - apply wp_bindi. eapply wp_mono; [|exact (wp_conj _ _ _ (wp_ics nl ws prev w si L G D) (wp_ics_len nl ws prev w si L G D))].
    intros [e [w' si']] [(A1 & A2 & A3) B]. destruct (Z.eqb_spec e 0); cbn [negb]; apply wp_ret; (split; [exact Hg|]); (split; [exact A1|]); (split; [exact A2|]); intros E; [|contradiction].
    subst e. split; auto.
  - destruct second; apply wp_ret; (split; [exact Hg|]); (split; [exact G|]); (split; [exact D|]); auto.
Qed.

Lemma wp_spec nl (ws ltbl : list Z) w si : (len ws <= 15)%nat -> nl < 64 -> (Z.to_nat nl <= len ltbl)%nat -> si_dim si -> good nl (len ws) w si -> wp (chan_spec ltbl w si) (fun _ => True).
Proof.
  intros L N LT [D1 D2] [(S4 & gs & tail & E & P & LG & X) Y]. unfold chan_spec, islong. destruct (Z.ltb_spec 0 (w_max w)) as [M|]; [|apply wp_ret; exact I].
  destruct (Z.eqb_spec (w_seq w) 2) as [E2|]; cbn [negb].
  - apply wp_bindi, wp_aget; [lia|]. intros t _. apply wp_bindi, wp_aget; [lia|]. intros n Hn.
    destruct (Z.eqb_spec n 0) as [->|]; [|apply wp_ret; exact I]. exfalso. apply (Y E2). change (Z.to_nat 0) with 0%nat in Hn. apply nth_error_nth. exact Hn.
  - apply wp_aget; [lia|]. auto.
Qed.

Lemma wp_tools indep base3b cl long lt ca : wp (chan_tools indep base3b cl long lt ca) (fun _ => True).
Proof.
  unfold chan_tools. apply wp_bindi.
  assert (X : wp (if negb (cl =? 0) then Ret (0, lt) else on <- rd 1 ;; if on =? 0 then Ret (0, mkLt on (lt_lag lt) (lt_gain lt))
      else if base3b =? 1 then Ret (E_PROFILE, mkLt on (lt_lag lt) (lt_gain lt)) else lag <- rd 9 ;; gain <- rd 2 ;; Ret (0, mkLt on lag gain)) (fun _ => True)).
  { destruct (negb (cl =? 0)); [apply wp_ret; exact I|]. apply wp_bindi, wp_rd; [lia|]. intros on _. destruct (on =? 0); [apply wp_ret; exact I|].
    destruct (base3b =? 1); [apply wp_ret; exact I|]. apply wp_bindi, wp_rd; [lia|]. intros lag _. apply wp_bindi, wp_rd; [lia|]. intros gain _. apply wp_ret; exact I. }
  eapply wp_mono; [|exact X]. intros [e l] _. destruct (negb (e =? 0)); [apply wp_ret; exact I|]. apply wp_bindi.
  assert (Y : wp (if long && (indep =? 0) then on <- rd 1 ;; if on =? 0 then Ret (0, -1) else if base3b =? 1 then Ret (E_PROFILE, -1) else v <- rd 8 ;; Ret (0, v) else Ret (0, -1)) (fun _ => True)).
  { destruct (long && (indep =? 0)); [|apply wp_ret; exact I]. apply wp_bindi, wp_rd; [lia|]. intros on _. destruct (on =? 0); [apply wp_ret; exact I|].
    destruct (base3b =? 1); [apply wp_ret; exact I|]. apply wp_bindi, wp_rd; [lia|]. intros lag _. apply wp_ret; exact I. }
  eapply wp_mono; [|exact Y]. intros [e2 f] _. destruct (negb (e2 =? 0)); [apply wp_ret; exact I|]. apply wp_bindi.
  assert (Z : wp (if indep =? 0 then Ret ca else rd 1) (fun _ => True)) by (destruct (indep =? 0); [apply wp_ret; exact I|apply wp_rd; [lia|auto]]).
  eapply wp_mono; [|exact Z]. intros pa _. apply wp_bindi, wp_rd; [lia|]. intros c _. apply wp_ret; exact I.
Qed.

Lemma wp_tail indep nl ns tp long t : dim_tns t -> wp (chan_tail indep nl ns tp long t) (fun r => dim_tns (fst (snd r))).
Proof.
  intros D. unfold chan_tail. apply wp_bindi.
  assert (X : wp (if tp =? 0 then t <- tns_none (if long then 1%nat else 8%nat) t ;; Ret (0, t) else if tp =? 1 then read_tns nl ns (Some long) t else Ret (0, t)) (fun r => dim_tns (snd r))).
  { destruct (tp =? 0).
    - apply wp_bindi. unfold tns_none. apply wp_bindi. destruct D as [D1 D2].
      apply (wp_for (fun _ l => len l = 8%nat /\ Forall dim_twin l)).
      + auto.
      + intros i l Hi [A B]. assert (i < 8)%nat by (destruct long; lia). apply wp_bindi, wp_aget; [lia|]. intros w Hw. apply wp_upd2; [lia|]. rewrite upd1_len by lia. split; [exact A|].
        apply upd1_Forall; [lia|exact B|]. apply nth_error_In in Hw. rewrite Forall_forall in B. exact (B w Hw).
      + intros l [A B]. apply wp_ret, wp_ret. split; auto.
    - destruct (tp =? 1); [apply wp_tns; exact D|apply wp_ret; exact D]. }
  eapply wp_mono; [|exact X]. intros [e t'] H. destruct (negb (e =? 0)); [apply wp_ret; exact H|]. apply wp_bindi.
  assert (Z : wp (if indep =? 0 then rd 1 else Ret 1) (fun _ => True)) by (destruct (indep =? 0); [apply wp_rd; [lia|auto]|apply wp_ret; exact I]).
  eapply wp_mono; [|exact Z]. intros r _. apply wp_ret. exact H.
Qed.

(** ** A reader that goes to the end of its bytes *)
Definition ends_at (d : rbuf) : Prop := bitpos d + r_cnt d = 8 * Z.of_nat (len (r_data d)).

Lemma near_end_bits full d : wf d -> ends_at d -> chan_near_end full d = full && (Z.of_nat (len (rest_bits d)) <=? 24).
Proof.
  intros W E. rewrite wf_len by exact W. unfold chan_near_end, ends_at, bitpos in *. destruct W as (_ & _ & P & _).
  destruct full; [|rewrite andb_false_r; reflexivity]. rewrite andb_true_r. cbn [andb].
  destruct (Z.ltb_spec (Z.of_nat (len (r_data d)) - 1 - 3) (r_ptr d)), (Z.leb_spec (r_cnt d) 24); auto; lia.
Qed.

Lemma step {A} (p : prog A) Q d x rest : wf d -> ends_at d -> wp p Q -> runA p (rest_bits d) = Done (x, rest) ->
  exists d', exec p d = Done (x, d') /\ wf d' /\ ends_at d' /\ rest_bits d' = rest.
Proof.
  intros W EA H R. destruct (exec_of_run _ _ _ _ W R) as (d' & E & W' & R'). exists d'. split; [exact E|]. split; [exact W'|]. split; [|exact R'].
  destruct (exec_const _ _ _ _ (wp_supported _ _ H) W E) as [D1 D2]. unfold ends_at in *. rewrite D1. lia.
Qed.

Lemma ends_same gs : forall f, Forall (fun g => 0 <= g) gs -> Spec_CoreScf.ends f (map Z.to_nat gs) = Spec_CoreIcs.ends f gs.
Proof.
  induction gs as [|g gs IH]; intros f H; [reflexivity|]. inversion H; subst. cbn [map Spec_CoreScf.ends Spec_CoreIcs.ends]. rewrite Z2Nat.id by lia. rewrite IH by auto. reflexivity.
Qed.
Lemma sum_same gs : Forall (fun g => 0 <= g) gs -> Z.of_nat (list_sum (map Z.to_nat gs)) = zsum gs.
Proof.
  induction gs as [|g gs IH]; intros H; [reflexivity|]. inversion H; subst. cbn [map].
  change (list_sum (Z.to_nat g :: map Z.to_nat gs)) with (Z.to_nat g + list_sum (map Z.to_nat gs))%nat. cbn [zsum fold_right]. fold (zsum gs). rewrite Nat2Z.inj_add, IH by auto. lia.
Qed.

Lemma groups_facts nl ns v : valid_win nl ns v ->
  zsum (groups v) = (if long_win v then 1 else 8) /\ Forall (fun n => 1 <= n) (groups v) /\ (1 <= len (groups v) <= 8)%nat /\ (long_win v = true -> groups v = [1]).
Proof.
  intros (V1 & V2 & V3 & V4). unfold groups, long_win. destruct (v_code v =? 2); cbn [negb].
  - destruct V4 as [_ V5]. destruct (runs_facts (v_same v) V5) as (A & B & C). repeat split; auto; try lia.
  - repeat split; auto; cbn; try lia. repeat constructor; lia.
Qed.

Lemma force_good nl offs prev v w si : bands_ok offs nl -> valid_win nl (Z.of_nat (len offs)) v -> in_force offs prev v w si -> good nl (len (widths 0 offs)) w si.
Proof.
  intros B V [(H1 & H2 & H3 & H4 & H5) HG]. destruct (groups_facts _ _ _ V) as (G1 & G2 & G3 & G4). rewrite widths_len.
  destruct V as (V1 & V2 & V3 & V4). assert (M2 := meant_two prev (v_code v) V1). unfold long_win in *.
  split; [split|].
  - rewrite H1. unfold meant. destruct ((v_code v =? 1) && short_end prev); lia.
  - exists (groups v), (skipn (len (groups v)) (w_gd w)). split; [rewrite <- H4; symmetry; apply firstn_skipn|]. split; [eapply Forall_impl; [|exact G2]; cbn; lia|]. split; [exact G3|].
    rewrite H1, H3, M2. destruct (Z.eqb_spec (v_code v) 2) as [E|E]; cbn [negb] in *; [destruct V4; destruct (HG E) as (Q & _)|]; split; auto; lia.
  - intros E. rewrite H1 in E. rewrite E in M2. symmetry in M2. apply Z.eqb_eq in M2. destruct (HG M2) as (_ & Q & _).
    destruct (groups v) as [|g0 gs]; [cbn in G3; lia|]. destruct (g_len si) as [|y l]; [discriminate|]. cbn in Q |- *. assert (y = g0) by congruence. inversion G2; lia.
Qed.

Definition cst_dim (s : cst) : Prop := len (w_gd (k_w s)) = 8%nat /\ si_dim (k_si s) /\ len (k_fac s) = 128%nat /\ dim_tns (k_t s).

(** What the decoder holds after a header. *)
Definition holds_chan (offs : list Z) (nl : Z) (ltbl : list Z) (indep second : bool) (prev : Z) (v : winfo) (h : chan) (s s' : cst) (o : chd) : Prop :=
  let shared := negb (has (x_win h)) in
  let long := long_win v in
  let nsb := if long then Z.to_nat nl else len offs in
  in_force offs prev v (k_w s') (k_si s') /\ lt_ok (x_ltpf h) (k_lt s) (k_lt s') /\
  k_pa s' = (if indep then b2z (x_left h) else k_ca s) /\ k_ca s' = b2z (x_right h) /\
  firstn ((if long then 1 else 8) * nsb) (k_fac s') = all_factors nsb (Z.to_nat (v_max v)) (map Z.to_nat (groups v)) (x_gain h) (x_rows h) /\
  holds_ctns (if long then nl else Z.of_nat (len offs)) (if long then 1 else 8) (x_tns h) (k_t s) (k_t s') /\
  d_gain o = x_gain h /\ d_noise o = noise_val (x_noise h) (noise_meant shared second (meant prev (v_code v))) /\
  d_fill o = b2z (match x_noise h with Some n => stereo_fill shared second n | None => false end) /\
  d_spec o = (if 0 <? v_max v then nth (Z.to_nat (v_max v - 1)) (if long then ltbl else offs) 0 else 0) /\
  d_fdp o = (match x_fdp h with Some f => f | None => -1 end) /\ d_reset o = b2z (x_fresh h).

Lemma chan_exec (indep : bool) base3b offs nl ltbl full second prev v h s :
  bands_ok offs nl -> (Z.to_nat nl <= len ltbl)%nat -> cst_dim s -> valid_chan nl (Z.of_nat (len offs)) indep v h ->
  (x_win h = None -> in_force offs prev v (k_w s) (k_si s)) -> (base3b = 1 -> plain h) ->
  forall d rest, wf d -> ends_at d -> rest_bits d = enc_chan indep (long_win v) h ++ rest ->
  (full = true -> 24 < len (enc_back indep (long_win v) h ++ rest))%nat ->
  exists s' o d', chan_head (b2z indep) base3b nl (widths 0 offs) ltbl full (b2z (has (x_noise h))) (b2z (negb (has (x_win h))))
      (b2z (negb (has (x_ltpf h)))) (tns_code (x_tns h)) second prev s d = Done (0, (s', o), d') /\ rest_bits d' = rest /\ wf d' /\
    holds_chan offs nl ltbl indep second prev v h s s' o /\ cst_dim s'.
Proof.
  intros B LT (D1 & D2 & D3 & D4) V SH PL d rest W EA R F. assert (V0 := V). destruct V0 as (V1 & _ & _ & _ & _ & V6 & V7 & _ & _).
  assert (B0 := B). destruct B0 as (B1 & B2 & B3).
  unfold enc_chan in R. rewrite <- app_assoc in R.
  destruct (front_run nl offs indep prev v h second (k_w s) (k_si s) (enc_back indep (long_win v) h ++ rest) B V D1 D2 SH) as (w & si & X1 & IF & G8 & SD).
  rewrite <- R in X1. set (front := chan_window _ _ _ _ _ _ _ _) in *.
  assert (WP1 : wp front (fun _ => True)).
  { unfold front. eapply wp_mono; [|apply (wp_front nl (widths 0 offs)); [rewrite widths_len; lia|exact D1|exact D2|]]; [auto|].
    intros E. apply (force_good nl offs prev v); auto. apply SH. destruct (x_win h); [discriminate|reflexivity]. }
  destruct (step _ _ _ _ _ W EA WP1 X1) as (d1 & E1 & W1 & EA1 & R1).
  unfold chan_head. fold front. rewrite E1. cbn [obind]. change (0 =? 0) with true. cbn [negb].
  rewrite near_end_bits by auto. rewrite R1.
  replace (full && (Z.of_nat (len (enc_back indep (long_win v) h ++ rest)) <=? 24)) with false.
  2:{ symmetry. destruct full; [|reflexivity]. cbn [andb]. apply Z.leb_gt. specialize (F eq_refl). lia. }
  assert (LW : islong (w_seq w) = long_win v). { unfold islong, long_win. destruct IF as [(H1 & _) _]. destruct V1 as (V1 & _). rewrite H1, meant_two by auto. reflexivity. }
  rewrite LW. cbv zeta. cbn [k_w k_si k_lt k_pa k_ca k_fac k_t].
  assert (GD := force_good nl offs prev v w si B V1 IF).
  destruct (step (chan_spec ltbl w si) _ d1 _ _ W1 EA1 (wp_spec nl (widths 0 offs) ltbl w si ltac:(rewrite widths_len; lia) ltac:(lia) LT SD GD)
     (spec_run offs nl ltbl prev v w si (rest_bits d1) B V1 LT SD IF)) as (d2 & E2 & W2 & EA2 & R2).
  rewrite E2. cbn [obind]. rewrite R1 in R2.
  set (tail := match x_tns h with OwnFilters l => enc_tns (long_win v) l | _ => [] end ++ if indep then [] else [x_fresh h]).
  assert (EB : enc_back indep (long_win v) h = enc_tools indep (long_win v) h ++ enc_factors (x_gain h) (x_rows h) ++ tail).
  { unfold enc_back, enc_tools, tail. rewrite <- !app_assoc. reflexivity. }
  rewrite EB, <- !app_assoc in R2.
  destruct (tools_run nl (Z.of_nat (len offs)) indep base3b v h (k_lt s) (k_ca s) (enc_factors (x_gain h) (x_rows h) ++ tail ++ rest) V PL) as (lt' & X3 & LO).
  rewrite <- R2 in X3. destruct (step _ _ _ _ _ W2 EA2 (wp_tools _ _ _ _ _ _) X3) as (d3 & E3 & W3 & EA3 & R3).
  rewrite E3. cbn [obind]. change (0 =? 0) with true. cbn [negb].
  destruct (groups_facts _ _ _ V1) as (G1 & G2 & G3 & G4). set (gs := groups v) in *.
  assert (G0 : Forall (fun g => 0 <= g) gs) by (eapply Forall_impl; [|exact G2]; cbn; lia).
  assert (GDE : w_gd w = Spec_CoreScf.ends 0 (map Z.to_nat gs) ++ skipn (len gs) (w_gd w)).
  { rewrite ends_same by exact G0. destruct IF as [(_ & _ & _ & H4 & _) _]. fold gs in H4. rewrite <- H4. symmetry. apply firstn_skipn. }
  assert (NW : (if long_win v then 1 else 8) = Z.of_nat (list_sum (map Z.to_nat gs))) by (rewrite sum_same by exact G0; symmetry; exact G1).
  assert (NWn : list_sum (map Z.to_nat gs) = (if long_win v then 1 else 8)%nat) by (destruct (long_win v); lia).
  set (nsb := if long_win v then Z.to_nat nl else len offs).
  assert (NSB : Z.to_nat (if long_win v then nl else Z.of_nat (len (widths 0 offs))) = nsb) by (unfold nsb; rewrite widths_len; destruct (long_win v); lia).
  assert (WM : w_max w = v_max v) by apply IF.
  assert (MX : (Z.to_nat (v_max v) <= nsb)%nat).
  { destruct V1 as (_ & _ & P & Q). unfold nsb, long_win. destruct (v_code v =? 2); cbn [negb]; lia. }
  assert (LF : (list_sum (map Z.to_nat gs) * nsb <= len (k_fac s))%nat) by (rewrite NWn, D3; unfold nsb; destruct (long_win v); lia).
  destruct (scf_exec (long_win v) nsb (Z.to_nat (v_max v)) (map Z.to_nat gs) (x_gain h) (x_rows h) (skipn (len gs) (w_gd w)) (k_fac s) V6
     ltac:(rewrite map_length; exact V7)) with (s := d3) (rest := tail ++ rest) as (fac' & d4 & E4 & W4 & R4 & FA & FL).
  { split; [|split; [|split]].
    - destruct gs; [cbn in G3; lia|discriminate].
    - rewrite map_length. lia.
    - apply Forall_forall. intros n I. apply in_map_iff in I. destruct I as (g & <- & I). rewrite Forall_forall in G2. specialize (G2 g I). cbn in G2. lia.
    - intros L. rewrite (G4 L). reflexivity. }
  { exact MX. } { unfold nsb. destruct (long_win v); lia. } { exact LF. } { lia. } { exact W3. } { left. exact EA3. } { exact R3. }
  rewrite <- GDE, <- NW in E4. rewrite WM, NSB, E4. cbn [obind]. change (0 =? 0) with true. cbn [negb].
  destruct (tail_run nl (Z.of_nat (len offs)) indep v h (k_t s) rest V ltac:(lia) ltac:(lia) D4) as (t' & X5 & HT & DT). fold tail in X5. rewrite <- R4 in X5.
  destruct (exec_of_run _ _ _ _ W4 X5) as (d5 & E5 & W5 & R5). rewrite widths_len. rewrite E5. cbn [obind].
  eexists _, _, d5. split; [reflexivity|]. split; [exact R5|]. split; [exact W5|]. split.
  - unfold holds_chan. cbv zeta. cbn [k_w k_si k_lt k_pa k_ca k_fac k_t d_gain d_noise d_fill d_spec d_fdp d_reset]. fold nsb. rewrite NWn in FA.
    sp; auto.
  - unfold cst_dim. cbn [k_w k_si k_fac k_t]. sp; auto. lia.
Qed.

(** ** Close to the end of a frame that fills the input buffer *)
Lemma chan_refused (indep : bool) base3b offs nl ltbl second prev v h s :
  bands_ok offs nl -> cst_dim s -> valid_chan nl (Z.of_nat (len offs)) indep v h ->
  (x_win h = None -> in_force offs prev v (k_w s) (k_si s)) ->
  forall d rest, wf d -> ends_at d -> rest_bits d = enc_chan indep (long_win v) h ++ rest ->
  (len (enc_back indep (long_win v) h ++ rest) <= 24)%nat ->
  exists s' o d', chan_head (b2z indep) base3b nl (widths 0 offs) ltbl true (b2z (has (x_noise h))) (b2z (negb (has (x_win h))))
      (b2z (negb (has (x_ltpf h)))) (tns_code (x_tns h)) second prev s d = Done (E_FRAME, (s', o), d').
Proof.
  intros B (D1 & D2 & D3 & D4) V SH d rest W EA R F. assert (V0 := V). destruct V0 as (V1 & _).
  assert (B0 := B). destruct B0 as (B1 & B2 & B3). unfold enc_chan in R. rewrite <- app_assoc in R.
  destruct (front_run nl offs indep prev v h second (k_w s) (k_si s) (enc_back indep (long_win v) h ++ rest) B V D1 D2 SH) as (w & si & X1 & IF & G8 & SD).
  rewrite <- R in X1. set (front := chan_window _ _ _ _ _ _ _ _) in *.
  assert (WP1 : wp front (fun _ => True)).
  { unfold front. eapply wp_mono; [|apply (wp_front nl (widths 0 offs)); [rewrite widths_len; lia|exact D1|exact D2|]]; [auto|].
    intros E. apply (force_good nl offs prev v); auto. apply SH. destruct (x_win h); [discriminate|reflexivity]. }
  destruct (step _ _ _ _ _ W EA WP1 X1) as (d1 & E1 & W1 & EA1 & R1).
  unfold chan_head. fold front. rewrite E1. cbn [obind]. change (0 =? 0) with true. cbn [negb].
  rewrite near_end_bits by auto. rewrite R1.
  replace (true && (Z.of_nat (len (enc_back indep (long_win v) h ++ rest)) <=? 24)) with true by (symmetry; cbn [andb]; apply Z.leb_le; lia).
  eexists _, _, d1. reflexivity.
Qed.

(** ** How many bits the parts take *)
Definition costs {A} (n : Z) (p : prog A) : Prop := forall d a d', exec p d = Done (a, d') -> r_cnt d - n <= r_cnt d'.

Lemma costs_ret {A} n (a : A) : 0 <= n -> costs n (Ret a).
Proof. intros N d x d' E. cbn in E. inversion E; subst. lia. Qed.
Lemma costs_rd k n : k <= n -> costs n (rd k).
Proof.
  intros N d x d' E. unfold rd in E. cbn [exec] in E. destruct (read_bits k d) as [[v s]| |] eqn:R; try discriminate. cbn in E. inversion E; subst.
  apply read_bits_const in R. lia.
Qed.
Lemma costs_bind {A B} n m (p : prog A) (f : A -> prog B) : costs n p -> (forall a, costs (m - n) (f a)) -> costs m (bind p f).
Proof.
  intros P F d x d' E. rewrite exec_bind in E. destruct (exec p d) as [[a d1]| |] eqn:E1; try discriminate.
  specialize (P _ _ _ E1). specialize (F a _ _ _ E). lia.
Qed.
Lemma costs_aset {A} n (l : list A) i v : 0 <= n -> costs n (aset l i v).
Proof. intros N. unfold aset. destruct (_ && _); [apply costs_ret; lia|]. intros d x d' E. discriminate. Qed.
Lemma costs_aget {A} n (l : list A) i : 0 <= n -> costs n (aget l i).
Proof. intros N. unfold aget. destruct (_ <=? _); [destruct (nth_error _ _); [apply costs_ret; lia|]|]; intros d x d' E; discriminate. Qed.
Lemma costs_for {S} (body : nat -> S -> prog S) : (forall i s, costs 0 (body i s)) -> forall n i s, costs 0 (forP n i body s).
Proof.
  intros H. induction n as [|n IH]; intros i s; cbn [forP]; [apply costs_ret; lia|]. apply (costs_bind 0); [apply H|]. intros a. apply IH.
Qed.
Lemma costs_lens fuel : forall gd i off gl, costs 0 (grp_lens fuel gd i off gl).
Proof.
  induction fuel as [|f IH]; intros; cbn [grp_lens]; [intros d x d' E; discriminate|].
  apply (costs_bind 0); [apply costs_aget; lia|]. intros g. apply (costs_bind 0); [apply costs_aset; lia|]. intros l. destruct (g <? 8); [apply IH|apply costs_ret; lia].
Qed.
Lemma costs_ics nl ws prev w si : costs 14 (ics_info nl ws prev w si).
Proof.
  unfold ics_info. apply (costs_bind 2); [apply costs_rd; lia|]. intros c. cbv zeta. destruct (_ =? -1); [apply costs_ret; lia|].
  apply (costs_bind 1); [apply costs_rd; lia|]. intros sh. destruct (_ =? 2).
  - apply (costs_bind 4); [apply costs_rd; lia|]. intros m. apply (costs_bind 7); [apply costs_rd; lia|]. intros g. destruct (_ <? m); [apply costs_ret; lia|].
    apply (costs_bind 0).
    { unfold grp_ends. apply (costs_bind 0); [apply costs_for; intros i [p l]; destruct (Z.testbit _ _); [apply costs_ret; lia|]; apply (costs_bind 0); [apply costs_aset; lia|intros; apply costs_ret; lia]|].
      intros [p l]. apply costs_aset; lia. }
    intros gd. apply (costs_bind 0); [|intros; apply costs_ret; lia]. unfold calc_grp_offset. apply (costs_bind 0); [apply costs_lens|]. intros [ng gl].
    apply (costs_bind 0); [|intros; apply costs_ret; lia]. unfold grp_offsets. apply (costs_bind 0); [|intros [[? ?] ?]; apply costs_ret; lia].
    apply costs_for. intros i st. apply (costs_bind 0); [apply costs_aget; lia|]. intros l. apply costs_for. intros b [[? ?] ?]. unfold grp_band.
    apply (costs_bind 0); [apply costs_aget; lia|]. intros w1. apply (costs_bind 0); [apply costs_aset; lia|intros; apply costs_ret; lia].
  - apply (costs_bind 6); [apply costs_rd; lia|]. intros m. apply (costs_bind 0); [apply costs_aset; lia|]. intros gd. destruct (nl <? m); apply costs_ret; lia.
Qed.
Lemma costs_front nl ws nf cw second prev w si : costs 30 (chan_window nl ws nf cw second prev w si).
Proof.
  unfold chan_window. apply (costs_bind 8); [apply costs_rd; lia|]. intros g. apply (costs_bind 8); [destruct (nf =? 0); [apply costs_ret; lia|apply costs_rd; lia]|]. intros lev. cbv zeta.
  destruct (negb (cw =? 0)); [destruct second; apply costs_ret; lia|]. apply (costs_bind 14); [apply costs_ics|]. intros [e [w' si']]. destruct (negb (e =? 0)); apply costs_ret; lia.
Qed.
Lemma costs_spec ltbl w si : costs 0 (chan_spec ltbl w si).
Proof.
  unfold chan_spec. destruct (0 <? _); [|apply costs_ret; lia]. destruct (islong _); [apply costs_aget; lia|]. apply (costs_bind 0); [apply costs_aget; lia|]. intros t.
  apply (costs_bind 0); [apply costs_aget; lia|]. intros n. destruct (n =? 0); [intros d x d' E; discriminate|apply costs_ret; lia].
Qed.
Lemma costs_tools indep base3b cl long lt ca : costs 23 (chan_tools indep base3b cl long lt ca).
Proof.
  unfold chan_tools. apply (costs_bind 12).
  { destruct (negb (cl =? 0)); [apply costs_ret; lia|]. apply (costs_bind 1); [apply costs_rd; lia|]. intros on. destruct (on =? 0); [apply costs_ret; lia|]. destruct (base3b =? 1); [apply costs_ret; lia|].
    apply (costs_bind 9); [apply costs_rd; lia|]. intros lag. apply (costs_bind 2); [apply costs_rd; lia|]. intros; apply costs_ret; lia. }
  intros [e l]. destruct (negb (e =? 0)); [apply costs_ret; lia|]. apply (costs_bind 9).
  { destruct (long && _); [|apply costs_ret; lia]. apply (costs_bind 1); [apply costs_rd; lia|]. intros on. destruct (on =? 0); [apply costs_ret; lia|]. destruct (base3b =? 1); [apply costs_ret; lia|].
    apply (costs_bind 8); [apply costs_rd; lia|]. intros; apply costs_ret; lia. }
  intros [e2 f]. destruct (negb (e2 =? 0)); [apply costs_ret; lia|]. apply (costs_bind 1); [destruct (indep =? 0); [apply costs_ret; lia|apply costs_rd; lia]|]. intros pa.
  apply (costs_bind 1); [apply costs_rd; lia|]. intros; apply costs_ret; lia.
Qed.

(** ** Any bits *)
Lemma stepw {A} (p : prog A) Q n d : wf d -> ends_at d -> wp p Q -> costs n p ->
  (exists a d', exec p d = Done (a, d') /\ Q a /\ wf d' /\ ends_at d' /\ r_cnt d - n <= r_cnt d') \/ (exists c, exec p d = Jmp c).
Proof.
  intros W EA H C. assert (X := wp_exec p Q d H W). destruct (exec p d) as [[a d']| c |] eqn:E; [left|right; eauto|contradiction].
  exists a, d'. destruct X as (X1 & X2 & _). split; [reflexivity|]. split; [exact X1|]. split; [exact X2|]. split; [|apply (C _ _ _ E)].
  destruct (exec_const _ _ _ _ (wp_supported _ _ H) W E) as [D1 D2]. unfold ends_at in *. rewrite D1. lia.
Qed.

Lemma chan_safe indep base3b nl ws ltbl full nf cw cl tp second prev s d :
  0 < nl < 64 -> (0 < len ws <= 15)%nat -> (Z.to_nat nl <= len ltbl)%nat -> cst_dim s -> low (k_fac s) ->
  ((cw =? 0) = false -> good nl (len ws) (k_w s) (k_si s)) -> wf d -> ends_at d -> 2400 <= r_cnt d ->
  match chan_head indep base3b nl ws ltbl full nf cw cl tp second prev s d with
  | Done (e, (s', _), _) => e = 0 -> cst_dim s' /\ low (k_fac s') /\ good nl (len ws) (k_w s') (k_si s')
  | Jmp _ => True
  | UB _ => False
  end.
Proof.
  intros N1 N2 LT (D1 & D2 & D3 & D4) LO GD W EA C. unfold chan_head.
  destruct (stepw _ _ _ d W EA (wp_front nl ws nf cw second prev (k_w s) (k_si s) ltac:(lia) D1 D2 GD) (costs_front _ _ _ _ _ _ _ _)) as [(x & d1 & E1 & Q1 & W1 & EA1 & C1)|(c & E1)];
    rewrite E1; cbn [obind]; [|exact I].
  destruct x as [e ((((gain & lev) & fill) & w) & si)]. destruct Q1 as (GR & L8 & SD & GO).
  destruct (Z.eqb_spec e 0) as [->|NE]; cbn [negb]; [|intros X; contradiction]. specialize (GO eq_refl).
  destruct (chan_near_end full d1); [discriminate|]. cbv zeta. cbn [k_w k_si k_lt k_pa k_ca k_fac k_t].
  destruct (stepw _ _ _ d1 W1 EA1 (wp_spec nl ws ltbl w si ltac:(lia) ltac:(lia) LT SD GO) (costs_spec _ _ _)) as [(sx & d2 & E2 & _ & W2 & EA2 & C2)|(c & E2)];
    rewrite E2; cbn [obind]; [|exact I].
  destruct (stepw _ _ _ d2 W2 EA2 (wp_tools indep base3b cl (islong (w_seq w)) (k_lt s) (k_ca s)) (costs_tools _ _ _ _ _ _)) as [(y & d3 & E3 & _ & W3 & EA3 & C3)|(c & E3)];
    rewrite E3; cbn [obind]; [|exact I].
  destruct y as [e (((lt & fdp) & pa) & ca)]. destruct (Z.eqb_spec e 0) as [->|NE]; cbn [negb]; [|intros X; contradiction].
  assert (GO' := GO). destruct GO' as [(S4 & gs & tail & EG & P & LG & X) Y].
  assert (G0 : Forall (fun g => 0 <= g) gs) by (eapply Forall_impl; [|exact P]; cbn; lia).
  set (long := islong (w_seq w)) in *. set (nsb := Z.to_nat (if long then nl else Z.of_nat (len ws))).
  assert (NW : (if long then 1 else 8) = Z.of_nat (list_sum (map Z.to_nat gs))).
  { rewrite sum_same by exact G0. unfold long, islong. destruct (w_seq w =? 2); cbn [negb]; [symmetry; apply X|]. destruct X as [_ ->]. reflexivity. }
  assert (MX : (len gs * Z.to_nat (w_max w) <= 120)%nat).
  { destruct (w_seq w =? 2); [nia|]. destruct X as [X1 ->]. cbn. lia. }
  destruct (scf_safe long nsb (Z.to_nat (w_max w)) (map Z.to_nat gs) tail gain (k_fac s) d3 W3 (or_introl EA3)) as (e & fac' & d4 & E4 & EE & W4 & C4 & F4).
  { apply Forall_forall. intros n I0. apply in_map_iff in I0. destruct I0 as (g & <- & I0). rewrite Forall_forall in P. specialize (P g I0). cbn in P. lia. }
  { rewrite map_length. lia. }
  { assert (list_sum (map Z.to_nat gs) = if long then 1 else 8)%nat by (destruct long; lia). rewrite H, D3. unfold nsb. destruct long; lia. }
  { lia. } { exact LO. } { rewrite map_length. lia. }
  rewrite ends_same, <- EG, <- NW in E4 by exact G0. fold nsb. rewrite E4. cbn [obind].
  destruct (Z.eqb_spec e 0) as [->|NE]; cbn [negb]; [|intros X0; contradiction]. destruct (F4 eq_refl) as [F5 F6].
  assert (T := wp_exec _ _ d4 (wp_tail indep nl (Z.of_nat (len ws)) tp long (k_t s) D4) W4).
  destruct (exec (chan_tail indep nl (Z.of_nat (len ws)) tp long (k_t s)) d4) as [[[e5 [t r]] d5]| |]; cbn [obind]; [|exact I|contradiction].
  intros _. destruct T as (T & _). cbn [fst snd] in T. unfold cst_dim. cbn [k_w k_si k_fac k_t]. sp; auto. lia.
Qed.

(** ** A channel of a pair, after the pair's header *)
Definition chan_of (second : bool) (p : pst) (pa ca : Z) (fac : list Z) : cst :=
  if second then mkCst (p_wr p) (p_si p) (p_lr p) pa ca fac (p_tr p) else mkCst (p_wl p) (p_si p) (p_ll p) pa ca fac (p_tl p).

(** What is sent for a channel agrees with what was sent for the pair. *)
Definition of_pair (second : bool) (hp : pair) (v : winfo) (h : chan) : Prop :=
  match y_shared hp with
  | None => x_win h = Some v
  | Some z => x_win h = None /\ v = (if second then with_max (z_win z) (right_bands z) else z_win z)
  end /\
  (x_ltpf h = None <-> y_ltpf hp <> None) /\
  match y_tns hp with
  | NoTns => x_tns h = NoFilters
  | CommonTns _ _ => x_tns h = SharedFilters
  | OwnTns _ w => if (match w with Both => true | LeftOnly => negb second | RightOnly => second end) then exists l, x_tns h = OwnFilters l else x_tns h = NoFilters
  end.

Lemma chan_in_pair (indep : bool) base3b offs nl ltbl full second prev hp p v h pa ca fac :
  bands_ok offs nl -> (Z.to_nat nl <= len ltbl)%nat -> holds_pair offs nl prev hp p -> cst_dim (chan_of second p pa ca fac) ->
  of_pair second hp v h -> valid_chan nl (Z.of_nat (len offs)) indep v h -> (base3b = 1 -> plain h) ->
  forall d rest, wf d -> ends_at d -> rest_bits d = enc_chan indep (long_win v) h ++ rest ->
  (full = true -> 24 < len (enc_back indep (long_win v) h ++ rest))%nat ->
  exists s' o d', chan_head (b2z indep) base3b nl (widths 0 offs) ltbl full (b2z (has (x_noise h))) (h_cw p) (h_cl p)
      (if second then h_d1 p else h_d0 p) second prev (chan_of second p pa ca fac) d = Done (0, (s', o), d') /\ rest_bits d' = rest /\
    holds_chan offs nl ltbl indep second prev v h (chan_of second p pa ca fac) s' o.
Proof.
  intros B LT (HS & HL & HT) CD (O1 & O2 & O3) V PL d rest W EA R F.
  assert (CW : h_cw p = b2z (negb (has (x_win h)))).
  { destruct (y_shared hp) as [z|]; [destruct O1 as [O1 _]|]; rewrite O1; destruct HS as [HS _]; rewrite HS; reflexivity. }
  assert (CL : h_cl p = b2z (negb (has (x_ltpf h)))).
  { unfold holds_ltpf in HL. destruct (x_ltpf h) as [y|]; cbn [has negb b2z]; destruct (y_ltpf hp) as [[[lag gain]|]|]; try apply HL; exfalso.
    - destruct O2 as [_ O2]. assert (Some y = None) by (apply O2; discriminate). discriminate.
    - destruct O2 as [_ O2]. assert (Some y = None) by (apply O2; discriminate). discriminate.
    - apply (proj1 O2); reflexivity. }
  assert (TP : (if second then h_d1 p else h_d0 p) = tns_code (x_tns h)).
  { unfold holds_ptns in HT. destruct (y_tns hp) as [|lr l|lr w].
    - rewrite O3. destruct HT as (_ & H0 & H1). rewrite H0, H1. destruct second; reflexivity.
    - rewrite O3. destruct HT as (_ & _ & _ & _ & H0 & H1). rewrite H0, H1. destruct second; reflexivity.
    - destruct HT as (_ & _ & H0 & H1). rewrite H0, H1. destruct w, second; cbn [negb] in O3; (match type of O3 with ex _ => destruct O3 as [l O3] | _ => idtac end); rewrite O3; reflexivity. }
  rewrite CW, CL, TP.
  destruct (chan_exec indep base3b offs nl ltbl full second prev v h (chan_of second p pa ca fac)) with (d := d) (rest := rest) as (s' & o & d' & X1 & X2 & _ & X3 & _); auto.
  { intros XN. destruct (y_shared hp) as [z|]; [|rewrite XN in O1; discriminate]. destruct O1 as [_ ->]. destruct HS as [_ (H1 & H2 & H3 & _)].
    assert (LF : v_code (z_win z) = 2 -> long_win (z_win z) = false) by (unfold long_win; intros ->; reflexivity).
    destruct second; unfold chan_of; cbn [k_w k_si]; split; auto. }
  eauto 10.
Qed.

(** ** Cases *)
Definition cst0 : cst := mkCst win0 si0 (mkLt 0 0 0) 0 0 (repeat 0 128) tns0.
Lemma dim_cst0 : cst_dim cst0.
Proof. split; [reflexivity|]. split; [split; reflexivity|]. split; [reflexivity|exact dim_tns0]. Qed.

Definition case_win : winfo := mkWinfo 2 1 3 [false; true; true; true; false; true; true].
Definition case_chan : chan := mkChan 100 (Some (mkNoise 0 13)) (Some case_win) (Some (Some (300, 2))) None true false case_rows
  (OwnFilters (mkSw true [mkSf 5 1 false [3; -8; 7]] :: repeat (mkSw false []) 7)) true.
Lemma case_chan_valid : valid_chan 49 14 true case_win case_chan.
Proof.
  unfold valid_chan, valid_win. cbn. sp; try lia; auto; try reflexivity.
  - apply Lem_CoreScfSafe.case_valid.
  - unfold valid_tns, valid_twin, valid_filt. cbn. split; [reflexivity|]. repeat constructor; cbn; lia.
  - unfold above. repeat constructor; cbn; lia.
Qed.

(** The right channel of a pair with a shared window. *)
Definition case_right : chan := mkChan 90 (Some (mkNoise 0 13)) None None (Some 77) false true [[90; 80]] SharedFilters false.
Definition case_right_win : winfo := mkWinfo 1 0 2 [].
Lemma case_right_valid : valid_chan 49 14 false case_right_win case_right.
Proof. unfold valid_chan, valid_win, valid_factors. cbn. sp; try lia; auto; try discriminate; try (repeat constructor). Qed.

(** Nothing but gain, window and a few flags. *)
Definition case_quiet : chan := mkChan 0 None (Some (mkWinfo 0 0 0 [])) (Some None) None false false [[]] NoFilters true.
Lemma case_quiet_valid : valid_chan 49 14 true (mkWinfo 0 0 0 []) case_quiet.
Proof. unfold valid_chan, valid_win, valid_factors. cbn. sp; try lia; auto; try discriminate; try (repeat constructor). Qed.
