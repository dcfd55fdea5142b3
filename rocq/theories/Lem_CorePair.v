(** * Lem_CorePair: the header of a channel pair is read as sent *)

From Coq Require Import ZArith List Lia Bool.
From Verif Require Import Bits BitBuf Prog Wp Loops Config CoreIcs CoreSte CorePair Spec_CoreIcs Lem_Asi Spec_Asi Lem_AsiRT Lem_MctBand
  Lem_CoreIcs Lem_CoreTns Spec_CoreSte Lem_CoreSte Spec_CorePair.
Import ListNotations.
Open Scope list_scope.
Open Scope Z_scope.

Lemma run1 {A} b (k : Z -> prog A) rest : runA (bind (rd 1) k) (b :: rest) = runA (k (b2z b)) rest.
Proof. change (b :: rest) with ([b] ++ rest). rewrite one_flag. apply runA_flag. Qed.

Definition with_max (v : winfo) (n : Z) : winfo := mkWinfo (v_code v) (v_shape v) n (v_same v).

Definition holds_shared (offs : list Z) (nl prev : Z) (z : shared) (s : pst) : Prop :=
  let v := z_win z in
  let nsb := if long_win v then Z.to_nat nl else len offs in
  holds_win prev v (p_wl s) /\ holds_win prev (with_max v (right_bands z)) (p_wr s) /\
  (long_win v = false -> holds_groups offs (groups v) (p_si s)) /\
  h_mste s = Z.of_nat (sent_bands z) /\ h_mask s = mask_code (z_ste z) /\
  match z_ste z with
  | Predicted q => holds_pred (sent_bands z) q (p_ste s)
  | LeftRight => True
  | x => holds_ms (len (groups v)) (sent_bands z) nsb x (p_ms s)
  end.

Definition holds_ltpf (x : option (option (Z * Z))) (s : pst) : Prop :=
  match x with
  | None => h_cl s = 0
  | Some None => h_cl s = 1 /\ lt_on (p_ll s) = 0 /\ lt_on (p_lr s) = 0
  | Some (Some (lag, gain)) => h_cl s = 1 /\ p_ll s = mkLt 1 lag gain /\ p_lr s = mkLt 1 lag gain
  end.

Definition holds_ptns (bands : Z) (x : ptns) (s : pst) : Prop :=
  match x with
  | NoTns => h_ctns s = 0 /\ h_d0 s = 0 /\ h_d1 s = 0
  | CommonTns lr l => h_ctns s = 1 /\ h_onlr s = b2z lr /\ holds_tns bands l (p_tl s) /\ p_tr s = p_tl s /\ h_d0 s = 2 /\ h_d1 s = 2
  | OwnTns lr w => h_ctns s = 0 /\ h_onlr s = b2z lr /\
      h_d0 s = (match w with RightOnly => 0 | _ => 1 end) /\ h_d1 s = (match w with LeftOnly => 0 | _ => 1 end)
  end.

Definition tns_bands (offs : list Z) (nl : Z) (h : pair) : Z :=
  match y_shared h with Some z => if long_win (z_win z) then nl else Z.of_nat (len offs) | None => nl end.

Definition holds_pair (offs : list Z) (nl prev : Z) (h : pair) (s : pst) : Prop :=
  match y_shared h with
  | None => h_cw s = 0 /\ h_mask s = 0
  | Some z => h_cw s = 1 /\ holds_shared offs nl prev z s
  end /\ holds_ltpf (y_ltpf h) s /\ holds_ptns (tns_bands offs nl h) (y_tns h) s.

Definition pst_dim (s : pst) : Prop :=
  len (w_gd (p_wl s)) = 8%nat /\ si_dim (p_si s) /\ ste_dim (p_ste s) /\ len (p_ms s) = 128%nat /\ dim_tns (p_tl s).

Lemma prev_zero : holds_prev [] (repeat 0 136) (repeat 0 136).
Proof.
  split; [apply repeat_length|]. split; [apply repeat_length|]. intros b B.
  rewrite !nth_error_repeat by lia. destruct b; auto.
Qed.

(** The table of bands: up to 15 bands of a short window, up to 63 of a long one. *)
Definition bands_ok (offs : list Z) (nl : Z) : Prop :=
  (0 < len offs <= 15)%nat /\ 0 < nl < 64 /\ Forall (fun o => 0 <= o <= 128) offs.

Lemma shared_run indep enf0 offs nl prev z ref s rest : bands_ok offs nl -> pst_dim s ->
  valid_shared nl (Z.of_nat (len offs)) indep ref z -> holds_prev ref (c_rp (p_ste s)) (c_ip (p_ste s)) ->
  c_cplx (p_ste s) = 0 -> (enf0 = 1 -> match z_ste z with Predicted q => q_cplx q = false | _ => True end) ->
  exists s', runA (pair_window (b2z indep) enf0 nl (widths 0 offs) prev s) (enc_shared indep ref z ++ rest) = Done ((0, s'), rest) /\
    holds_shared offs nl prev z s' /\ pst_dim s' /\ holds_prev (next_ref ref (z_ste z)) (c_rp (p_ste s')) (c_ip (p_ste s')) /\
    p_tl s' = p_tl s /\ p_tr s' = p_tr s /\ p_ll s' = p_ll s /\ p_lr s' = p_lr s /\ h_ta s' = h_ta s /\ h_cw s' = h_cw s /\
    islong (w_seq (p_wl s')) = long_win (z_win z).
Proof.
  intros (B1 & B2 & B3) (D1 & D2 & D3 & D4 & D5) (V1 & V2 & V3) PR C0 EN.
  unfold pair_window, enc_shared. rewrite <- !app_assoc. rewrite runA_bind.
  set (v := z_win z) in *.
  destruct (ics_run nl offs prev v (p_wl s) (p_si s)
     ((match z_right z with None => [true] | Some n => [false] ++ bits_of (if long_win v then 6 else 4) n end) ++ enc_stereo indep ref (z_ste z) ++ rest)
     V1 D1 D2 ltac:(lia) ltac:(lia) B3) as (wl & si & X & HW & DS & HG).
  rewrite X. cbv beta iota. change (negb (0 =? 0)) with false. cbv iota. clear X.
  destruct HW as (W1 & W2 & W3 & W4 & W5).
  assert (VC : 0 <= v_code v < 4) by apply V1.
  assert (IL : (w_seq wl =? 2) = (v_code v =? 2)) by (rewrite W1; apply meant_two; exact VC).
  set (r := right_bands z) in *.
  assert (RB : forall A (k : Z -> Z -> prog A) bs, runA (bind (rd 1) (fun cm =>
      bind (if cm =? 1 then Ret (w_max wl) else if negb (w_seq wl =? 2) then rd 6 else rd 4) (k cm)))
      ((match z_right z with None => [true] | Some n => [false] ++ bits_of (if long_win v then 6 else 4) n end) ++ bs) =
      runA (k (match z_right z with None => 1 | Some _ => 0 end) r) bs).
  { intros A k bs. unfold r, right_bands in *. destruct (z_right z) as [n|].
    - rewrite <- app_assoc. rewrite one_flag, runA_flag. cbn [b2z]. change (0 =? 1) with false. cbv iota. rewrite IL. unfold long_win in *.
      destruct (v_code v =? 2); cbn [negb] in *; [rewrite (runA_rdb 4 4)|rewrite (runA_rdb 6 6)]; try reflexivity; lia.
    - rewrite one_flag, runA_flag. cbn [b2z]. change (1 =? 1) with true. cbv iota. rewrite W3. reflexivity. }
  cbv zeta. rewrite RB. clear RB.
  set (m := Z.max (w_max wl) r). assert (Em : Z.to_nat m = sent_bands z) by (unfold m, sent_bands; rewrite W3; reflexivity).
  assert (VM : 0 <= v_max v <= (if long_win v then nl else Z.of_nat (len offs))).
  { destruct V1 as (_ & _ & V1 & V4). unfold long_win. destruct (v_code v =? 2); cbn [negb]; lia. }
  assert (E64 : islong (w_seq wl) = long_win v) by (unfold islong, long_win; rewrite IL; reflexivity).
  rewrite E64, widths_len. set (nsb := if long_win v then nl else Z.of_nat (len offs)) in *.
  set (gs := groups v) in *.
  assert (GN : Z.to_nat (if long_win v then 1 else g_num si) = len gs).
  { unfold gs, groups, long_win. destruct (v_code v =? 2) eqn:E2; cbn [negb]; [|reflexivity]. destruct HG as [HG _]. rewrite HG, Nat2Z.id. unfold gs, groups. rewrite E2. reflexivity. }
  assert (GF : zsum gs = (if long_win v then 1 else 8) /\ Forall (fun g => 0 < g) gs /\ (1 <= len gs <= 8)%nat /\ (long_win v = true -> len gs = 1%nat)).
  { unfold gs, groups, long_win. destruct (v_code v =? 2) eqn:E2; cbn [negb].
    - destruct V1 as (_ & _ & _ & V1). rewrite E2 in V1. destruct (runs_facts (v_same v) (proj2 V1)) as (F1 & F2 & F3).
      split; [exact F1|]. split; [|split; [exact F3|discriminate]]. eapply Forall_impl; [|exact F2]. cbn. lia.
    - repeat split; auto; repeat constructor; lia. }
  destruct GF as (G1 & G2 & G3 & G4).
  assert (GD : w_gd wl = ends 0 gs ++ skipn (len gs) (w_gd wl)) by (rewrite <- W4; symmetry; apply firstn_skipn).
  assert (NB : (sent_bands z <= Z.to_nat nsb)%nat) by (rewrite <- Em; unfold m; rewrite W3; lia).
  assert (NB2 : 0 <= nsb <= 63 /\ (long_win v = false -> nsb <= 15)) by (unfold nsb; destruct (long_win v); split; try lia; intros; try discriminate; lia).
  rewrite GN, Em, runA_bind.
  destruct (mask_run indep (sent_bands z) (Z.to_nat nsb) (if long_win v then 1 else 8) gs (skipn (len gs) (w_gd wl)) ref (z_ste z) (p_ste s) (p_ms s) rest) as (st & ms & Y & M1 & M2 & M3 & M4 & M5); auto; try lia.
  { destruct (long_win v); [rewrite (G4 eq_refl); lia|]. destruct NB2 as [_ NB2]. specialize (NB2 eq_refl). nia. }
  rewrite <- GD in Y. rewrite Y. cbv beta iota.
  assert (CP : (enf0 =? 1) && negb (c_cplx st =? 0) = false).
  { destruct (Z.eqb_spec enf0 1) as [EE|]; [|reflexivity]. specialize (EN EE). cbn [andb]. destruct (z_ste z); try (subst st; rewrite C0; reflexivity).
    destruct M4 as (_ & M4 & _). rewrite M4, EN. reflexivity. }
  rewrite CP. eexists. split; [reflexivity|].
  cbn [p_wl p_wr p_si p_ste p_ms p_tl p_tr p_ll p_lr h_ta h_cw h_mste h_mask]. split; [|split; [|split; [exact M1|]]].
  - unfold holds_shared. fold v. cbv zeta. cbn [p_wl p_wr p_si p_ste p_ms h_mste h_mask].
    split; [split; [exact W1|]; split; [exact W2|]; split; [exact W3|]; split; [exact W4|exact W5]|].
    split. { fold r. replace (nsb <? r) with false by (symmetry; apply Z.ltb_ge; lia). split; [exact W1|]. split; [exact W2|]. split; [reflexivity|]. split; [exact W4|exact W5]. }
    split. { intros LW. unfold long_win in LW. destruct (v_code v =? 2); [exact HG|discriminate]. }
    split. { rewrite <- Em. rewrite Z2Nat.id; [reflexivity|]. unfold m. lia. }
    split; [reflexivity|].
    replace (if long_win v then Z.to_nat nl else len offs) with (Z.to_nat nsb) by (unfold nsb; destruct (long_win v); [|rewrite Nat2Z.id]; reflexivity).
    fold gs. destruct (z_ste z); auto.
  - split; [exact W5|]. split; [exact DS|]. split; [exact M2|]. split; [exact M3|exact D5].
  - repeat split; auto.
Qed.

Lemma ltpf_run base3b x s rest : (base3b = 1 -> x = None) ->
  match x with Some (Some (lag, gain)) => 0 <= lag < 512 /\ 0 <= gain < 4 | _ => True end ->
  exists s', runA (pair_ltpf base3b s)
    (match x with None => [false] | Some None => [true; false] | Some (Some (lag, gain)) => [true; true] ++ bits_of 9 lag ++ bits_of 2 gain end ++ rest) = Done ((0, s'), rest) /\
    holds_ltpf x s' /\ p_wl s' = p_wl s /\ p_wr s' = p_wr s /\ p_si s' = p_si s /\ p_ste s' = p_ste s /\ p_ms s' = p_ms s /\ p_tl s' = p_tl s /\ p_tr s' = p_tr s /\
    h_ta s' = h_ta s /\ h_cw s' = h_cw s /\ h_mste s' = h_mste s /\ h_mask s' = h_mask s.
Proof.
  intros B V. unfold pair_ltpf. cbv zeta.
  assert (NB : x <> None -> (base3b =? 1) = false) by (intros N; apply Z.eqb_neq; intros E; apply N; auto).
  destruct x as [[[lag gain]|]|].
  - change ([true; true] ++ bits_of 9 lag ++ bits_of 2 gain) with ([true] ++ [true] ++ bits_of 9 lag ++ bits_of 2 gain). rewrite <- !app_assoc. rewrite one_flag, runA_flag.
    cbn [b2z]. change (1 =? 0) with false. cbv iota. rewrite NB by discriminate. rewrite runA_flag. cbn [b2z]. change (1 =? 0) with false. cbv iota.
    rewrite (runA_rdb 9 9) by (try reflexivity; lia). rewrite (runA_rdb 2 2) by (try reflexivity; lia). eexists. split; [reflexivity|]. cbn. repeat split; auto.
  - change ([true; false] ++ rest) with ([true] ++ [false] ++ rest). rewrite one_flag, runA_flag.
    cbn [b2z]. change (1 =? 0) with false. cbv iota. rewrite NB by discriminate. rewrite one_flag, runA_flag. cbn [b2z]. change (0 =? 0) with true. cbv iota.
    eexists. split; [reflexivity|]. cbn. repeat split; auto.
  - rewrite one_flag, runA_flag. cbn [b2z]. change (0 =? 0) with true. cbv iota. eexists. split; [reflexivity|]. cbn. repeat split; auto.
Qed.

Lemma ptns_run offs nl h info0 s rest : bands_ok offs nl -> dim_tns (p_tl s) ->
  h_ta s = b2z (match y_tns h with NoTns => false | _ => true end) -> h_cw s = b2z (match y_shared h with None => false | _ => true end) ->
  match y_tns h with CommonTns _ l => match y_shared h with None => False | Some z =>
     valid_tns (long_win (z_win z)) l /\ Forall (above (if long_win (z_win z) then nl else Z.of_nat (len offs))) l /\ info0 = Some (long_win (z_win z)) end | _ => True end ->
  exists s', runA (pair_tns nl (widths 0 offs) info0 s)
   (match y_tns h with
    | NoTns => []
    | CommonTns lr l => [true; lr] ++ enc_tns (match y_shared h with Some z => long_win (z_win z) | None => true end) l
    | OwnTns lr w => (match y_shared h with None => [] | Some _ => [false] end) ++ [lr] ++
      match w with Both => [true] | LeftOnly => [false; false] | RightOnly => [false; true] end
    end ++ rest) = Done ((0, s'), rest) /\ holds_ptns (tns_bands offs nl h) (y_tns h) s' /\ dim_tns (p_tl s') /\
    p_wl s' = p_wl s /\ p_wr s' = p_wr s /\ p_si s' = p_si s /\ p_ste s' = p_ste s /\ p_ms s' = p_ms s /\ p_ll s' = p_ll s /\ p_lr s' = p_lr s /\
    h_cw s' = h_cw s /\ h_mste s' = h_mste s /\ h_mask s' = h_mask s /\ h_cl s' = h_cl s.
Proof.
  intros (B1 & B2 & B3) D TA CW V. unfold pair_tns. cbv zeta. rewrite TA, CW.
  destruct (y_tns h) as [|lr l|lr w]; cbn [b2z].
  - change (0 =? 0) with true. cbv iota. eexists. split; [reflexivity|]. cbn. repeat split; auto; apply D.
  - destruct (y_shared h) as [z|] eqn:ES; [|contradiction]. destruct V as (V1 & V2 & ->). cbn [b2z]. change (1 =? 0) with false. cbv iota.
    change ([true; lr] ++ ?x) with ([true] ++ [lr] ++ x). rewrite <- !app_assoc. rewrite one_flag, runA_flag. rewrite one_flag, runA_flag. cbn [b2z]. change (1 =? 0) with false. cbv iota.
    rewrite widths_len, runA_bind.
    destruct (tns_run nl (Z.of_nat (len offs)) (long_win (z_win z)) l (p_tl s) rest V1 V2 ltac:(lia) ltac:(lia) D) as (t & X & H & D').
    rewrite X. cbv beta iota. change (negb (0 =? 0)) with false. cbv iota. eexists. split; [reflexivity|]. unfold tns_bands. rewrite ES. cbn. repeat split; auto; try apply H; apply D'.
  - change (1 =? 0) with false. cbv iota. destruct (y_shared h) as [z|]; cbn [b2z]; [change (1 =? 0) with false|change (0 =? 0) with true]; cbv iota; cbn [bind];
    destruct w; cbn [app]; rewrite ?run1; cbn [b2z]; change (0 =? 0) with true; cbv iota; rewrite run1; cbn [b2z];
    change (negb (1 =? 0)) with true; change (negb (0 =? 0)) with false; cbv iota; rewrite ?run1;
    (eexists; split; [reflexivity|]); cbn; repeat split; auto; apply D.
Qed.

(** ** The whole header *)
Lemma pair_run (indep : bool) base3b enf0 offs nl prev (first : bool) info0 ref h s rest : bands_ok offs nl -> pst_dim s ->
  valid_pair nl (Z.of_nat (len offs)) indep (start indep ref) h -> holds_prev ref (c_rp (p_ste s)) (c_ip (p_ste s)) ->
  (base3b = 1 -> y_ltpf h = None) -> (enf0 = 1 -> uses_complex h = false) ->
  (match y_tns h, y_shared h with CommonTns _ _, Some z => first = true \/ info0 = Some (long_win (z_win z)) | _, _ => True end) ->
  exists s', runA (pair_head (b2z indep) base3b enf0 nl (widths 0 offs) prev first info0 s) (enc_pair indep (start indep ref) h ++ rest) = Done ((0, s'), rest) /\
    holds_pair offs nl prev h s' /\ holds_prev (next_coefs indep ref h) (c_rp (p_ste s')) (c_ip (p_ste s')) /\ pst_dim s'.
Proof.
  intros B D (V1 & V2 & V3) PR BL EN TN. unfold pair_head, enc_pair. rewrite <- !app_assoc.
  destruct D as (D1 & D2 & D3 & D4 & D5).
  set (ltp := match y_ltpf h with None => [false] | Some None => [true; false] | Some (Some (lag, gain)) => [true; true] ++ bits_of 9 lag ++ bits_of 2 gain end) in *.
  set (tnb := match y_tns h with NoTns => [] | CommonTns lr l => _ | OwnTns lr w => _ end).
  cbn [app]. rewrite !run1. cbv zeta.
  set (ta := b2z match y_tns h with NoTns => false | _ => true end).
  destruct (y_shared h) as [z|] eqn:ES.
  - cbn [b2z]. change (1 =? 0) with false. cbv iota. cbn [orb].
    set (c := mkSte _ _ _ _ _ 0 0 0).
    set (s0 := mkPst _ _ _ c _ _ _ _ _ ta 1 0 0 0 0 0 1 0 0 0).
    destruct (shared_run indep enf0 offs nl prev z (start indep ref) s0 (ltp ++ tnb ++ rest)) as (s1 & X & H1 & H2 & H3 & H4 & H5 & H6 & H7 & H8 & H9 & H10); auto.
    { split; [exact D1|]. split; [exact D2|]. split; [exact D3|]. split; [exact D4|exact D5]. }
    { unfold s0, c. cbn [p_ste c_rp c_ip]. destruct indep; cbn [b2z start]; [change (negb (1 =? 0)) with true; apply prev_zero|change (negb (0 =? 0)) with false; exact PR]. }
    { intros E. specialize (EN E). unfold uses_complex in EN. rewrite ES in EN. destruct (z_ste z); auto. }
    rewrite runA_bind, X. cbv beta iota. change (negb (0 =? 0)) with false. cbv iota.
    destruct (ltpf_run base3b (y_ltpf h) s1 (tnb ++ rest) BL V2) as (s2 & Y & L0 & L1 & L2 & L3 & L4 & L5 & L6 & L7 & L8 & L9 & L10 & L11).
    fold ltp in Y. rewrite runA_bind, Y. cbv beta iota. change (negb (0 =? 0)) with false. cbv iota.
    destruct (ptns_run offs nl h (if first && negb false then Some (islong (w_seq (p_wl s2))) else info0) s2 rest B) as (s3 & Z3 & T0 & T1 & T2 & T3 & T4 & T5 & T6 & T7 & T8 & T9 & T10 & T11 & T12).
    { rewrite L6. apply H2. }
    { rewrite L8, H8. reflexivity. }
    { rewrite L9, H9, ES. reflexivity. }
    { destruct (y_tns h) as [|lr l|]; auto. rewrite ES. destruct V3 as [V3 V4]. split; [exact V3|]. split; [exact V4|].
      rewrite L1, H10. destruct TN as [->| ->]; [reflexivity|]. destruct first; reflexivity. }
    rewrite ES in Z3. fold tnb in Z3. exists s3. split; [exact Z3|].
    split; [|split].
    + unfold holds_pair. rewrite ES. split; [|split; [|exact T0]].
      * split; [rewrite T9, L9, H9; reflexivity|]. unfold holds_shared in *. cbv zeta in *. rewrite T2, T3, T4, T5, T6, T10, T11, L1, L2, L3, L4, L5, L10, L11. exact H1.
      * unfold holds_ltpf in *. rewrite T12, T7, T8. exact L0.
    + unfold next_coefs. rewrite ES, T5, L4. exact H3.
    + destruct H2 as (K1 & K2 & K3 & K4 & _). unfold pst_dim. rewrite T2, T4, T5, T6, L1, L3, L4, L5. auto.
  - cbn [b2z app]. change (0 =? 0) with true. cbv iota. cbn [orb bind]. change (0 =? 0) with true. cbn [negb]. cbv iota. rewrite andb_false_r.
    set (c := mkSte _ _ _ _ _ 0 0 0).
    set (s1 := mkPst _ _ _ c _ _ _ _ _ ta 0 0 0 0 0 0 1 0 0 0).
    destruct (ltpf_run base3b (y_ltpf h) s1 (tnb ++ rest) BL V2) as (s2 & Y & L0 & L1 & L2 & L3 & L4 & L5 & L6 & L7 & L8 & L9 & L10 & L11).
    fold ltp in Y. rewrite runA_bind, Y. cbv beta iota. change (negb (0 =? 0)) with false. cbv iota.
    destruct (ptns_run offs nl h info0 s2 rest B) as (s3 & Z3 & T0 & T1 & T2 & T3 & T4 & T5 & T6 & T7 & T8 & T9 & T10 & T11 & T12).
    { rewrite L6. exact D5. }
    { rewrite L8. reflexivity. }
    { rewrite L9, ES. reflexivity. }
    { destruct (y_tns h) as [|lr l|]; auto. rewrite ES. exact V3. }
    rewrite ES in Z3. fold tnb in Z3. exists s3. split; [exact Z3|].
    split; [|split].
    + unfold holds_pair. rewrite ES. split; [|split; [|exact T0]].
      * rewrite T9, L9, T11, L11. split; reflexivity.
      * unfold holds_ltpf in *. rewrite T12, T7, T8. exact L0.
    + unfold next_coefs. rewrite ES, T5, L4. apply prev_zero.
    + unfold pst_dim. rewrite T2, T4, T5, T6, L1, L3, L4, L5. auto.
Qed.
