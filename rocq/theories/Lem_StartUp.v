(** * Lem_StartUp: the first sample that is given out *)
From Coq Require Import ZArith List Lia Bool SpecFloat.
From Verif Require Import F32 Limiter Pcm Api Spec_Lim Spec_Pcm Lem_F32 Lem_PcmOut Lem_PcmMap Lem_Lim Spec_Api Lem_Api StartUp Spec_StartUp.
Import ListNotations.
Open Scope Z_scope.

(** ** Samples within the limit *)
Lemma quiet_value x : Spec_Lim.float32 x -> magnitude_le x limit_level -> finite x = true /\ below_full_scale x.
Proof.
  intros F M. unfold magnitude_le, f_le, SFleb, limit_level in M. destruct x as [s|s| |s m e]; cbn [SFabs] in M.
  - split; [reflexivity|]. cbn. exists 0. split; [reflexivity|reflexivity].
  - discriminate M.
  - discriminate M.
  - split; [reflexivity|]. cbn [below_full_scale]. eexists. split; [reflexivity|]. cbn [SFcompare] in M.
    destruct (valid_ok _ _ _ F) as (B1 & B2 & _).
    assert (E : e < -9 \/ (e = -9 /\ Zpos m <= 14952710)).
    { destruct (Z.compare_spec e (-9)) as [H|H|H]; [|left; exact H|discriminate M]. right. split; [exact H|]. revert M. fold (Pos.compare m 14952710). destruct (Pos.compare_spec m 14952710) as [H1|H1|H1]; intros M; [rewrite H1; lia|lia|discriminate M]. }
    assert (P : Zpos m * 2 ^ (e + 149) < 2 ^ 15 * 2 ^ 149).
    { destruct E as [E|[-> E]].
      - assert (2 ^ (e + 149) <= 2 ^ 139) by (apply Z.pow_le_mono_r; lia). assert (0 < 2 ^ (e + 149)) by (apply Z.pow_pos_nonneg; lia).
        change (2 ^ 15 * 2 ^ 149) with (2 ^ 24 * 2 ^ 140). assert (2 ^ 140 = 2 * 2 ^ 139) by reflexivity. nia.
      - change (-9 + 149) with 140. change (2 ^ 15 * 2 ^ 149) with (2 ^ 24 * 2 ^ 140). assert (0 < 2 ^ 140) by reflexivity. nia. }
    destruct s; [|rewrite Z.mul_1_l; exact P]. assert (0 <= Zpos m * 2 ^ (e + 149)) by (apply Z.mul_nonneg_nonneg; [lia|apply Z.pow_nonneg; lia]). assert (0 < 2 ^ 15 * 2 ^ 149) by reflexivity. lia.
Qed.

Definition good (nch : nat) (r : list f32) : Prop := length r = nch /\ Forall (fun x => Spec_Lim.float32 x /\ magnitude_le x limit_level) r.

Lemma quiet_good nch xs : quiet nch xs -> Forall (good nch) xs.
Proof.
  intros (S1 & Q). unfold signal in S1. rewrite Forall_forall in *. intros r Hr. destruct (S1 r Hr) as (L & F). split; [exact L|].
  specialize (Q r Hr). rewrite Forall_forall in *. intros x Hx. split; [apply F|apply Q]; exact Hx.
Qed.

(** ** Bytes *)
Lemma flat_map_nth {A B} (h : A -> list B) (a : A) l : flat_map h l = flat_map (fun i => h (nth i l a)) (seq 0 (length l)).
Proof.
  induction l as [|x l IH]; [reflexivity|]. cbn [flat_map length seq]. f_equal. rewrite IH. rewrite <- seq_shift, flat_map_concat_map, flat_map_concat_map, map_map. reflexivity.
Qed.
Lemma nth_skipn' {A} (l : list A) d i a : nth i (skipn d l) a = nth (d + i) l a.
Proof. revert l. induction d as [|d IH]; intros [|x l]; cbn; try reflexivity; [destruct i; reflexivity|apply IH]. Qed.
Lemma flat_map_ext_in {A B} (f g : A -> list B) l : (forall x, In x l -> f x = g x) -> flat_map f l = flat_map g l.
Proof. induction l as [|x l IH]; intros H; [reflexivity|]. cbn [flat_map]. rewrite (H x (or_introl eq_refl)), IH; [reflexivity|]. intros y Hy. apply H. right. exact Hy. Qed.

Lemma inter_rows b nch p word f d : 0 <= d ->
  interleaved b nch (fun j s => word (at_ f (p j) s)) d (Z.of_nat (length f)) = signal_bytes b nch p word (skipn (Z.to_nat d) f).
Proof.
  intros D. unfold interleaved, signal_bytes. rewrite (flat_map_nth _ []). rewrite skipn_length.
  replace (Z.to_nat (Z.of_nat (length f) - d)) with (length f - Z.to_nat d)%nat by lia. apply flat_map_ext_in. intros i Hi.
  unfold row_bytes. apply flat_map_ext_in. intros j Hj. unfold at_. rewrite nth_skipn'. do 4 f_equal. lia.
Qed.

Lemma inverse_ext m m' nch p : (forall c, 0 <= c < nch -> dest m' c = dest m c) -> inverse_map m nch p -> inverse_map m' nch p.
Proof.
  intros E I i Hi. destruct (I i Hi) as ((A1 & A2) & B1 & B2). rewrite (E i Hi), (E (p i) B1). auto.
Qed.

Lemma play_plain b nch p word : sizes3 b -> 0 <= nch <= 24 -> words b word -> forall ys l map d,
  0 <= d -> nch <= Z.of_nat (length map) -> inverse_map map nch p -> Forall (good (Z.to_nat nch)) (skipn (Z.to_nat d) (concat ys)) ->
  play false l b nch map d ys = Some (signal_bytes b nch p word (skipn (Z.to_nat d) (concat ys))).
Proof.
  intros SB N WD. induction ys as [|f ys IH]; intros l map d D LM INV G; cbn [play concat].
  - rewrite skipn_nil. reflexivity.
  - cbn [concat] in G. rewrite skipn_app in G |- *. apply Forall_app in G. destruct G as (G1 & G2).
    assert (GR : forall c s, 0 <= c < nch -> d <= s < Z.of_nat (length f) -> Spec_Lim.float32 (at_ f c s) /\ magnitude_le (at_ f c s) limit_level).
    { intros c s Hc Hs. rewrite Forall_forall in G1.
      assert (I : In (nth (Z.to_nat s) f []) (skipn (Z.to_nat d) f)).
      { replace (Z.to_nat s) with (Z.to_nat d + (Z.to_nat s - Z.to_nat d))%nat by lia. rewrite <- nth_skipn'. apply nth_In. rewrite skipn_length. lia. }
      destruct (G1 _ I) as (LR & FR). rewrite Forall_forall in FR. apply FR. unfold at_. apply nth_In. rewrite LR. lia. }
    destruct (sat_ok b (Z.of_nat (length f)) d nch map (at_ f) p (fun j s => word (at_ f (p j) s)) SB D N LM INV) as (o & E & B & _ & DL & ML & MD & _).
    + intros c s Hc Hs. destruct (GR c s Hc Hs) as (F & M). split; [exact F|]. intros _. apply quiet_value; assumption.
    + intros j s Hj Hs. apply WD. destruct (INV j Hj) as (_ & PJ & _). destruct (GR (p j) s PJ Hs) as (F & M). apply quiet_value; assumption.
    + rewrite E. rewrite (IH l (po_map o) (po_delay o)).
      * rewrite B, DL, inter_rows by exact D. unfold signal_bytes. rewrite flat_map_app. do 4 f_equal. lia.
      * rewrite DL. lia.
      * rewrite ML. exact LM.
      * apply (inverse_ext map); assumption.
      * rewrite DL. replace (Z.to_nat (Z.max 0 (d - Z.of_nat (length f)))) with (Z.to_nat d - length f)%nat by lia. exact G2.
Qed.

(** With the limiter: the same on what the limiter delivers. *)
Fixpoint limited (l : lim) (fs : list (list (list f32))) : list (list (list f32)) :=
  match fs with [] => [] | f :: fs => fst (lim_frame l f) :: limited (snd (lim_frame l f)) fs end.
Lemma limited_concat : forall fs l, concat (limited l fs) = fst (lim_frames l fs).
Proof.
  induction fs as [|f fs IH]; intros l; [reflexivity|]. cbn [limited lim_frames concat]. rewrite IH. destruct (lim_frame l f) as [y l1]. cbn [fst snd]. destruct (lim_frames l1 fs). reflexivity.
Qed.
Lemma play_limited b nch : forall fs l l0 map d, play true l b nch map d fs = play false l0 b nch map d (limited l fs).
Proof.
  induction fs as [|f fs IH]; intros l l0 map d; [reflexivity|]. cbn [play limited]. destruct (lim_frame l f) as [y l1]. cbn [fst snd].
  destruct (samples_sat _ b (at_ y) map d nch) as [o|]; [|reflexivity]. rewrite (IH l1 l0). reflexivity.
Qed.

(** All in one: a delay of [n] samples by the limiter, [d] samples dropped. *)
Lemma silence_good n nch : Forall (good nch) (silence n nch).
Proof.
  apply Forall_forall. intros r Hr. apply repeat_spec in Hr. subst r. split; [apply repeat_length|]. apply Forall_forall. intros x Hx. apply repeat_spec in Hx. subst x. split; reflexivity.
Qed.
Lemma Forall_firstn' {A} (P : A -> Prop) n l : Forall P l -> Forall P (firstn n l).
Proof. revert l. induction n; intros [|x l] H; cbn; auto. inversion H; subst. constructor; auto. Qed.
Lemma Forall_skipn' {A} (P : A -> Prop) n l : Forall P l -> Forall P (skipn n l).
Proof. revert l. induction n; intros [|x l] H; cbn; auto. inversion H; subst. auto. Qed.

Lemma heard_limited b nch p word n ac rc fs map d : sizes3 b -> 0 <= nch <= 24 -> words b word -> (0 < n)%nat -> coefficient ac -> coefficient rc ->
  0 <= d -> nch <= Z.of_nat (length map) -> inverse_map map nch p -> quiet (Z.to_nat nch) (concat fs) ->
  play true (lim_init n (Z.to_nat nch) ac rc) b nch map d fs =
  Some (signal_bytes b nch p word (skipn (Z.to_nat d) (delayed n (Z.to_nat nch) (concat fs)))).
Proof.
  intros SB N WD HN A R D LM INV Q. rewrite (play_limited b nch fs _ (lim_init n (Z.to_nat nch) ac rc)).
  rewrite (play_plain b nch p word SB N WD _ _ map d D LM INV); rewrite limited_concat, (limiter_transparent n (Z.to_nat nch) ac rc fs HN A R (proj1 Q) (proj2 Q)); [reflexivity|].
  apply Forall_skipn'. unfold delayed. apply Forall_firstn'. apply Forall_app. split; [apply silence_good|apply quiet_good; exact Q].
Qed.
Lemma heard_plain b nch p word l fs map d : sizes3 b -> 0 <= nch <= 24 -> words b word ->
  0 <= d -> nch <= Z.of_nat (length map) -> inverse_map map nch p -> quiet (Z.to_nat nch) (concat fs) ->
  play false l b nch map d fs = Some (signal_bytes b nch p word (skipn (Z.to_nat d) (concat fs))).
Proof. intros SB N WD D LM INV Q. apply play_plain; auto. apply Forall_skipn', quiet_good, Q. Qed.

Lemma undelayed n nch (xs : list (list f32)) : skipn n (delayed n nch xs) = firstn (length xs - n) xs.
Proof.
  unfold delayed. rewrite skipn_firstn_comm. rewrite skipn_app. unfold silence. rewrite repeat_length, Nat.sub_diag.
  rewrite skipn_all2 by (rewrite repeat_length; lia). reflexivity.
Qed.
Lemma stored_resamp i : valid i -> c_resamp (stored i) = if i_resamp i =? 0 then 0 else 1.
Proof.
  intros (V1 & V2 & V3 & V4 & V5). unfold pcm_ok, effect_ok, loud_ok, layout_ok, preset_ok in *.
  pose proof (stored_loudness (i_tl1 i)) as HL.
  unfold stored, set_config_params. rewrite mhas_go. cbn [then_]. unfold st_cicp, NUM_LS_CFGS.
  set (c0 := s_c_mhas _ _). assert (R0 : c_resamp c0 = 0) by reflexivity. clearbody c0.
  assert (C1 : exists c, (if negb (i_cicp i =? 0) && (i_cicp i <? 20) then Go (s_c_cicp c0 (i_cicp i)) i else if negb (i_cicp i =? 0) then Stop E_CICP_INDEX c0 i else Go c0 i) = Go c i /\ c_resamp c = 0).
  { destruct (i_cicp i =? 0) eqn:E; cbn [negb andb]; [|replace (i_cicp i <? 20) with true by lia]; eexists; (split; [reflexivity|exact R0]). }
  destruct C1 as (c1 & -> & R1). cbn [then_]. unfold st_preset.
  assert (C2 : exists c, (if negb (i_preset i =? -1) && (i_preset i <? 32) then Go (s_c_preset c1 (i_preset i)) i
     else if negb (i_preset i =? -1) then Stop E_PRESET_ID c1 i else Go c1 i) = Go c i /\ c_resamp c = 0).
  { destruct (i_preset i =? -1) eqn:E; cbn [negb andb]; [|replace (i_preset i <? 32) with true by lia]; eexists; (split; [reflexivity|exact R1]). }
  destruct C2 as (c2 & -> & R2). cbn [then_]. unfold st_pcm.
  replace (negb (i_wdsz i =? 16) && negb (i_wdsz i =? 24) && negb (i_wdsz i =? 32)) with false by lia.
  cbn [then_]. unfold st_resamp.
  assert (C3 : exists c, (if negb (i_resamp i =? 0) then Go (s_c_resamp (s_c_pcm c2 (i_wdsz i)) 1 (i_fs i)) i else Go (s_c_pcm c2 (i_wdsz i)) i) = Go c i /\ c_resamp c = if i_resamp i =? 0 then 0 else 1).
  { destruct (i_resamp i =? 0); cbn [negb]; eexists; (split; [reflexivity|]); [exact R2|reflexivity]. }
  destruct C3 as (c3 & -> & R3). cbn [then_]. unfold st_effect.
  assert (C4 : exists c, (if negb (i_effect i =? 0) then if (8 <? i_effect i) || (i_effect i <? 0)
      then Stop E_EFFECT_TYPE (s_c_drc (s_c_effect c3 0) 1) i else Go (s_c_effect c3 (i_effect i)) i else Go c3 i) = Go c i /\ c_resamp c = c_resamp c3).
  { destruct (i_effect i =? 0) eqn:E; cbn [negb]; [|replace ((8 <? i_effect i) || (i_effect i <? 0)) with false by lia]; eexists; (split; reflexivity). }
  destruct C4 as (c4 & -> & R4). cbn [then_]. rewrite R3 in R4. unfold st_loud.
  destruct (i_tl0 i =? 1) eqn:E1; [|exact R4].
  replace (0 <=? i_tl1 i) with true by lia. cbn [i_tl1 s_i_tl1].
  replace ((0 <? - Z.shiftr (i_tl1 i) 2) || (- Z.shiftr (i_tl1 i) 2 <? -63)) with false by lia. exact R4.
Qed.

Lemma delay_match fs x i : valid i -> 0 <= i_fs i -> e_bin x = false -> e_fc x = false -> e_ds x = false ->
  exists c i' att d, first_init fs x (stored i) (after i) = Some (c, i', att, d) /\
  (d = (if limits c then att else 0) <-> ~ (i_resamp i <> 0 /\ fs = 48000 /\ i_fs i <> 48000 /\ 200 <= i_fs i)) /\
  (d <> (if limits c then att else 0) -> d = i_fs i / 200 /\ limits c = false).
Proof.
  intros V F B FC DS. destruct (stored_rates i V) as (U & D & O & R & FS). pose proof (stored_resamp i V) as RS.
  assert (AT : attack_of (i_fs i) = i_fs i / 200).
  { unfold attack_of. replace 1000 with (5 * 200) by reflexivity. apply Z.div_mul_cancel_l; lia. }
  assert (A48 : attack_of 48000 = 240) by reflexivity.
  unfold first_init, first_frame. rewrite B, FC, DS, O, RS. unfold init_rate. rewrite R, FS.
  destruct (Z.eqb_spec (i_resamp i) 0) as [E0|E0].
  - rewrite E0. cbn [Z.eqb negb]. rewrite andb_false_r. do 4 eexists. split; [reflexivity|]. unfold limits. cbn [s_c_rates s_c_noresamp c_ofs c_resamp Z.eqb]. rewrite andb_true_r.
    destruct (Z.eqb_spec fs 48000) as [->|N]; (split; [split; [intros _ H; destruct H as [H _]; apply H; reflexivity|intros _; lia]|intros H; exfalso; apply H; lia]).
  - cbn [Z.eqb negb]. rewrite andb_true_r. destruct (Z.eqb_spec fs (i_fs i)) as [E|N]; cbn [negb].
    + assert (G : exists c i', (if i_resamp i =? 1 then Some (s_c_noresamp (stored i), after i) else Some (s_c_rates (s_c_noresamp (stored i)) fs fs, after i)) = Some (c, i') /\ c_ofs c = fs /\ c_resamp c = 0).
      { destruct (i_resamp i =? 1); do 2 eexists; (split; [reflexivity|]); cbn [s_c_noresamp s_c_rates c_ofs c_resamp]; [rewrite O|]; auto. }
      destruct G as (c & i' & -> & G1 & G2). do 4 eexists. split; [reflexivity|]. unfold limits. rewrite G1, G2. cbn [Z.eqb]. rewrite andb_true_r.
      destruct (Z.eqb_spec fs 48000) as [F4|F4]; (split; [split; [intros _ H; lia|intros _; lia]|intros H; exfalso; apply H; lia]).
    + assert (G : exists c i', (if i_resamp i =? 1 then match get_sampling_ratio (s_c_rates (stored i) (i_fs i) fs) with None => None | Some (e, c') => Some (c', if negb (e =? 0) then s_i_resamp (after i) 0 else after i) end else Some (s_c_rates (stored i) fs fs, after i)) = Some (c, i') /\ limits c = false).
      { destruct (i_resamp i =? 1).
        - unfold get_sampling_ratio. cbn [s_c_rates s_c_ratio c_sfs c_ofs c_down]. rewrite D. destruct (ratio_of fs) as [[[o dn] up]|] eqn:RO.
          + unfold ratio_of in RO. destruct (Z.eqb_spec (i_fs i) o) as [E|E]; cbn [negb]; do 2 eexists; (split; [reflexivity|]); unfold limits; cbn [s_c_ratio s_c_rates c_ofs c_resamp]; [|apply andb_false_r].
            destruct ((fs =? 48000) || (fs =? 44100)) eqn:F4; [|apply andb_false_r]. exfalso.
            destruct (fs =? 48000) eqn:F1; [injection RO as <- _ _; lia|]. destruct (fs =? 44100) eqn:F2; [injection RO as <- _ _; lia|discriminate F4].
          + cbn [Z.eqb]. do 2 eexists. split; [reflexivity|]. unfold limits. cbn [s_c_ratio s_c_rates c_ofs c_resamp]. apply andb_false_r.
        - do 2 eexists. split; [reflexivity|]. unfold limits. cbn [s_c_rates c_ofs c_resamp]. rewrite RS. apply andb_false_r. }
      destruct G as (c & i' & -> & G1). do 4 eexists. split; [reflexivity|]. rewrite G1, AT.
      pose proof (Z.div_le_lower_bound (i_fs i) 200 1 ltac:(lia)). pose proof (Z.div_small (i_fs i) 200). pose proof (Z.div_pos (i_fs i) 200 F ltac:(lia)).
      destruct (Z.eqb_spec fs 48000) as [F4|F4]; split; [split; lia|lia|split; lia|lia].
Qed.

(** ** A stream that is not resampled *)
Lemma settled fs x i : valid i -> (i_resamp i = 0 \/ fs = i_fs i) -> e_bin x = false -> e_fc x = false -> e_ds x = false ->
  exists c i' d, first_init fs x (stored i) (after i) = Some (c, i', attack_of fs, d) /\
  d = (if fs =? 48000 then attack_of fs else 0) /\ limits c = (fs =? 48000) /\ c_resamp c = 0 /\ c_ofs c = fs.
Proof.
  intros V NR B FC DS. destruct (stored_rates i V) as (U & D & O & R & FS). pose proof (stored_resamp i V) as RS.
  unfold first_init, first_frame. rewrite B, FC, DS, O, RS. unfold init_rate. rewrite R, FS.
  destruct (Z.eqb_spec (i_resamp i) 0) as [E0|E0].
  - rewrite E0. cbn [Z.eqb negb]. rewrite andb_false_r. do 3 eexists. split; [reflexivity|]. split; [lia|]. unfold limits. cbn [s_c_rates s_c_noresamp c_ofs c_resamp Z.eqb]. rewrite andb_true_r. auto.
  - destruct NR as [NR|NR]; [lia|]. rewrite <- NR, Z.eqb_refl. cbn [negb andb].
    destruct (i_resamp i =? 1); do 3 eexists; (split; [reflexivity|]); (split; [lia|]); unfold limits; cbn [s_c_rates s_c_noresamp c_ofs c_resamp Z.eqb]; rewrite andb_true_r; rewrite ?O; replace (i_resamp i =? 0) with false by lia; rewrite <- ?NR; auto.
Qed.

Lemma attack_200 r : attack_of r = r / 200.
Proof. unfold attack_of. replace 1000 with (5 * 200) by reflexivity. apply Z.div_mul_cancel_l; lia. Qed.
