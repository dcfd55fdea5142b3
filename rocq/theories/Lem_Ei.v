(** * Lem_Ei: interaction packets *)
From Coq Require Import ZArith List Lia Bool.
From Verif Require Import Bits BitBuf Prog Wp Escape Leaf Asi Config Ei Spec_Asi Spec_Mhas Spec_Ei Lem_Asi Lem_AsiRT.
Import ListNotations.
Open Scope Z_scope.

(** ** Counting *)
Definition countg (id : Z) (gs : list gdef) : Z := Z.of_nat (length (filter (fun g => g_id g =? id) gs)).
Definition countp (id : Z) (ps : list pdef) : Z := Z.of_nat (length (filter (fun g => p_id g =? id) ps)).

Lemma nth_skipn_cons {A} (l : list A) i x : nth_error l i = Some x -> skipn i l = x :: skipn (S i) l.
Proof. revert i. induction l as [|y l IH]; intros [|i] H; cbn in *; try discriminate; [congruence|]. exact (IH i H). Qed.

Lemma count_ids_run : forall n i id gs bs, (i + n <= length gs)%nat ->
  runA (count_ids n i id gs) bs = Done (countg id (firstn n (skipn i gs)), bs).
Proof.
  induction n as [|n IH]; intros i id gs bs H; [reflexivity|]. cbn [count_ids].
  destruct (nth_error_Some_ex gs i) as [g Hg]; [lia|].
  rewrite (runA_aget gs (Z.of_nat i) g) by (try lia; rewrite Nat2Z.id; exact Hg).
  rewrite runA_bind, IH by lia. rewrite (nth_skipn_cons gs i g Hg). cbn [firstn]. unfold countg. cbn [filter].
  cbn [runA]. destruct (g_id g =? id); cbn [length]; do 2 f_equal; lia.
Qed.
Lemma count_presets_run : forall n i id gs bs, (i + n <= length gs)%nat ->
  runA (count_presets n i id gs) bs = Done (countp id (firstn n (skipn i gs)), bs).
Proof.
  induction n as [|n IH]; intros i id gs bs H; [reflexivity|]. cbn [count_presets].
  destruct (nth_error_Some_ex gs i) as [g Hg]; [lia|].
  rewrite (runA_aget gs (Z.of_nat i) g) by (try lia; rewrite Nat2Z.id; exact Hg).
  rewrite runA_bind, IH by lia. rewrite (nth_skipn_cons gs i g Hg). cbn [firstn]. unfold countp. cbn [filter].
  cbn [runA]. destruct (p_id g =? id); cbn [length]; do 2 f_equal; lia.
Qed.
Lemma countg_pos id gs : In id (map g_id gs) -> 1 <= countg id gs.
Proof.
  intros H. apply in_map_iff in H. destruct H as (g & Hg & Hi). unfold countg.
  assert (K : In g (filter (fun g => g_id g =? id) gs)) by (apply filter_In; split; [exact Hi|apply Z.eqb_eq, Hg]).
  destruct (filter (fun g => g_id g =? id) gs); [destruct K|cbn [length]; lia].
Qed.
Lemma countp_pos id gs : In id (map p_id gs) -> 1 <= countp id gs.
Proof.
  intros H. apply in_map_iff in H. destruct H as (g & Hg & Hi). unfold countp.
  assert (K : In g (filter (fun g => p_id g =? id) gs)) by (apply filter_In; split; [exact Hi|apply Z.eqb_eq, Hg]).
  destruct (filter (fun g => p_id g =? id) gs); [destruct K|cbn [length]; lia].
Qed.
Lemma countg_nonneg id gs : 0 <= countg id gs. Proof. unfold countg. lia. Qed.

(** ** Array updates *)
Definition upd {A} (l : list A) (i : nat) (v : A) : list A := firstn i l ++ v :: skipn (S i) l.
Lemma upd_len {A} (l : list A) i v : (i < length l)%nat -> length (upd l i v) = length l.
Proof. intros H. unfold upd. rewrite app_length, firstn_length_le by lia. change (length (v :: skipn (S i) l)) with (S (length (skipn (S i) l))). rewrite skipn_length. lia. Qed.
Lemma upd_upd {A} (l : list A) i v w : (i < length l)%nat -> upd (upd l i v) i w = upd l i w.
Proof.
  intros H. unfold upd. f_equal.
  - rewrite firstn_app, firstn_firstn, Nat.min_id, firstn_length_le, Nat.sub_diag by lia. cbn [firstn]. apply app_nil_r.
  - f_equal. rewrite skipn_app, firstn_length_le by lia. rewrite skipn_all2 by (rewrite firstn_length_le by lia; lia).
    replace (S i - i)%nat with 1%nat by lia. reflexivity.
Qed.
Lemma run_set {A B} (l : list A) i v (k : list A -> prog B) bs : (i < length l)%nat ->
  runA (bind (aset l (Z.of_nat i) v) k) bs = runA (k (upd l i v)) bs.
Proof. intros H. rewrite runA_aset by lia. rewrite Nat2Z.id. reflexivity. Qed.
Lemma firstn_upd {A} (l : list A) i v : (i < length l)%nat -> firstn (S i) (upd l i v) = firstn i l ++ [v].
Proof.
  intros H. unfold upd. rewrite firstn_app, firstn_firstn, Nat.min_r, firstn_length_le by lia.
  replace (S i - i)%nat with 1%nat by lia. reflexivity.
Qed.

(** ** One group *)
Definition group_rule (sv : scene_view) (grp : nat) (valid : Z) (c : choice) : Prop :=
  fst sv = true ->
  0 <= valid /\ 0 <= a_ng (snd sv) /\ (Z.to_nat (a_ng (snd sv)) <= length (a_groups (snd sv)))%nat /\
  (1 <= valid \/ In (ch_id c) (map g_id (firstn (Z.to_nat (a_ng (snd sv))) (a_groups (snd sv))))) /\
  exists d, nth_error (a_groups (snd sv)) grp = Some d /\
    match ch_play c with
    | None => True
    | Some (pos, gain) => (g_pos d = 1 -> pos <> None) /\ (g_gain d = 1 -> gain <> None)
    end.

Lemma u8_small v : 0 <= v < 256 -> u8 v = v.
Proof. intros H. unfold u8. apply Z.mod_small. lia. Qed.

Lemma run_wire {A} c (k : Z -> Z -> prog A) rest :
  match ch_wire c with None => True | Some w => fits 16 w end ->
  exists wid, runA (bind (rd 1) (fun w => bind (if negb (w =? 1) then Ret (-1) else v <- rd 16 ;; Ret (u8 v)) (k w)))
       (enc_opt (bits_of 16) (ch_wire c) ++ rest)
  = runA (k (match ch_wire c with None => 0 | _ => 1 end) wid) rest
  /\ match ch_wire c with None => True | Some v => wid = v mod 256 end.
Proof.
  destruct (ch_wire c) as [v|]; intros F; cbn [enc_opt].
  - exists (v mod 256). split; [|reflexivity]. rdf. cbn [b2z]. change (negb (1 =? 1)) with false. cbv iota. rewrite bind_assoc. rdf.
    reflexivity.
  - exists (-1). split; [|exact I]. rdf. cbn [b2z]. change (negb (0 =? 1)) with true. cbv iota. reflexivity.
Qed.

Lemma run_group sv grp valid gs c rest :
  valid_choice c -> (grp < length gs)%nat -> group_rule sv grp valid c ->
  exists g valid', view_choice g = byte_choice c /\ (fst sv = true -> 1 <= valid') /\
    runA (ei_group_one sv grp (valid, gs)) (enc_choice c ++ rest) = Done ((0, (valid', upd gs grp g)), rest).
Proof.
  intros (V1 & V2 & V3) HL HR. destruct sv as [pres a]. unfold group_rule in HR. cbn [fst snd] in HR.
  destruct (nth_error_Some_ex gs grp HL) as [g0 Hg0].
  unfold ei_group_one, enc_choice.
  rewrite (runA_aget gs (Z.of_nat grp) g0) by (try lia; rewrite Nat2Z.id; exact Hg0).
  rdf. rewrite run_set by exact HL.
  set (n := if pres then countg (ch_id c) (firstn (Z.to_nat (a_ng a)) (a_groups a)) else 0).
  assert (Hn : forall B (k : Z -> prog B) bs,
    runA (bind (if pres : bool then count_ids (Z.to_nat (a_ng a)) 0 (ch_id c) (a_groups a) else Ret 0) k) bs = runA (k n) bs).
  { intros B k bs. unfold n. destruct pres; [|reflexivity]. destruct (HR eq_refl) as (_ & _ & H & _).
    rewrite runA_bind, count_ids_run by lia. reflexivity. }
  rewrite Hn. clear Hn.
  assert (Hv : pres = true -> 1 <= valid + n).
  { intros ->. destruct (HR eq_refl) as (H0 & _ & _ & H1 & _). unfold n. pose proof (countg_nonneg (ch_id c) (firstn (Z.to_nat (a_ng a)) (a_groups a))). destruct H1 as [H1|H1]; [|pose proof (countg_pos _ _ H1)]; lia. }
  replace (pres && (valid + n =? 0))%bool with false.
  2:{ symmetry. destruct pres; [|reflexivity]. specialize (Hv eq_refl). cbn [andb]. apply Z.eqb_neq. lia. }
  rename Hv into Hv'.
  assert (HD : forall B (f : gdef -> bool) (k : bool -> prog B) bs, (pres = true -> exists d, nth_error (a_groups a) grp = Some d /\ f d = false) ->
    runA (bind (if pres : bool then d <- aget (a_groups a) (Z.of_nat grp) ;; Ret (f d) else Ret false) k) bs = runA (k false) bs).
  { intros B f k bs H. destruct pres; [|reflexivity]. destruct (H eq_refl) as (d & Hd & Hf). rewrite bind_assoc.
    rewrite (runA_aget (a_groups a) (Z.of_nat grp) d) by (try lia; rewrite Nat2Z.id; exact Hd). cbn [bind]. rewrite Hf. reflexivity. }
  set (n' := n) in *. clearbody n'. clear n.
  destruct c as [cid cw cp]. cbn [ch_id ch_wire ch_play] in *.
  rdf. rewrite <- ?app_assoc.
  match goal with |- context [runA (bind (rd 1) (fun w => bind _ (@?k w))) (_ ++ ?bs)] =>
    destruct (run_wire {| ch_id := cid; ch_wire := cw; ch_play := cp |} k bs V2) as (wid & EW & HW) end.
  cbn [ch_wire] in EW, HW. rewrite EW. clear EW. cbv beta.
  rewrite run_set by (rewrite upd_len; exact HL). rewrite upd_upd by exact HL.
  destruct cp as [[pos gain]|].
  - cbn [b2z]. change (negb (1 =? 1)) with false. cbv iota.
    destruct V3 as (VP & VG).
    assert (PP : forall d, pres = true -> nth_error (a_groups a) grp = Some d -> (g_pos d = 1 -> pos <> None) /\ (g_gain d = 1 -> gain <> None)).
    { intros d Hp Hd. destruct (HR Hp) as (_ & _ & _ & _ & d' & Hd' & K). congruence. }
    assert (DD : pres = true -> exists d, nth_error (a_groups a) grp = Some d).
    { intros Hp. destruct (HR Hp) as (_ & _ & _ & _ & d' & Hd' & K). eauto. }
    assert (BP : forall cpv, (cpv = 0 <-> pos = None) -> pres = true -> exists d, nth_error (a_groups a) grp = Some d /\ ((g_pos d =? 1) && (cpv =? 0))%bool = false).
    { intros cpv Hc Hp. destruct (DD Hp) as (d & Hd). exists d. split; [exact Hd|]. destruct (PP d Hp Hd) as [K _].
      destruct (Z.eqb_spec (g_pos d) 1); [|reflexivity]. destruct (Z.eqb_spec cpv 0); [|reflexivity]. tauto. }
    assert (BG : forall cgv, (cgv = 0 <-> gain = None) -> pres = true -> exists d, nth_error (a_groups a) grp = Some d /\ ((g_gain d =? 1) && (cgv =? 0))%bool = false).
    { intros cgv Hc Hp. destruct (DD Hp) as (d & Hd). exists d. split; [exact Hd|]. destruct (PP d Hp Hd) as [_ K].
      destruct (Z.eqb_spec (g_gain d) 1); [|reflexivity]. destruct (Z.eqb_spec cgv 0); [|reflexivity]. tauto. }
    clear PP DD HR.
    assert (VW : forall az el di gn, 
      match pos with None => True | Some x => x = (az, el, di) end -> match gain with None => True | Some x => x = gn end ->
      view_choice (mkEg cid 1 match cw with Some _ => 1 | None => 0 end wid (match pos with None => 0 | _ => 1 end) az el di (match gain with None => 0 | _ => 1 end) gn)
      = {| ch_id := cid; ch_wire := option_map (fun w => w mod 256) cw; ch_play := Some (pos, gain) |}).
    { intros az el di gn H1 H2. unfold view_choice, z2b. cbn [eg_id eg_on eg_wire eg_wireid eg_chpos eg_az eg_el eg_dist eg_chgain eg_gain Z.eqb negb].
      f_equal; [destruct cw; cbn [option_map]; cbv beta iota; cbn [Z.eqb negb]; congruence|]. destruct pos as [p|], gain as [q|]; cbn; congruence. }
    destruct pos as [[[az el] di]|], gain as [gn|]; cbn [enc_opt]; rewrite <- ?app_assoc;
      rdf; cbn [b2z]; (rewrite run_set by (rewrite upd_len; exact HL)); rewrite upd_upd by exact HL;
      (rewrite (HD _ (fun d => ((g_pos d =? 1) && _)%bool)); [|apply BP; split; [lia|discriminate] || (apply BP; tauto)]);
      cbv iota; cbn [Z.eqb negb]; cbv iota;
      rewrite ?bind_assoc; cbn [bind]; cbv iota.
    + destruct VP as (VA & VE & VD).
      rdf. rewrite bind_assoc. rdf. rewrite bind_assoc. rdf. cbn [bind]. cbv iota.
      rdf. cbn [b2z]. rewrite run_set by (rewrite upd_len; exact HL). rewrite upd_upd by exact HL.
      rewrite (HD _ (fun d => ((g_gain d =? 1) && _)%bool)); [|apply BG; split; [lia|discriminate]]. cbv iota. cbn [Z.eqb negb]. cbv iota.
      rdf. rewrite run_set by (rewrite upd_len; exact HL). rewrite upd_upd by exact HL.
      do 2 eexists. split; [|split; [exact Hv'|reflexivity]]. apply VW; reflexivity.
    + destruct VP as (VA & VE & VD).
      rdf. rewrite bind_assoc. rdf. rewrite bind_assoc. rdf. cbn [bind]. cbv iota.
      rdf. cbn [b2z]. rewrite run_set by (rewrite upd_len; exact HL). rewrite upd_upd by exact HL.
      rewrite (HD _ (fun d => ((g_gain d =? 1) && _)%bool)); [|apply BG; tauto]. cbv iota. cbn [Z.eqb negb]. cbv iota. cbn [bind].
      rewrite run_set by (rewrite upd_len; exact HL). rewrite upd_upd by exact HL.
      do 2 eexists. split; [|split; [exact Hv'|reflexivity]]. apply VW; [reflexivity|exact I].
    + rdf. cbn [b2z]. rewrite run_set by (rewrite upd_len; exact HL). rewrite upd_upd by exact HL.
      rewrite (HD _ (fun d => ((g_gain d =? 1) && _)%bool)); [|apply BG; split; [lia|discriminate]]. cbv iota. cbn [Z.eqb negb]. cbv iota.
      rdf. rewrite run_set by (rewrite upd_len; exact HL). rewrite upd_upd by exact HL.
      do 2 eexists. split; [|split; [exact Hv'|reflexivity]]. apply VW; [exact I|reflexivity].
    + rdf. cbn [b2z]. rewrite run_set by (rewrite upd_len; exact HL). rewrite upd_upd by exact HL.
      rewrite (HD _ (fun d => ((g_gain d =? 1) && _)%bool)); [|apply BG; tauto]. cbv iota. cbn [Z.eqb negb]. cbv iota. cbn [bind].
      rewrite run_set by (rewrite upd_len; exact HL). rewrite upd_upd by exact HL.
      do 2 eexists. split; [|split; [exact Hv'|reflexivity]]. apply VW; exact I.
  - cbn [b2z]. change (negb (0 =? 1)) with true. cbv iota. cbn [app].
    do 2 eexists. split; [|split; [exact Hv'|reflexivity]].
    unfold view_choice, z2b. cbn [eg_id eg_on eg_wire eg_wireid eg_chpos eg_az eg_el eg_dist eg_chgain eg_gain Z.eqb negb].
    unfold byte_choice. cbn [ch_id ch_wire ch_play]. f_equal. destruct cw; cbn [option_map Z.eqb negb]; congruence.
Qed.

Lemma run_groups sv : forall cs lo i valid gs rest,
  Forall valid_choice cs -> (i + length cs <= length gs)%nat ->
  (fst sv = true -> lo <= valid) ->
  (forall j c v, nth_error cs j = Some c -> (j = 0%nat -> lo <= v) -> (j <> 0%nat -> 1 <= v) -> group_rule sv (i + j) v c) ->
  exists gs' valid', length gs' = length gs /\ firstn i gs' = firstn i gs /\
    map view_choice (firstn (i + length cs) gs') = map view_choice (firstn i gs) ++ map byte_choice cs /\
    runA (forE (length cs) i (ei_group_one sv) (valid, gs)) (concat (map enc_choice cs) ++ rest) = Done ((0, (valid', gs')), rest).
Proof.
  induction cs as [|c cs IH]; intros lo i valid gs rest HV HL Hv HR.
  - exists gs, valid. cbn [length]. rewrite Nat.add_0_r, app_nil_r. repeat split.
  - cbn [length] in HL. cbn [length forE map concat]. rewrite <- app_assoc.
    destruct (run_group sv i valid gs c (concat (map enc_choice cs) ++ rest)) as (g & v' & HG & Hv' & EG).
    + exact (Forall_inv HV).
    + lia.
    + intros Hp. specialize (HR 0%nat c valid eq_refl (fun _ => Hv Hp) (fun K => False_ind _ (K eq_refl)) Hp). rewrite Nat.add_0_r in HR. exact HR.
    + rewrite runA_bind, EG. cbn [Z.eqb].
      destruct (IH 1 (S i) v' (upd gs i g) rest) as (gs' & v2 & L & F & M & E).
      * exact (Forall_inv_tail HV).
      * rewrite upd_len by lia. lia.
      * exact Hv'.
      * intros j c' v Hj Hv0 Hv1. replace (S i + j)%nat with (i + S j)%nat by lia. apply HR; [exact Hj|lia|]. intros _. destruct j; [apply Hv0; reflexivity|apply Hv1; lia].
      * exists gs', v2. split; [rewrite L, upd_len by lia; reflexivity|]. split; [|split; [|exact E]].
        -- transitivity (firstn i (firstn (S i) gs')); [rewrite firstn_firstn; f_equal; lia|].
           rewrite F, firstn_upd by lia. rewrite firstn_app, firstn_firstn, Nat.min_id, firstn_length_le by lia.
           rewrite Nat.sub_diag. cbn [firstn]. apply app_nil_r.
        -- replace (i + S (length cs))%nat with (S i + length cs)%nat by lia. rewrite M, firstn_upd by lia.
           rewrite map_app. cbn [map]. rewrite HG, <- app_assoc. reflexivity.
Qed.

Lemma fill_run : forall bs i (arr : list Z) rest,
  Forall (fits 8) bs -> (i + length bs <= length arr)%nat ->
  runA (forP (length bs) i (fun i s => v <- rd 8 ;; aset s (Z.of_nat i) v) arr) (concat (map (bits_of 8) bs) ++ rest)
  = Done (firstn i arr ++ bs ++ skipn (i + length bs) arr, rest).
Proof.
  induction bs as [|x bs IH]; intros i arr rest HF HL; cbn [length forP map concat].
  - cbn [runA app]. rewrite Nat.add_0_r, firstn_skipn. reflexivity.
  - cbn [length] in HL. pose proof (Forall_inv HF) as Hx. rewrite bind_assoc. rdf.
    rewrite run_set by lia. rewrite IH; [|exact (Forall_inv_tail HF)|rewrite upd_len; lia].
    rewrite firstn_upd by lia. rewrite <- app_assoc. cbn [app]. do 5 f_equal. unfold upd.
    rewrite skipn_app, firstn_length, Nat.min_l by lia.
    rewrite skipn_all2 by (rewrite firstn_length; lia). cbn [app].
    replace (S i + length bs - i)%nat with (S (length bs)) by lia. rewrite skipn_cons.
    rewrite skipn_skipn_add. f_equal. lia.
Qed.

Definition follows (sv : scene_view) (w : wish) : Prop := fst sv = true -> asi_ok (snd sv) /\ first_agrees (snd sv) w.

Lemma packet_run sv e w rest : ei_ok e -> valid_wish w -> follows sv w ->
  exists e', runA (ei_packet sv e) (enc_wish w ++ rest) = Done (Ok e', rest) /\ view_wish e' = bytewise w /\ ei_present e' = 1 /\ ei_ok e'.
Proof.
  intros (L1 & L2) (V1 & V2 & V3 & V4 & V5) HF.
  destruct sv as [pres a]. unfold ei_packet, enc_wish. destruct w as [sg pr grs zm]. cbn [wi_sign wi_preset wi_groups wi_zoom] in *.
  (* signature *)
  assert (S : exists len ty arr, length arr = 256%nat /\ (if 0 <? len then Some (ty, firstn (Z.to_nat len) arr) else None) = sg /\
    forall B (k : Z -> Z * list Z -> prog B) bs,
    runA (bind (rd 8) (fun len => bind (if 0 <? len then
                   t <- rd 8 ;;
                   s <- forP (Z.to_nat len) 0 (fun i s => v <- rd 8 ;; aset s (Z.of_nat i) v) (ei_sign e) ;;
                   Ret (t, s)
                 else Ret (ei_signtype e, ei_sign e)) (k len)))
     (match sg with
       | None => bits_of 8 0
       | Some (t, bs) => bits_of 8 (Z.of_nat (length bs)) ++ bits_of 8 t ++ concat (map (bits_of 8) bs)
      end ++ bs) = runA (k len (ty, arr)) bs).
  { destruct sg as [[t bs0]|].
    - destruct V1 as (F1 & F2 & F3).
      exists (Z.of_nat (length bs0)), t, (bs0 ++ skipn (length bs0) (ei_sign e)).
      split; [rewrite app_length, skipn_length; lia|]. split.
      { destruct (Z.ltb_spec 0 (Z.of_nat (length bs0))); [|lia]. rewrite Nat2Z.id, firstn_app, firstn_all, Nat.sub_diag. cbn [firstn]. rewrite app_nil_r. reflexivity. }
      intros B k bs. rdf. destruct (Z.ltb_spec 0 (Z.of_nat (length bs0))); [|lia].
      rewrite bind_assoc. rdf. rewrite bind_assoc, runA_bind, Nat2Z.id, fill_run by (try assumption; lia). reflexivity.
    - exists 0, (ei_signtype e), (ei_sign e). split; [exact L1|]. split; [reflexivity|]. intros B k bs. rdf. reflexivity. }
  destruct S as (len & ty & arr & LA & SV & SR). rewrite <- !app_assoc. rewrite SR. clear SR. cbv beta iota.
  unfold ei_data. cbn [ei_sign ei_signlen ei_signtype ei_mode ei_num ei_preset ei_groups ei_zoom ei_zaz ei_zel ei_present].
  rewrite bind_assoc. rdf.
  set (mode := b2z match pr with Some _ => true | None => false end).
  replace (pres && negb (a_np a =? 0) && negb (mode =? 1))%bool with false.
  2:{ symmetry. destruct pres; [|reflexivity]. destruct (HF eq_refl) as (_ & ((K & _) & _)). cbn [snd wi_preset] in K.
      destruct (Z.eqb_spec (a_np a) 0); [reflexivity|]. specialize (K n). unfold mode. destruct pr; [reflexivity|congruence]. }
  rewrite bind_assoc. rdf.
  replace (pres && negb (Z.of_nat (length grs) =? a_ng a))%bool with false.
  2:{ symmetry. destruct pres; [|reflexivity]. destruct (HF eq_refl) as (_ & ((_ & K & _) & _)). cbn [snd wi_groups] in K. rewrite K, Z.eqb_refl. reflexivity. }
  rewrite bind_assoc.
  assert (P : exists pid, (if z2b mode then Some pid else None) = pr /\ forall B (k : res Z -> prog B) bs,
    runA (bind (if negb (mode =? 0) then
          id <- rd 5 ;;
          if pres : bool then
            n <- count_presets (Z.to_nat (a_ng a)) 0 id (a_presets a) ;;
            if n =? 0 then Ret (Er E_EI_ID) else Ret (Ok id)
          else Ret (Ok id)
        else Ret (Ok (ei_preset e))) k) (match pr with None => [] | Some p => bits_of 5 p end ++ bs) = runA (k (Ok pid)) bs).
  { destruct pr as [p|].
    - exists p. split; [reflexivity|]. intros B k bs. unfold mode, b2z. change (negb (1 =? 0)) with true. cbv iota.
      rewrite bind_assoc. rdf. destruct pres; [|reflexivity].
      destruct (HF eq_refl) as ((A1 & A2 & A3 & A4) & ((_ & K1 & K2 & K3) & _)). cbn [snd wi_groups wi_preset] in *.
      rewrite bind_assoc, runA_bind, count_presets_run by lia. cbn [skipn]. replace (Z.to_nat (a_ng a)) with (length grs) by lia.
      pose proof (countp_pos _ _ K3). destruct (Z.eqb_spec (countp p (firstn (length grs) (a_presets a))) 0); [lia|]. reflexivity.
    - exists (ei_preset e). split; reflexivity. }
  destruct P as (pid & PV & PR). rewrite PR. clear PR. cbv beta iota.
  unfold ei_status. rewrite !bind_assoc.
  destruct (run_groups (pres, a) grs 0 0 0 (ei_groups e)
     (enc_opt (fun '(a, b, c, d) => bits_of 10 a ++ bits_of 10 b ++ bits_of 9 c ++ bits_of 10 d) zm ++ rest)) as (gs' & v' & G1 & G2 & G3 & G4).
  { exact V4. } { lia. } { lia. }
  { intros j c v Hj Hv0 Hv1 Hp. cbn [fst snd] in *. destruct (HF Hp) as ((A1 & A2 & A3 & A4) & ((_ & K1 & K2 & _) & K4 & K5)). cbn [wi_groups] in *.
    cbn [fst snd] in *. split; [destruct j; [apply Hv0; reflexivity|assert (1 <= v) by (apply Hv1; lia); lia]|]. split; [lia|]. split; [lia|]. split.
    - destruct j as [|j]; [|left; apply Hv1; lia]. right. destruct grs; [discriminate|]. cbn in Hj. replace c with c0 by congruence. exact K4.
    - cbn [Nat.add]. assert (j < length grs)%nat by (apply nth_error_Some; congruence).
      destruct (nth_error_Some_ex (a_groups a) j) as [d Hd]; [lia|]. exists d. split; [exact Hd|]. exact (K5 j c d Hj Hd). }
  rewrite runA_bind, Nat2Z.id, G4. cbv beta iota. cbn [bind]. cbv iota.
  assert (Z : exists z za ze, (if z2b z then Some (fst za, snd za, fst ze, snd ze) else None) = option_map (fun '(a, b, c, d) => (a mod 256, b mod 256, c mod 256, d mod 256)) zm /\ forall B (k : Z -> (Z*Z) * (Z*Z) -> prog B) bs,
    runA (bind (rd 1) (fun z => bind (if negb (z =? 0) then
                     a <- rd 10 ;; b <- rd 10 ;; c <- rd 9 ;; d <- rd 10 ;;
                     Ret ((u8 a, u8 b), (u8 c, u8 d))
                   else Ret (ei_zaz e, ei_zel e)) (k z)))
      (enc_opt (fun '(a, b, c, d) => bits_of 10 a ++ bits_of 10 b ++ bits_of 9 c ++ bits_of 10 d) zm ++ bs) = runA (k z (za, ze)) bs).
  { destruct zm as [[[[z1 z2] z3] z4]|].
    - exists 1, (z1 mod 256, z2 mod 256), (z3 mod 256, z4 mod 256). split; [reflexivity|]. intros B k bs. destruct V5 as (F1 & F2 & F3 & F4).
      cbn [enc_opt]. rdf. cbn [b2z]. change (negb (1 =? 0)) with true. cbv iota. rewrite !bind_assoc. rdf.
      rewrite !bind_assoc. rdf. rewrite !bind_assoc. rdf. rewrite !bind_assoc. rdf. cbn [bind]. reflexivity.
    - exists 0, (ei_zaz e), (ei_zel e). split; [reflexivity|]. intros B k bs. cbn [enc_opt]. rdf. reflexivity. }
  destruct Z as (z & za & ze & ZV & ZR). cbn [ei_sign ei_signlen ei_signtype ei_mode ei_num ei_preset ei_groups ei_zoom ei_zaz ei_zel ei_present].
  rewrite ZR. cbv beta iota. cbn [runA].
  eexists. split; [reflexivity|]. unfold view_wish. cbn [ei_sign ei_signlen ei_signtype ei_mode ei_num ei_preset ei_groups ei_zoom ei_zaz ei_zel ei_present].
  split; [|split; [reflexivity|split; [exact LA|cbn [ei_groups]; lia]]].
  rewrite SV, PV, ZV, Nat2Z.id. cbn [Nat.add firstn map app] in G3. rewrite G3. reflexivity.
Qed.

(** ** Safety of the interaction packet, and what an accepted packet satisfies *)
Lemma wp_count_ids n i id gs (Q : Z -> Prop) : (i + n <= length gs)%nat -> Q (countg id (firstn n (skipn i gs))) -> wp (count_ids n i id gs) Q.
Proof.
  revert i Q. induction n as [|n IH]; intros i Q H HQ; cbn [count_ids]; [exact HQ|].
  apply wp_bindi, wp_aget; [lia|]. rewrite Nat2Z.id. intros g Hg. apply wp_bindi, IH; [lia|]. apply wp_ret.
  rewrite (nth_skipn_cons gs i g Hg) in HQ. cbn [firstn] in HQ. unfold countg in *. cbn [filter] in HQ.
  destruct (g_id g =? id); [|exact HQ]. cbn [length] in HQ. rewrite Nat2Z.inj_succ in HQ. replace (1 + _) with (Z.succ (Z.of_nat (length (filter (fun g0 => g_id g0 =? id) (firstn n (skipn (S i) gs)))))) by lia. exact HQ.
Qed.
Lemma wp_count_presets n i id gs (Q : Z -> Prop) : (i + n <= length gs)%nat -> Q (countp id (firstn n (skipn i gs))) -> wp (count_presets n i id gs) Q.
Proof.
  revert i Q. induction n as [|n IH]; intros i Q H HQ; cbn [count_presets]; [exact HQ|].
  apply wp_bindi, wp_aget; [lia|]. rewrite Nat2Z.id. intros g Hg. apply wp_bindi, IH; [lia|]. apply wp_ret.
  rewrite (nth_skipn_cons gs i g Hg) in HQ. cbn [firstn] in HQ. unfold countp in *. cbn [filter] in HQ.
  destruct (p_id g =? id); [|exact HQ]. cbn [length] in HQ. rewrite Nat2Z.inj_succ in HQ. replace (1 + _) with (Z.succ (Z.of_nat (length (filter (fun g0 => p_id g0 =? id) (firstn n (skipn (S i) gs)))))) by lia. exact HQ.
Qed.
Lemma countp_in id gs : countp id gs <> 0 -> In id (map p_id gs).
Proof.
  unfold countp. intros H. destruct (filter (fun g => p_id g =? id) gs) as [|g l] eqn:E; [cbn in H; lia|].
  assert (K : In g (filter (fun g => p_id g =? id) gs)) by (rewrite E; left; reflexivity).
  apply filter_In in K. destruct K as [K1 K2]. apply in_map_iff. exists g. split; [apply Z.eqb_eq, K2|exact K1].
Qed.

Lemma u8_range v : 0 <= u8 v < 256. Proof. unfold u8. apply Z.mod_pos_bound. lia. Qed.

Lemma wp_set {A} (l : list A) i v (Q : list A -> Prop) : (i < length l)%nat -> Q (upd l i v) -> wp (aset l (Z.of_nat i) v) Q.
Proof. intros H HQ. apply wp_aset; [lia|]. rewrite Nat2Z.id. exact HQ. Qed.

Lemma Forall_upd {A} (P : A -> Prop) l i v : Forall P l -> P v -> Forall P (upd l i v).
Proof.
  intros H Hv. unfold upd. apply Forall_app. split; [|constructor; [exact Hv|]].
  - rewrite <- (firstn_skipn i l) in H. apply Forall_app in H. tauto.
  - rewrite <- (firstn_skipn (S i) l) in H. apply Forall_app in H. tauto.
Qed.
Lemma Forall_nth {A} (P : A -> Prop) l i v : Forall P l -> nth_error l i = Some v -> P v.
Proof. intros H E. rewrite Forall_forall in H. apply H. eapply nth_error_In, E. Qed.

Lemma gs_upd gs i g : gs_ok gs -> (i < 128)%nat -> eg_fits g -> gs_ok (upd gs i g).
Proof. intros [H1 H2] Hi Hg. split; [rewrite upd_len; lia|apply Forall_upd; assumption]. Qed.

Lemma wp_group sv grp st : sv_ok sv -> gs_ok (snd st) -> (grp < 128)%nat -> (fst sv = true -> (grp < 16)%nat) ->
  wp (ei_group_one sv grp st) (fun r => gs_ok (snd (snd r))).
Proof.
  destruct sv as [pres a], st as [valid gs]. unfold sv_ok, asi_ok. cbn [fst snd]. intros HS HG HL HP.
  assert (LG : forall gs', gs_ok gs' -> (grp < length gs')%nat) by (intros gs' [K _]; lia).
  unfold ei_group_one. apply wp_bindi, wp_aget; [destruct HG as [K _]; lia|]. rewrite Nat2Z.id. intros g0 Hg0.
  pose proof (Forall_nth _ _ _ _ (proj2 HG) Hg0) as (F1 & F2 & F3 & F4 & F5 & F6 & F7 & F8 & F9 & F10).
  apply wp_bindi, wp_rd; [lia|]. intros id Hid.
  apply wp_bindi, wp_set; [apply LG, HG|].
  match goal with |- context [upd gs grp ?x] => assert (HG1 : gs_ok (upd gs grp x)) by (apply gs_upd; [exact HG|exact HL|]; unfold eg_fits, fits in *; cbn [eg_id eg_on eg_wire eg_wireid eg_chpos eg_az eg_el eg_dist eg_chgain eg_gain]; repeat split; lia); set (gs1 := upd gs grp x) in * end.
  clearbody gs1. clear HG Hg0 gs.
  apply wp_bindi. assert (K : forall Q : Z -> Prop, (forall n, Q n) -> wp (if pres : bool then count_ids (Z.to_nat (a_ng a)) 0 id (a_groups a) else Ret 0) Q).
  { intros Q HQ. destruct pres; [|apply wp_ret, HQ]. destruct (HS eq_refl) as (A1 & A2 & _). apply wp_count_ids; [lia|apply HQ]. }
  apply K. intros n. clear K.
  destruct (pres && (valid + n =? 0))%bool; [apply wp_ret; exact HG1|].
  apply wp_bindi, wp_rd; [lia|]. intros on Hon. apply wp_bindi, wp_rd; [lia|]. intros w Hw.
  apply wp_bindi. assert (K : forall Q : Z -> Prop, (forall n, -1 <= n <= 255 -> Q n) -> wp (if negb (w =? 1) then Ret (-1) else v <- rd 16;; Ret (u8 v)) Q).
  { intros Q HQ. destruct (negb (w =? 1)); [apply wp_ret, HQ; lia|]. apply wp_bindi, wp_rd; [lia|]. intros v _. apply wp_ret, HQ. pose proof (u8_range v). lia. }
  apply K. intros wid Hwid. clear K.
  cbn [eg_id eg_on eg_wire eg_wireid eg_chpos eg_az eg_el eg_dist eg_chgain eg_gain].
  apply wp_bindi, wp_set; [apply LG, HG1|].
  match goal with |- context [upd gs1 grp ?x] => assert (HG2 : gs_ok (upd gs1 grp x)) by (apply gs_upd; [exact HG1|exact HL|]; unfold eg_fits, fits in *; cbn [eg_id eg_on eg_wire eg_wireid eg_chpos eg_az eg_el eg_dist eg_chgain eg_gain]; repeat split; lia); set (gs2 := upd gs1 grp x) in * end.
  clearbody gs2. clear HG1 gs1.
  destruct (negb (on =? 1)); [apply wp_ret; exact HG2|].
  apply wp_bindi, wp_rd; [lia|]. intros cp Hcp. apply wp_bindi, wp_set; [apply LG, HG2|].
  match goal with |- context [upd gs2 grp ?x] => assert (HG3 : gs_ok (upd gs2 grp x)) by (apply gs_upd; [exact HG2|exact HL|]; unfold eg_fits, fits in *; cbn [eg_id eg_on eg_wire eg_wireid eg_chpos eg_az eg_el eg_dist eg_chgain eg_gain]; repeat split; lia); set (gs3 := upd gs2 grp x) in * end.
  clearbody gs3. clear HG2 gs2.
  assert (KB : forall (f : gdef -> bool) (Q : bool -> Prop), (forall b, Q b) -> wp (if pres : bool then d <- aget (a_groups a) (Z.of_nat grp) ;; Ret (f d) else Ret false) Q).
  { intros f Q HQ. destruct pres; [|apply wp_ret, HQ]. destruct (HS eq_refl) as (A1 & A2 & _). specialize (HP eq_refl).
    apply wp_bindi, wp_aget; [lia|]. intros v _. apply wp_ret, HQ. }
  apply wp_bindi, KB. intros badp. destruct badp; [apply wp_ret; exact HG3|].
  apply wp_bindi. cbn [eg_az eg_el eg_dist]. assert (K : forall Q : Z * Z * Z -> Prop, (forall x y z, fits 8 x -> fits 6 y -> fits 4 z -> Q (x, y, z)) ->
    wp (if negb (cp =? 0) then x <- rd 8;; y <- rd 6;; z <- rd 4;; Ret (x, y, z) else Ret (eg_az g0, eg_el g0, eg_dist g0)) Q).
  { intros Q HQ. destruct (negb (cp =? 0)); [|apply wp_ret, HQ; assumption].
    apply wp_bindi, wp_rd; [lia|]. intros x Hx. apply wp_bindi, wp_rd; [lia|]. intros y Hy. apply wp_bindi, wp_rd; [lia|]. intros z Hz. apply wp_ret, HQ; assumption. }
  apply K. intros az el di Haz Hel Hdi. clear K.
  apply wp_bindi, wp_rd; [lia|]. intros cg Hcg. cbn [eg_gain]. apply wp_bindi, wp_set; [apply LG, HG3|].
  match goal with |- context [upd gs3 grp ?x] => assert (HG4 : gs_ok (upd gs3 grp x)) by (apply gs_upd; [exact HG3|exact HL|]; unfold eg_fits, fits in *; cbn [eg_id eg_on eg_wire eg_wireid eg_chpos eg_az eg_el eg_dist eg_chgain eg_gain]; repeat split; lia); set (gs4 := upd gs3 grp x) in * end.
  clearbody gs4. clear HG3 gs3.
  apply wp_bindi, KB. intros badg. destruct badg; [apply wp_ret; exact HG4|].
  apply wp_bindi. cbn [eg_gain]. assert (K : forall Q : Z -> Prop, (forall x, fits 7 x -> Q x) -> wp (if negb (cg =? 0) then rd 7 else Ret (eg_gain g0)) Q).
  { intros Q HQ. destruct (negb (cg =? 0)); [|apply wp_ret, HQ; assumption]. apply wp_rd; [lia|]. intros v Hv. apply HQ. exact Hv. }
  apply K. intros gn Hgn. apply wp_bindi, wp_set; [apply LG, HG4|]. apply wp_ret. cbn [snd].
  apply gs_upd; [exact HG4|exact HL|]. unfold eg_fits, fits in *; cbn [eg_id eg_on eg_wire eg_wireid eg_chpos eg_az eg_el eg_dist eg_chgain eg_gain]; repeat split; lia.
Qed.

Lemma wp_packet sv e : sv_ok sv -> (fst sv = true -> a_ng (snd sv) <= 8) -> length (ei_sign e) = 256%nat -> gs_ok (ei_groups e) ->
  wp (ei_packet sv e) (fun r => match r with
    | Ok e' => length (ei_sign e') = 256%nat /\ gs_ok (ei_groups e') /\
       (fst sv = true -> ei_num e' = a_ng (snd sv) /\ (a_np (snd sv) <> 0 -> ei_mode e' = 1) /\
          (ei_mode e' <> 0 -> In (ei_preset e') (map p_id (firstn (Z.to_nat (a_ng (snd sv))) (a_presets (snd sv))))))
    | Er _ => True end).
Proof.
  destruct sv as [pres a]. intros HS H8 HL HG. unfold ei_packet. apply wp_bindi, wp_rd; [lia|]. intros len Hlen. cbn in Hlen.
  apply wp_bindi. assert (K : forall Q : Z * list Z -> Prop, (forall t s, length s = 256%nat -> Q (t, s)) -> wp (if 0 <? len
    then t <- rd 8;; s <- forP (Z.to_nat len) 0 (fun i s => v <- rd 8;; aset s (Z.of_nat i) v) (ei_sign e);; Ret (t, s) else Ret (ei_signtype e, ei_sign e)) Q).
  { intros Q HQ. destruct (0 <? len); [|apply wp_ret, HQ, HL]. apply wp_bindi, wp_rd; [lia|]. intros t _.
    apply wp_bindi. apply (wp_for (fun _ s => length s = 256%nat)); [exact HL| |intros s Hs; apply wp_ret, HQ, Hs].
    intros j s Hj Hs. apply wp_bindi, wp_rd; [lia|]. intros v _. apply wp_set; [lia|]. rewrite upd_len; lia. }
  apply K. intros ty sg Hsg. clear K. apply wp_bindi.
  unfold ei_data. cbn [ei_sign ei_signlen ei_signtype ei_mode ei_num ei_preset ei_groups ei_zoom ei_zaz ei_zel ei_present].
  apply wp_bindi, wp_rd; [lia|]. intros mode Hm. cbn in Hm.
  destruct (pres && negb (a_np a =? 0) && negb (mode =? 1))%bool eqn:EM; [apply wp_ret, wp_ret; exact I|].
  apply wp_bindi, wp_rd; [lia|]. intros num Hnum. cbn in Hnum.
  destruct (pres && negb (num =? a_ng a))%bool eqn:EN; [apply wp_ret, wp_ret; exact I|].
  apply wp_bindi. assert (K : forall Q : res Z -> Prop, (forall c, Q (Er c)) ->
    (forall id, (pres = true -> mode <> 0 -> In id (map p_id (firstn (Z.to_nat (a_ng a)) (a_presets a)))) -> Q (Ok id)) ->
    wp (if negb (mode =? 0) then id <- rd 5;; (if pres : bool then n <- count_presets (Z.to_nat (a_ng a)) 0 id (a_presets a);; (if n =? 0 then Ret (Er E_EI_ID) else Ret (Ok id)) else Ret (Ok id)) else Ret (Ok (ei_preset e))) Q).
  { intros Q HE HQ. destruct (Z.eqb_spec mode 0) as [->|NM]; cbn [negb]; [apply wp_ret, HQ; congruence|].
    apply wp_bindi, wp_rd; [lia|]. intros id Hid. destruct pres; [|apply wp_ret, HQ; discriminate].
    destruct (HS eq_refl) as (A1 & A2 & A3 & A4). specialize (H8 eq_refl). cbn [snd fst] in *. apply wp_bindi, wp_count_presets; [lia|]. cbn [skipn].
    destruct (Z.eqb_spec (countp id (firstn (Z.to_nat (a_ng a)) (a_presets a))) 0); [apply wp_ret, HE|apply wp_ret, HQ]. intros _ _. apply countp_in. assumption. }
  apply K; [intros c; apply wp_ret, wp_ret; exact I|]. intros pid Hpid. clear K.
  apply wp_bindi. unfold ei_status. apply wp_bindi.
  apply (wp_forE (fun _ st => gs_ok (snd st)) (fun _ st => gs_ok (snd st))).
  - exact HG.
  - intros j t Hj Ht. eapply wp_mono; [|apply wp_group].
    + intros [e1 t1] H. cbn [fst snd] in *. destruct (e1 =? 0); exact H.
    + exact HS.
    + exact Ht.
    + lia.
    + cbn [fst]. intros Hp. rewrite Hp in EN. cbn [andb] in EN. destruct (Z.eqb_spec num (a_ng a)); [|discriminate]. specialize (H8 Hp). cbn [snd] in H8. lia.
  - intros [v gs'] HG'. apply wp_ret. cbn [snd] in HG'. apply wp_ret.
    cbn [ei_sign ei_signlen ei_signtype ei_mode ei_num ei_preset ei_groups ei_zoom ei_zaz ei_zel ei_present].
    apply wp_bindi, wp_rd; [lia|]. intros z _. apply wp_bindi.
    assert (K : forall Q : (Z*Z)*(Z*Z) -> Prop, (forall x, Q x) -> wp (if negb (z =? 0) then a0 <- rd 10;; b <- rd 10;; c <- rd 9;; d <- rd 10;; Ret (u8 a0, u8 b, (u8 c, u8 d)) else Ret (ei_zaz e, ei_zel e)) Q).
    { intros Q HQ. destruct (negb (z =? 0)); [|apply wp_ret, HQ]. do 4 (apply wp_bindi, wp_rd; [lia|]; intros ? _). apply wp_ret, HQ. }
    apply K. intros [za ze]. apply wp_ret. cbn [ei_sign ei_signlen ei_signtype ei_mode ei_num ei_preset ei_groups ei_zoom ei_zaz ei_zel ei_present].
    split; [exact Hsg|]. split; [exact HG'|]. cbn [fst snd]. intros Hp. rewrite Hp in EN, EM. cbn [andb] in EN, EM.
    split; [destruct (Z.eqb_spec num (a_ng a)); [assumption|discriminate]|]. split; [|exact (Hpid Hp)].
    intros HN. destruct (Z.eqb_spec (a_np a) 0); [contradiction|]. cbn [negb andb] in EM. destruct (Z.eqb_spec mode 1); [assumption|discriminate].
  - intros e1 [v gs'] He HG'. apply wp_ret. cbn [snd] in HG'. apply wp_ret.
    cbn [ei_sign ei_signlen ei_signtype ei_mode ei_num ei_preset ei_groups ei_zoom ei_zaz ei_zel ei_present].
    apply wp_bindi, wp_rd; [lia|]. intros z _. apply wp_bindi.
    assert (K : forall Q : (Z*Z)*(Z*Z) -> Prop, (forall x, Q x) -> wp (if negb (z =? 0) then a0 <- rd 10;; b <- rd 10;; c <- rd 9;; d <- rd 10;; Ret (u8 a0, u8 b, (u8 c, u8 d)) else Ret (ei_zaz e, ei_zel e)) Q).
    { intros Q HQ. destruct (negb (z =? 0)); [|apply wp_ret, HQ]. do 4 (apply wp_bindi, wp_rd; [lia|]; intros ? _). apply wp_ret, HQ. }
    apply K. intros [za ze]. apply wp_ret. cbn [ei_sign ei_signlen ei_signtype ei_mode ei_num ei_preset ei_groups ei_zoom ei_zaz ei_zel ei_present].
    split; [exact Hsg|]. split; [exact HG'|]. cbn [fst snd]. intros Hp. rewrite Hp in EN, EM. cbn [andb] in EN, EM.
    split; [destruct (Z.eqb_spec num (a_ng a)); [assumption|discriminate]|]. split; [|exact (Hpid Hp)].
    intros HN. destruct (Z.eqb_spec (a_np a) 0); [contradiction|]. cbn [negb andb] in EM. destruct (Z.eqb_spec mode 1); [assumption|discriminate].
Qed.
