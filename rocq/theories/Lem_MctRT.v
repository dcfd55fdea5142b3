(** * Lem_MctRT: frames of the multichannel coding tool are read back *)

From Coq Require Import ZArith List Lia Bool Ascii String.
From Verif Require Import Bits BitBuf BitWrite Prog Wp Loops Escape Config Mct Spec_Mct Lem_MctHuff Lem_MctBand Lem_MctBox.
Import ListNotations.
Open Scope list_scope.
Open Scope Z_scope.

(** ** The number of a pair *)
Definition T (c : Z) : Z := c * (c - 1) / 2.
Lemma T_succ c : T (c + 1) = T c + c.
Proof.
  unfold T. replace ((c + 1) * (c + 1 - 1)) with (c * (c - 1) + c * 2) by ring.
  apply Z.div_add. discriminate.
Qed.
Lemma T_mono a b : 1 <= a <= b -> T a <= T b.
Proof. intros H. unfold T. apply Z.div_le_mono; [lia|]. nia. Qed.

Lemma find0_hit c : forall chan0 cnt idx, cnt <= idx < cnt + Z.of_nat c ->
  find0 c chan0 cnt idx = inl (chan0 + (idx - cnt)).
Proof.
  induction c as [|c IH]; intros chan0 cnt idx H; [lia|]. cbn [find0].
  destruct (Z.eqb_spec cnt idx) as [->|N]; [f_equal; lia|]. rewrite IH by lia. f_equal. lia.
Qed.
Lemma find0_miss c : forall chan0 cnt idx, cnt + Z.of_nat c <= idx ->
  find0 c chan0 cnt idx = inr (cnt + Z.of_nat c).
Proof.
  induction c as [|c IH]; intros chan0 cnt idx H; [cbn; f_equal; lia|]. cbn [find0].
  destruct (Z.eqb_spec cnt idx) as [->|N]; [lia|]. rewrite IH by lia. f_equal. lia.
Qed.

Lemma find1_hit m : forall chan1 c0 c1, 1 <= chan1 <= c1 -> c1 < chan1 + Z.of_nat m -> 0 <= c0 < c1 ->
  find1 m chan1 (T chan1) (T c1 + c0) = Some (c0, c1).
Proof.
  induction m as [|m IH]; intros chan1 c0 c1 H1 H2 H3; [lia|]. cbn [find1].
  destruct (Z.eq_dec chan1 c1) as [->|N].
  - rewrite find0_hit by lia. f_equal. f_equal. lia.
  - rewrite find0_miss.
    + rewrite Z2Nat.id by lia. rewrite <- T_succ. apply IH; lia.
    + rewrite Z2Nat.id by lia. rewrite <- T_succ. assert (T (chan1 + 1) <= T c1) by (apply T_mono; lia). lia.
Qed.

Lemma pair_run {A} nch old p (K : Z * (Z * Z) -> prog A) rest :
  0 <= fst p < snd p -> snd p < nch -> nch <= 24 ->
  runA (bind (mc_pair nch old) K) (bits_of (pair_bits nch) (pair_number p) ++ rest) = runA (K (0, p)) rest.
Proof.
  intros H1 H2 H3. destruct p as [c0 c1]. cbn [fst snd] in *. unfold mc_pair, pair_bits, pair_number. cbn [fst snd].
  fold (T nch). fold (T c1).
  assert (A1 : T c1 + c1 <= T nch) by (rewrite <- T_succ; apply T_mono; lia).
  assert (A2 : 0 <= T c1) by (unfold T; apply Z.div_pos; nia).
  assert (A3 : T nch <= 276) by (assert (T nch <= T 24) by (apply T_mono; lia); change (T 24) with 276 in H; lia).
  replace (T nch - 1 <? 0) with false by (symmetry; apply Z.ltb_ge; lia).
  assert (L0 := Z.log2_nonneg (T nch - 1)).
  assert (L1 : Z.log2 (T nch - 1) <= 8).
  { assert (Z.log2 (T nch - 1) <= Z.log2 275) by (apply Z.log2_le_mono; lia). exact H. }
  rewrite bind_assoc.
  rewrite (runA_rdb (1 + Z.log2 (T nch - 1)) (Z.to_nat (1 + Z.log2 (T nch - 1)))); [|lia|lia|].
  - replace (T nch - 1 <? T c1 + c0) with false by (symmetry; apply Z.ltb_ge; lia).
    change 0 with (T 1) at 1. rewrite find1_hit by lia. reflexivity.
  - split; [lia|]. 
    assert (T c1 + c0 <= T nch - 1) by lia.
    destruct (Z.eq_dec (T nch - 1) 0) as [E|E].
    + rewrite E in *. cbn. lia.
    + assert (S1 := Z.log2_spec (T nch - 1) ltac:(lia)). rewrite <- Z.add_1_l in S1. lia.
Qed.

(** ** What the decoder shows after a frame, and what it keeps *)

(** The channels, the flags, and mask and coefficient of every band of every window. *)
Definition shows (s : sbox) (b : box) : Prop :=
  (x_c0 b, x_c1 b) = s_pair s /\ x_ff b = z1 (s_fill s) /\ x_dir b = z1 (s_dir s) /\
  (x_long b =? 0) = s_short s /\
  x_mf b = z1 (is_masked (s_cont s)) /\ x_bw b = z1 (is_wise (s_cont s)) /\
  x_nb b = Z.of_nat (len (List.concat (effect (s_short s) (s_cont s)))) /\
  forall w row t o, nth_error (effect (s_short s) (s_cont s)) w = Some row -> nth_error row t = Some o ->
    nth_error (x_mask b) (w * len row + t) = Some (on o) /\
    forall q, o = Some q -> nth_error (x_coef b) (w * len row + t) = Some q.

Definition keeps (k : kind) (h : hist) (b : box) : Prop :=
  sized b /\ (x_long b =? 0) = h_short h /\ (x_c0 b, x_c1 b) = h_pair h /\ holds_ref k (h_full h, h_row h) b.

Definition idle (k : kind) (b : box) : Prop := sized b /\ holds_ref k (dk k, []) b.

Lemma sized_clear d b : sized b -> sized (clear_prev d b).
Proof. intros (A & B & C). split; [apply repeat_length|]. split; assumption. Qed.

Lemma nth_nil {A} t (d : A) : nth t [] d = d. Proof. destruct t; reflexivity. Qed.

Lemma nth_error_rep {A} n (a : A) t : (t < n)%nat -> nth_error (repeat a n) t = Some a.
Proof. revert t; induction n as [|n IH]; intros [|t] H; cbn; try lia; auto. apply IH. lia. Qed.

Lemma clear_idle k b : sized b -> idle k (clear_prev (dk k) b).
Proof.
  intros S0. split; [apply sized_clear, S0|]. split; [reflexivity|]. intros t Ht. cbn [clear_prev x_sprev snd].
  rewrite nth_nil. apply nth_error_rep. exact Ht.
Qed.

Lemma z1_eqb b : (z1 b =? 0) = negb b. Proof. destruct b; reflexivity. Qed.

Lemma no_change pk k dt : (dt = true -> pk = k) ->
  type_change (kz pk) (kz k) && negb (z1 dt =? 0) = false.
Proof. intros H. destruct dt; [rewrite H by reflexivity; destruct k; reflexivity|]. rewrite andb_false_r. reflexivity. Qed.

Lemma masks_run {A} short c k time ref mask (K : list Z -> prog A) rest :
  content_ok k time short ref c -> len mask = 64%nat ->
  exists m', runA (bind (mc_masks (z1 (is_masked c)) (Z.of_nat (windows short * bands_of short c)) mask) K)
       ((match c with Masked _ rows => List.concat rows
         | PerBandMasked rows => List.concat (map (map (fun o : option Z => match o with Some _ => true | None => false end)) rows)
         | _ => [] end) ++ rest) = runA (K m') rest /\
    len m' = 64%nat /\ masks_of (effect short c) 0 (bands_of short c) m'.
Proof.
  intros OK Lm. destruct (effect_shape _ _ _ _ _ OK) as (E1 & E2 & E3).
  assert (EC := concat_nth _ _ E2). assert (EL := concat_len _ _ E2). rewrite E1 in EL.
  unfold mc_masks. rewrite Nat2Z.id.
  assert (ALL : forall rs, c = PerBand rs \/ (exists q, c = Whole q) -> 
    forall w row t o, nth_error (effect short c) w = Some row -> nth_error row t = Some o -> on o = 1).
  { intros rs [->|[q ->]] w row t o Hw Ht; cbn [effect] in Hw.
    - apply nth_error_In, in_map_iff in Hw. destruct Hw as (r & <- & _). apply nth_error_In, in_map_iff in Ht.
      destruct Ht as (v & <- & _). reflexivity.
    - apply nth_error_In, repeat_spec in Hw. subst row. apply nth_error_In, repeat_spec in Ht. subst o. reflexivity. }
  assert (IDX : forall w row t o, nth_error (effect short c) w = Some row -> nth_error row t = Some o ->
     (w * bands_of short c + t < windows short * bands_of short c)%nat).
  { intros w row t o Hw Ht. rewrite <- EL. apply nth_error_Some. rewrite (EC w row t o Hw Ht). discriminate. }
  destruct c as [q|q rows|rows|rows] eqn:Ec; cbn [is_masked z1].
  - destruct (masks_one (windows short * bands_of short (Whole q)) 0 mask K rest) as (m' & R & L & _ & M); [lia|exact Lm|].
    exists m'. split; [exact R|]. split; [exact L|]. intros w row t o Hw Ht. rewrite M by (specialize (IDX _ _ _ _ Hw Ht); lia).
    rewrite (ALL [] (or_intror (ex_intro _ q eq_refl)) w row t o Hw Ht). reflexivity.
  - cbn [effect] in *. rewrite concat_map_map in *. rewrite map_length in EL. rewrite <- EL.
    destruct (masks_read (List.concat rows) 0 mask K rest) as (m' & R & L & _ & M); [lia|exact Lm|].
    exists m'. split; [exact R|]. split; [exact L|]. intros w row t o Hw Ht.
    specialize (EC w row t o Hw Ht). rewrite nth_error_map in EC.
    replace (0 + w * bands_of short (Masked q rows) + t)%nat with (0 + (w * bands_of short (Masked q rows) + t))%nat by lia.
    destruct (nth_error (List.concat rows) (w * bands_of short (Masked q rows) + t)) as [bb|] eqn:EB; [|discriminate].
    cbn in EC. injection EC as <-. rewrite (M _ _ EB). destruct bb; reflexivity.
  - destruct (masks_one (windows short * bands_of short (PerBand rows)) 0 mask K rest) as (m' & R & L & _ & M); [lia|exact Lm|].
    exists m'. split; [exact R|]. split; [exact L|]. intros w row t o Hw Ht. rewrite M by (specialize (IDX _ _ _ _ Hw Ht); lia).
    rewrite (ALL rows (or_introl eq_refl) w row t o Hw Ht). reflexivity.
  - cbn [effect] in *. rewrite concat_map_map.
    replace (windows short * bands_of short (PerBandMasked rows))%nat
      with (len (map (fun o : option Z => match o with Some _ => true | None => false end) (List.concat rows))) by (rewrite map_length; exact EL).
    destruct (masks_read (map (fun o : option Z => match o with Some _ => true | None => false end) (List.concat rows)) 0 mask K rest)
      as (m' & R & L & _ & M); [rewrite map_length; lia|exact Lm|].
    exists m'. split; [exact R|]. split; [exact L|]. intros w row t o Hw Ht.
    specialize (EC w row t o Hw Ht).
    replace (0 + w * bands_of short (PerBandMasked rows) + t)%nat with (0 + (w * bands_of short (PerBandMasked rows) + t))%nat by lia.
    rewrite (M _ (match o with Some _ => true | None => false end)); [destruct o; reflexivity|].
    rewrite nth_error_map, EC. reflexivity.
Qed.

(** ** One box *)
Definition mask_bits (c : content) : list bool :=
  match c with Masked _ rows => List.concat rows
  | PerBandMasked rows => List.concat (map (map (fun o : option Z => match o with Some _ => true | None => false end)) rows)
  | _ => [] end.

Lemma shape_split short c rest : shape_bits short c ++ rest =
  bit (is_masked c) ++ bit (is_wise c) ++
  (match c with Whole _ => [] | _ => bit short ++ bits_of 5 (Z.of_nat (nbands c)) end) ++ mask_bits c ++ rest.
Proof. destruct c; cbn [shape_bits is_masked is_wise mask_bits]; rewrite ?app_nil_l, <- ?app_assoc; reflexivity. Qed.

Lemma nbands_small k time short ref c : content_ok k time short ref c -> (nbands c <= if short then 8 else 31)%nat.
Proof.
  destruct c as [q|q rows|rows|rows]; cbn [content_ok nbands]; intros H; [destruct short; lia| | |];
    destruct H as [S0 _]; apply shaped_hd in S0; apply S0.
Qed.

Lemma size_run {A} k time short ref c (K : Z -> prog A) rest : content_ok k time short ref c ->
  runA (bind (if (z1 (is_wise c) =? 0) && (z1 (is_masked c) =? 0) then Ret 64
              else sh <- rd 1 ;; n <- rd 5 ;; Ret (if sh =? 0 then n else n * 8)) K)
       ((match c with Whole _ => [] | _ => bit short ++ bits_of 5 (Z.of_nat (nbands c)) end) ++ rest)
  = runA (K (Z.of_nat (windows short * bands_of short c))) rest.
Proof.
  intros OK. assert (N := nbands_small _ _ _ _ _ OK).
  assert (G : runA (bind (sh <- rd 1 ;; n <- rd 5 ;; Ret (if sh =? 0 then n else n * 8)) K)
       ((bit short ++ bits_of 5 (Z.of_nat (nbands c))) ++ rest) = runA (K (Z.of_nat (windows short * nbands c))) rest).
  { rewrite bind_assoc, <- app_assoc, rd_bit, bind_assoc.
    rewrite (runA_rdb 5 5); [|reflexivity|lia|destruct short; cbn; lia]. cbn [bind]. rewrite z1_eqb.
    destruct short; cbn [negb windows]; f_equal; f_equal; lia. }
  destruct c as [q|q rows|rows|rows]; cbn [is_wise is_masked z1 Z.eqb andb]; try exact G.
  destruct short; reflexivity.
Qed.

Definition window_is (st : mct) (sfb : list (option Z)) (s : sbox) : Prop :=
  exists cm il, 0 <= t_start st /\
    nth_error (t_cmap st) (Z.to_nat (t_start st + fst (s_pair s))) = Some (Z.of_nat cm) /\
    nth_error sfb cm = Some (Some il) /\ (il =? 0) = s_short s.

Definition rewound (k : kind) (short : bool) (b : box) : box :=
  if Bool.eqb (x_long b =? 0) short then b else clear_prev (dk k) b.

Lemma box_run f pk nch st b s ref rest sfb :
  box_ok nch pk f ref s -> ref_good (f_kind f) ref -> sized b ->
  t_type st = kz (f_kind f) -> t_ptype st = kz pk -> t_fill st = z1 (f_fill f) -> t_keep st = z1 (f_keep f) ->
  t_nch st = nch -> nch <= 24 ->
  (f_keep f = true -> (x_c0 b, x_c1 b) = s_pair s) ->
  window_is st sfb s ->
  (s_time s = true -> holds_ref (f_kind f) ref (rewound (f_kind f) (s_short s) b)) ->
  exists b', runA (mc_box huff (z1 (f_indep f)) sfb st b) (box_bits nch f ref s ++ rest) = Done ((0, b'), rest) /\
    shows s b' /\ keeps (f_kind f) (leaves (f_kind f) s) b'.
Proof.
  intros (B1 & B2 & B3 & B4 & B5 & B6) RG SZ HT HP HF HK HN H24 KP (cm & il & W0 & W1 & W2 & W3) HR.
  destruct (s_pair s) as [c0 c1] eqn:EP. cbn [fst snd] in *.
  unfold mc_box. rewrite HT, HF, HK, HN, HP.
  unfold box_bits. rewrite <- !app_assoc.
  (* stereo filling *)
  rewrite z1_eqb.
  assert (E1 : forall (B : Type) (K : Z -> prog B) bs,
    runA (bind (if negb (f_fill f) then Ret 0 else rd 1) K) ((if f_fill f then bit (s_fill s) else []) ++ bs)
    = runA (K (z1 (s_fill s))) bs).
  { intros B K bs. destruct (f_fill f) eqn:EF; cbn [negb].
    - apply rd_bit.
    - destruct (s_fill s); [specialize (B1 eq_refl); congruence|]. reflexivity. }
  rewrite E1. clear E1.
  (* the pair *)
  rewrite z1_eqb.
  assert (E2 : forall (B : Type) (K : Z * (Z * Z) -> prog B) bs,
    runA (bind (if negb (f_keep f) then mc_pair nch (x_c0 b, x_c1 b) else Ret (0, (x_c0 b, x_c1 b))) K)
      ((if f_keep f then [] else bits_of (pair_bits nch) (pair_number (s_pair s))) ++ bs)
    = runA (K (0, (c0, c1))) bs).
  { intros B K bs. rewrite EP. destruct (f_keep f) eqn:EK; cbn [negb].
    - rewrite KP by reflexivity. reflexivity.
    - apply pair_run; cbn; lia. }
  cbn [x_c0 x_c1]. rewrite E2. clear E2. cbn [negb Z.eqb].
  (* the windows *)
  rewrite (runA_aget _ _ (Z.of_nat cm)); [|lia|exact W1].
  rewrite (aget_run sfb cm (Some il)) by exact W2. cbv beta iota.
  cbn [x_long x_c0 x_c1 x_sprev x_fprev x_dt x_dir x_coef x_nb x_mask x_mf x_bw x_ff].
  set (b1 := mkBox (x_long b) c0 c1 (x_sprev b) (x_fprev b) (x_dt b) (x_dir b) (x_coef b) (x_nb b) (x_mask b) (x_mf b) (x_bw b) (z1 (s_fill s))).
  rewrite W3.
  set (b2 := if Bool.eqb (x_long b =? 0) (s_short s) then b1 else clear_prev (dflt (kz (f_kind f))) b1).
  assert (F2 : x_c0 b2 = c0 /\ x_c1 b2 = c1 /\ x_ff b2 = z1 (s_fill s) /\ sized b2 /\
     (s_time s = true -> holds_ref (f_kind f) ref b2)).
  { unfold b2. rewrite dflt_kz. unfold rewound in HR. destruct (Bool.eqb (x_long b =? 0) (s_short s)).
    - repeat split; try reflexivity; try apply SZ; apply HR; assumption.
    - repeat split; try reflexivity; try apply SZ; try (apply HR; assumption). }
  destruct F2 as (F2a & F2b & F2c & SZ2 & F2d).
  (* the shape *)
  rewrite shape_split. rewrite rd_bit. rewrite rd_bit.
  rewrite (size_run _ _ _ _ _ _ _ B6).
  set (nb := Z.of_nat (windows (s_short s) * bands_of (s_short s) (s_cont s))).
  destruct (effect_shape _ _ _ _ _ B6) as (ES1 & ES2 & ES3).
  replace (64 <? nb) with false by (symmetry; apply Z.ltb_ge; unfold nb; lia).
  cbn [x_long x_c0 x_c1 x_sprev x_fprev x_dt x_dir x_coef x_nb x_mask x_mf x_bw x_ff].
  match goal with |- exists b', runA (bind (mc_masks _ _ _) ?K) (_ ++ ?rest') = _ /\ _ =>
    destruct (masks_run (s_short s) (s_cont s) _ _ _ (x_mask b2) K rest' B6) as (m' & RM & LM & MM); [apply SZ2|] end.
  unfold mask_bits. unfold nb at 1. rewrite RM. clear RM.
  (* direction and kind of differences *)
  assert (E3 : forall (B : Type) (K : Z -> prog B) bs,
    runA (bind (if kz (f_kind f) =? 0 then rd 1 else Ret 0) K)
      (match f_kind f with Prediction => bit (s_dir s) | Rotation => [] end ++ bs) = runA (K (z1 (s_dir s))) bs).
  { intros B K bs. destruct (f_kind f) eqn:EK; cbn [kz Z.eqb].
    - apply rd_bit.
    - destruct (s_dir s); [discriminate (B4 eq_refl)|reflexivity]. }
  rewrite E3. clear E3.
  assert (E4 : forall (B : Type) (K : Z -> prog B) bs,
    runA (bind (if 0 <? z1 (f_indep f) then Ret 0 else rd 1) K)
      ((if f_indep f then [] else bit (s_time s)) ++ bs) = runA (K (z1 (s_time s))) bs).
  { intros B K bs. destruct (f_indep f) eqn:EI; cbn [z1 Z.ltb Z.compare].
    - destruct (s_time s); [destruct (B5 eq_refl); congruence|reflexivity].
    - apply rd_bit. }
  rewrite E4. clear E4.
  rewrite no_change by (intros X; apply B5; exact X).
  match goal with |- context [mc_coefs huff _ ?bb] => set (b3 := bb) end.
  destruct (coefs_run (f_kind f) (s_time s) (s_short s) ref (s_cont s) b3 (fun b => Ret (0, b)) rest)
    as (co & sp & RC & LC & LS & CH & SP); auto.
  { destruct SZ2 as (S1 & S2 & S3). split; [exact S1|]. split; [exact S2|exact LM]. }
  rewrite RC. cbn [runA]. eexists. split; [reflexivity|].
  assert (EL := concat_len _ _ ES2). rewrite ES1 in EL.
  cbn [b3 x_long x_c0 x_c1 x_sprev x_fprev x_dt x_dir x_coef x_nb x_mask x_mf x_bw x_ff] in *.
  rewrite F2a, F2b, F2c. split.
  - unfold shows. cbn [x_long x_c0 x_c1 x_sprev x_fprev x_dt x_dir x_coef x_nb x_mask x_mf x_bw x_ff].
    rewrite EP, EL. repeat (split; [first [reflexivity|exact W3]|]).
    intros w row t o Hw Ht.
    assert (LR : len row = bands_of (s_short s) (s_cont s)) by (rewrite Forall_forall in ES2; apply ES2; eapply nth_error_In; eauto).
    rewrite LR. split; [apply (MM w row t o Hw Ht)|]. intros q ->. apply (CH w row t q Hw Ht).
  - unfold keeps, leaves, sized, holds_ref. cbn [x_long x_c0 x_c1 x_sprev x_fprev x_dt x_dir x_coef x_nb x_mask x_mf x_bw x_ff h_short h_pair h_full h_row fst snd].
    rewrite EP. repeat split; auto.
Qed.
