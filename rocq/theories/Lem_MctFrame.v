(** * Lem_MctFrame: whole frames, and sequences of frames *)

From Coq Require Import ZArith List Lia Bool Ascii String.
From Verif Require Import Bits BitBuf BitWrite Prog Wp Loops Escape Config Mct Spec_Mct Lem_MctHuff Lem_MctBand Lem_MctBox Lem_MctRT.
Import ListNotations.
Open Scope list_scope.
Open Scope Z_scope.

(** The decoder agrees with the history [hs] left by a frame of kind [k]. *)
Definition tracks (k : kind) (hs : list hist) (st : mct) : Prop :=
  t_ptype st = kz k /\ t_np st = Z.of_nat (len hs) /\ len (t_boxes st) = 16%nat /\ (len hs <= 16)%nat /\
  (forall i b, nth_error (t_boxes st) i = Some b ->
     match nth_error hs i with Some h => keeps k h b | None => idle k b end) /\
  Forall (fun h => ref_good k (h_full h, h_row h)) hs.

(** ** References that are not used *)
Lemma rows_bits_freq k p p' rows : rows_bits k false p rows = rows_bits k false p' rows.
Proof. destruct rows; reflexivity. Qed.
Lemma rows_ok_freq k p p' rows : rows_ok k false p rows -> rows_ok k false p' rows.
Proof. destruct rows; auto. Qed.

Lemma box_bits_free nch f r r' s : s_time s = false -> box_bits nch f r s = box_bits nch f r' s.
Proof.
  intros H. unfold box_bits, coef_bits. rewrite H. destruct (s_cont s); try reflexivity;
    rewrite (rows_bits_freq _ (snd r) (snd r')); reflexivity.
Qed.
Lemma box_ok_free nch pk f r r' s : s_time s = false -> box_ok nch pk f r s -> box_ok nch pk f r' s.
Proof.
  intros H (A & B & C & D & E & F). repeat (split; [assumption|]).
  rewrite H in *. destruct (s_cont s); cbn [content_ok] in *; auto; destruct F as [F1 F2]; (split; [exact F1|eapply rows_ok_freq; exact F2]).
Qed.

Lemma good_dk k : ref_good k (dk k, []).
Proof. split; [apply fits_dk|]. intros t. cbn [snd]. rewrite nth_nil. apply fits_dk. Qed.

Lemma refs_good k hs i short : Forall (fun h => ref_good k (h_full h, h_row h)) hs -> ref_good k (refs k hs i short).
Proof.
  intros F. unfold refs. destruct (nth_error hs i) as [h|] eqn:E; [|apply good_dk].
  destruct (Bool.eqb (h_short h) short); [|apply good_dk].
  rewrite Forall_forall in F. apply (F h). eapply nth_error_In; eauto.
Qed.

(** ** The loop over the boxes *)
Definition ready (pk : kind) (f : frame) (hs : list hist) (i : nat) (s : sbox) (b : box) : Prop :=
  sized b /\ (f_keep f = true -> (x_c0 b, x_c1 b) = s_pair s) /\
  (s_time s = true -> ref_good (f_kind f) (refs (f_kind f) hs i (s_short s)) /\
                      holds_ref (f_kind f) (refs (f_kind f) hs i (s_short s)) (rewound (f_kind f) (s_short s) b)).

Lemma boxes_run f pk nch st sfb hs :
  t_type st = kz (f_kind f) -> t_ptype st = kz pk -> t_fill st = z1 (f_fill f) -> t_keep st = z1 (f_keep f) ->
  t_nch st = nch -> nch <= 24 ->
  forall ss i bs rest,
  boxes_ok nch pk f hs i ss -> Forall (window_is st sfb) ss -> len bs = 16%nat -> (i + len ss <= 16)%nat ->
  (forall j s b, nth_error ss j = Some s -> nth_error bs (i + j) = Some b -> ready pk f hs (i + j) s b) ->
  exists bs', runA (forE (len ss) i (fun i bs =>
      b <- aget bs (Z.of_nat i) ;; '(e, b) <- mc_box huff (z1 (f_indep f)) sfb st b ;;
      bs <- aset bs (Z.of_nat i) b ;; Ret (e, bs)) bs) (boxes_bits nch f hs i ss ++ rest) = Done ((0, bs'), rest) /\
    len bs' = 16%nat /\
    (forall j, (j < i \/ i + len ss <= j)%nat -> nth_error bs' j = nth_error bs j) /\
    (forall j s, nth_error ss j = Some s -> exists b', nth_error bs' (i + j) = Some b' /\ shows s b' /\
        keeps (f_kind f) (leaves (f_kind f) s) b').
Proof.
  intros HT HP HF HK HN H24. induction ss as [|s ss IH]; intros i bs rest OK WI L Hi RD.
  - exists bs. cbn. repeat split; auto. intros [|j] ? ?; discriminate.
  - cbn [boxes_ok] in OK. destruct OK as [OK1 OK2]. pose proof (Forall_inv WI) as W. apply Forall_inv_tail in WI.
    cbn [len] in Hi. destruct (nth_error_Some_ex bs i ltac:(lia)) as [b Eb].
    destruct (RD 0%nat s b eq_refl) as (R1 & R2 & R3); [rewrite Nat.add_0_r; exact Eb|]. rewrite Nat.add_0_r in R3.
    cbn [boxes_bits]. rewrite <- app_assoc.
    assert (BR : exists b', runA (mc_box huff (z1 (f_indep f)) sfb st b) (box_bits nch f (refs (f_kind f) hs i (s_short s)) s ++ boxes_bits nch f hs (S i) ss ++ rest)
       = Done ((0, b'), boxes_bits nch f hs (S i) ss ++ rest) /\ shows s b' /\ keeps (f_kind f) (leaves (f_kind f) s) b').
    { destruct (s_time s) eqn:ET.
      - destruct (R3 eq_refl). eapply box_run; eauto.
      - rewrite (box_bits_free nch f _ (dk (f_kind f), []) s ET).
        eapply box_run; eauto; [eapply box_ok_free; eauto|apply good_dk|congruence]. }
    destruct BR as (b' & BR & SH & KE).
    destruct (IH (S i) (upd1 bs i b') rest OK2 WI) as (bs' & R & L' & A & C); [rewrite upd1_len; lia|lia| |].
    { intros j s0 b0 Hs Hb. rewrite upd1_neq in Hb by lia. replace (S i + j)%nat with (i + S j)%nat in * by lia.
      apply RD; auto. }
    exists bs'. split; [|split; [exact L'|split]].
    + cbn [len forE]. rewrite !bind_assoc. rewrite (aget_run _ _ b) by exact Eb.
      rewrite !bind_assoc. rewrite runA_bind, BR. rewrite !bind_assoc. rewrite aset_run by lia. cbn [bind Z.eqb]. exact R.
    + intros j Hj. cbn [len] in Hj. rewrite A by lia. apply upd1_neq; lia.
    + intros [|j] s0 Hs; cbn in Hs.
      * injection Hs as <-. exists b'. rewrite Nat.add_0_r. rewrite A by lia. rewrite upd1_eq by lia. auto.
      * replace (i + S j)%nat with (S i + j)%nat by lia. apply C. exact Hs.
Qed.

(** ** The head of a frame *)
Definition head_boxes (f : frame) (boxes : list box) : list box :=
  let bs := if f_indep f then map (clear_prev (dk (f_kind f))) boxes else boxes in
  firstn (len (f_boxes f)) bs ++ map (clear_prev (dk (f_kind f))) (skipn (len (f_boxes f)) bs).

Lemma type_bit k : z1 (kind_eqb k Rotation) = kz k. Proof. destruct k; reflexivity. Qed.

Lemma head_run {A} pk nch hs f st (K : Z * mct -> prog A) rest :
  frame_ok nch pk hs f -> t_np st = Z.of_nat (len hs) ->
  runA (bind (mc_head (z1 (f_indep f)) st) K)
    (bit (f_fill f) ++ bit (kind_eqb (f_kind f) Rotation) ++ (if f_indep f then [] else bit (f_keep f)) ++
     (if f_keep f then [] else esc_enc 5 8 16 (Z.of_nat (len (f_boxes f)))) ++ rest)
  = runA (K (0, mkMct (z1 (f_fill f)) (kz (f_kind f)) (t_ptype st) (z1 (f_keep f)) (Z.of_nat (len (f_boxes f)))
                      (t_start st) (t_cmask st) (t_cmap st) (t_nch st) (head_boxes f (t_boxes st)))) rest.
Proof.
  intros (F1 & F2 & _) HN. unfold mc_head. rewrite !bind_assoc, rd_bit, !bind_assoc, rd_bit, type_bit, !bind_assoc.
  assert (E1 : forall (B : Type) (K : Z -> prog B) bs,
    runA (bind (if 0 <? z1 (f_indep f) then Ret 0 else rd 1) K)
      ((if f_indep f then [] else bit (f_keep f)) ++ bs) = runA (K (z1 (f_keep f))) bs).
  { intros B K0 bs. destruct (f_indep f) eqn:EI; cbn [z1 Z.ltb Z.compare].
    - destruct (f_keep f); [destruct (F2 eq_refl); congruence|reflexivity].
    - apply rd_bit. }
  rewrite E1. clear E1. rewrite z1_eqb, dflt_kz. rewrite !bind_assoc.
  assert (E2 : forall (B : Type) (K : Z -> prog B) bs,
    runA (bind (if negb (f_keep f) then read_escape 5 8 16 else Ret (t_np st)) K)
      ((if f_keep f then [] else esc_enc 5 8 16 (Z.of_nat (len (f_boxes f)))) ++ bs) = runA (K (Z.of_nat (len (f_boxes f)))) bs).
  { intros B K0 bs. destruct (f_keep f) eqn:EI; cbn [negb].
    - destruct (F2 eq_refl) as [_ M]. cbn [bind app]. f_equal. f_equal. rewrite HN. f_equal.
      apply (f_equal (@len _)) in M. rewrite !map_length in M. lia.
    - apply (read_escape_enc 5 8 16); try lia. unfold esc_max. lia. }
  rewrite E2. clear E2. cbv beta zeta.
  replace (16 <? Z.of_nat (len (f_boxes f))) with false by (symmetry; apply Z.ltb_ge; lia).
  cbn [bind]. rewrite Nat2Z.id. unfold head_boxes.
  replace (0 <? z1 (f_indep f)) with (f_indep f) by (destruct (f_indep f); reflexivity). reflexivity.
Qed.

Lemma nth_app_firstn {A} (a : nat) (l m : list A) j : (a <= len l)%nat ->
  nth_error (firstn a l ++ m) j = if (j <? a)%nat then nth_error l j else nth_error m (j - a).
Proof.
  intros H. destruct (Nat.ltb_spec j a) as [J|J].
  - rewrite nth_error_app1 by (rewrite firstn_length; lia). revert a l J H. induction j as [|j IH]; intros [|a] [|x l] J H; try lia; cbn; auto; cbn in H; try lia.
    apply IH; lia.
  - rewrite nth_error_app2 by (rewrite firstn_length; lia). rewrite firstn_length. f_equal. lia.
Qed.
Lemma nth_skipn' {A} (a : nat) (l : list A) j : nth_error (skipn a l) j = nth_error l (a + j).
Proof. revert l; induction a as [|a IH]; intros [|x l]; cbn; auto. destruct j; reflexivity. Qed.

Lemma head_nth f boxes j b : (len (f_boxes f) <= len boxes)%nat -> nth_error (head_boxes f boxes) j = Some b ->
  exists b0, nth_error boxes j = Some b0 /\
    ((j < len (f_boxes f))%nat -> b = if f_indep f then clear_prev (dk (f_kind f)) b0 else b0) /\
    ((len (f_boxes f) <= j)%nat -> b = clear_prev (dk (f_kind f)) (if f_indep f then clear_prev (dk (f_kind f)) b0 else b0)).
Proof.
  intros H E. unfold head_boxes in E.
  rewrite nth_app_firstn in E by (destruct (f_indep f); rewrite ?map_length; exact H).
  destruct (Nat.ltb_spec j (len (f_boxes f))) as [J|J].
  - destruct (f_indep f); [rewrite nth_error_map in E; destruct (nth_error boxes j) as [b0|]; [|discriminate]; injection E as <-|];
      eexists; repeat split; eauto; lia.
  - rewrite nth_error_map, nth_skipn' in E. replace (len (f_boxes f) + (j - len (f_boxes f)))%nat with j in E by lia.
    destruct (f_indep f); [rewrite nth_error_map in E|]; (destruct (nth_error boxes j) as [b0|]; [|discriminate]; injection E as <-);
      eexists; repeat split; eauto; lia.
Qed.

Lemma head_len f boxes : (len (f_boxes f) <= len boxes)%nat -> len (head_boxes f boxes) = len boxes.
Proof.
  intros H. unfold head_boxes. rewrite app_length, map_length, firstn_length, skipn_length.
  destruct (f_indep f); rewrite ?map_length; lia.
Qed.

(** ** One frame *)
Lemma leaves_good nch pk k f ref s : f_kind f = k -> box_ok nch pk f ref s -> ref_good k (h_full (leaves k s), h_row (leaves k s)).
Proof.
  intros EK (_ & _ & _ & _ & _ & OK). rewrite EK in OK. unfold leaves. cbn [h_full h_row]. split; cbn [fst snd].
  - destruct (s_cont s) as [q|q rows|rows|rows]; cbn [content_ok] in OK; try apply fits_dk;
      destruct k; cbn in *; auto; try apply OK; destruct OK; auto.
  - intros t.
    assert (G : forall time prev rows, rows_ok k time prev rows -> rows <> [] -> ref_fits k (nth t (settle k (last rows [])) (dk k))).
    { intros time prev rows. revert prev. induction rows as [|r rows IH]; intros prev H NE; [congruence|].
      cbn [rows_ok] in H. destruct H as [H1 H2]. destruct rows as [|r2 rows].
      - cbn [last]. eapply stl_fits. exact H1.
      - rewrite last_cons2. eapply IH; [exact H2|discriminate]. }
    assert (NE : effect (s_short s) (s_cont s) <> []).
    { destruct (effect_shape _ _ _ _ _ OK) as (E & _). intros X. rewrite X in E. destruct (s_short s); discriminate. }
    assert (Q : forall q, codable k (if s_time s then fst ref else dk k) q -> 
       (forall row, In row (effect (s_short s) (s_cont s)) -> forall o, In o row -> o = Some q \/ o = None) ->
       ref_fits k (nth t (settle k (last (effect (s_short s) (s_cont s)) [])) (dk k))).
    { intros q CQ HA. rewrite nth_settle. destruct (nth_error (last _ []) t) as [o|] eqn:E; [|apply fits_dk].
      apply nth_error_In in E.
      assert (I : In (last (effect (s_short s) (s_cont s)) []) (effect (s_short s) (s_cont s))).
      { revert NE. generalize (effect (s_short s) (s_cont s)). intros l. induction l as [|a [|b l] IH]; intros NE; [congruence|left; reflexivity|right; apply IH; discriminate]. }
      destruct (HA _ I _ E) as [-> | ->]; [|apply fits_dk]. destruct k; cbn in *; auto. }
    destruct (s_cont s) as [q|q rows|rows|rows] eqn:EC; cbn [content_ok] in OK.
    + apply (Q q); [exact OK|]. intros row HR o HO. cbn [effect] in HR. apply repeat_spec in HR. subst row. apply repeat_spec in HO. auto.
    + apply (Q q); [apply OK|]. intros row HR o HO. cbn [effect] in HR. apply in_map_iff in HR. destruct HR as (r & <- & _).
      apply in_map_iff in HO. destruct HO as ([|] & <- & _); auto.
    + eapply G; [apply OK|exact NE].
    + eapply G; [apply OK|exact NE].
Qed.

Lemma boxes_ok_nth nch pk f hs : forall ss i j s, boxes_ok nch pk f hs i ss -> nth_error ss j = Some s ->
  box_ok nch pk f (refs (f_kind f) hs (i + j) (s_short s)) s.
Proof.
  induction ss as [|s0 ss IH]; intros i [|j] s H N; cbn in N; try discriminate; cbn [boxes_ok] in H.
  - injection N as <-. rewrite Nat.add_0_r. apply H.
  - replace (i + S j)%nat with (S i + j)%nat by lia. apply IH; [apply H|exact N].
Qed.

Lemma frame_run pk hs f nch st sfb rest :
  tracks pk hs st -> frame_ok nch pk hs f -> t_nch st = nch -> nch <= 24 ->
  Forall (window_is st sfb) (f_boxes f) ->
  exists st', runA (mc_parse (z1 (f_indep f)) sfb st) (frame_bits nch hs f ++ rest) = Done ((0, st'), rest) /\
    t_np st' = Z.of_nat (len (f_boxes f)) /\ t_type st' = kz (f_kind f) /\ t_fill st' = z1 (f_fill f) /\
    Forall2 shows (f_boxes f) (firstn (len (f_boxes f)) (t_boxes st')) /\
    tracks (f_kind f) (map (leaves (f_kind f)) (f_boxes f)) st' /\
    t_start st' = t_start st /\ t_cmap st' = t_cmap st /\ t_nch st' = t_nch st.
Proof.
  intros (T1 & T2 & T3 & T4 & T5 & T6) FO HN H24 WI. assert (FO' := FO). destruct FO' as (F1 & F2 & F3).
  unfold mc_parse, mc_parse_with, frame_bits. rewrite <- !app_assoc.
  rewrite (head_run pk nch hs f st _ _ FO T2). cbv beta iota. cbn [negb Z.eqb t_np].
  set (st1 := mkMct _ _ _ _ _ _ _ _ _ _). rewrite Nat2Z.id.
  assert (L1 : len (head_boxes f (t_boxes st)) = 16%nat) by (rewrite head_len; lia).
  destruct (boxes_run f pk nch st1 sfb hs) with (ss := f_boxes f) (i := 0%nat) (bs := head_boxes f (t_boxes st)) (rest := rest)
    as (bs' & R & L' & A & C); auto.
  { intros j s b Hs Hb. cbn [Nat.add] in *.
    destruct (head_nth f (t_boxes st) j b ltac:(lia) Hb) as (b0 & E0 & N1 & _).
    assert (Hj : (j < len (f_boxes f))%nat) by (apply nth_error_Some; congruence). specialize (N1 Hj).
    specialize (T5 j b0 E0).
    assert (SZ0 : sized b0) by (destruct (nth_error hs j); apply T5).
    assert (BO := boxes_ok_nth _ _ _ _ _ 0 j s F3 Hs). cbn [Nat.add] in BO.
    destruct BO as (_ & _ & _ & _ & BT & _).
    split; [subst b; destruct (f_indep f); [apply sized_clear|]; exact SZ0|]. split.
    - intros KP. destruct (F2 KP) as [FI FM]. rewrite FI in N1. subst b.
      assert (X : nth_error (map h_pair hs) j = Some (s_pair s)) by (rewrite <- FM, nth_error_map, Hs; reflexivity).
      rewrite nth_error_map in X. destruct (nth_error hs j) as [h|] eqn:Eh; [|discriminate]. cbn in X. injection X as <-. apply T5.
    - intros TM. destruct (BT TM) as [FI PK]. subst pk. rewrite FI in N1. subst b.
      split; [apply refs_good, T6|]. unfold refs, rewound.
      destruct (nth_error hs j) as [h|] eqn:Eh.
      + destruct T5 as (S1 & S2 & S3 & S4). rewrite S2. destruct (Bool.eqb (h_short h) (s_short s)); [exact S4|].
        apply clear_idle. exact SZ0.
      + destruct (Bool.eqb (x_long b0 =? 0) (s_short s)); [apply T5|]. apply clear_idle. exact SZ0. }
  unfold mc_boxes. cbn [t_boxes]. rewrite runA_bind. cbn [st1 t_boxes] in R.
  change (t_boxes st1) with (head_boxes f (t_boxes st)). rewrite R. cbn [negb Z.eqb runA].
  eexists. split; [reflexivity|]. cbn [t_np t_type t_fill t_boxes t_ptype t_start t_cmap t_nch st1].
  split; [reflexivity|]. split; [reflexivity|]. split; [reflexivity|].
  assert (LS : len (f_boxes f) = len (map (leaves (f_kind f)) (f_boxes f))) by (rewrite map_length; reflexivity).
  split; [|split; [|auto]].
  - rewrite firstn_app, firstn_firstn, Nat.min_id, firstn_length, L', Nat.min_l by lia. rewrite Nat.sub_diag. cbn [firstn]. rewrite app_nil_r.
    assert (G : forall ss m, (forall j s, nth_error ss j = Some s -> exists b, nth_error m j = Some b /\ shows s b) ->
        Forall2 shows ss (firstn (len ss) m)).
    { clear. induction ss as [|s ss IH]; intros m H; [constructor|].
      destruct (H 0%nat s eq_refl) as (b & Eb & Sb). destruct m as [|b' m]; [discriminate|]. cbn in Eb. injection Eb as ->.
      cbn [len firstn]. constructor; [exact Sb|]. apply IH. intros j s0 Hs. exact (H (S j) s0 Hs). }
    apply G. intros j s Hs. destruct (C j s Hs) as (b & B1 & B2 & _). exists b. auto.
  - unfold tracks. cbn [t_np t_type t_fill t_boxes t_ptype]. rewrite <- LS. split; [reflexivity|]. split; [reflexivity|].
    split; [rewrite app_length, map_length, firstn_length, skipn_length; lia|]. split; [exact F1|]. split.
    + intros j b Hb. rewrite nth_app_firstn in Hb by lia. rewrite nth_error_map.
      destruct (Nat.ltb_spec j (len (f_boxes f))) as [J|J].
      * destruct (nth_error_Some_ex (f_boxes f) j J) as [s Es]. rewrite Es. cbn [option_map].
        destruct (C j s Es) as (b' & B1 & _ & B3). cbn [Nat.add] in B1. rewrite B1 in Hb. injection Hb as <-. exact B3.
      * replace (nth_error (f_boxes f) j) with (@None sbox) by (symmetry; apply nth_error_None; exact J). cbn [option_map].
        rewrite nth_error_map, nth_skipn' in Hb. replace (len (f_boxes f) + (j - len (f_boxes f)))%nat with j in Hb by lia.
        rewrite A in Hb by lia. destruct (nth_error (head_boxes f (t_boxes st)) j) as [b1|] eqn:E1; [|discriminate].
        cbn in Hb. injection Hb as <-.
        destruct (head_nth f (t_boxes st) j b1 ltac:(lia) E1) as (b0 & E0 & _ & N2). specialize (N2 J).
        assert (SZ0 : sized b0) by (specialize (T5 j b0 E0); destruct (nth_error hs j); apply T5).
        assert (ID : idle (f_kind f) b1).
        { subst b1. apply clear_idle. destruct (f_indep f); [apply sized_clear|]; exact SZ0. }
        exact ID.
    + apply Forall_forall. intros h Hh. apply in_map_iff in Hh. destruct Hh as (s & <- & Hs).
      apply In_nth_error in Hs. destruct Hs as [j Hj].
      eapply leaves_good; [reflexivity|]. exact (boxes_ok_nth _ _ _ _ _ 0 j s F3 Hj).
Qed.
