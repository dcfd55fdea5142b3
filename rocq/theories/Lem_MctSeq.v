(** * Lem_MctSeq: the configuration of the tool, and streams of frames *)

From Coq Require Import ZArith List Lia Bool Ascii String.
From Verif Require Import Bits BitBuf BitWrite Frame Prog Wp Loops Escape Config Leaf Mct Spec_Mct Lem_MhasProps Lem_MctHuff Lem_MctBand Lem_MctBox Lem_MctRT Lem_MctFrame Lem_MctSafe Lem_MctCut.
Import ListNotations.
Open Scope list_scope.
Open Scope Z_scope.

Lemma picked_len mask : forall c, (len (picked_from c mask) <= len mask)%nat.
Proof. induction mask as [|b r IH]; intros c; cbn [picked_from List.length]; [lia|]. specialize (IH (S c)). destruct b; cbn [List.length]; lia. Qed.

Lemma picked_range mask : forall c i p, nth_error (picked_from c mask) i = Some p -> (c <= p < c + len mask)%nat.
Proof.
  induction mask as [|b r IH]; intros c i p H; cbn [picked_from] in H; [destruct i; discriminate|]. cbn [List.length].
  destruct b.
  - destruct i as [|i]; cbn in H; [injection H as <-; lia|]. apply IH in H. lia.
  - apply IH in H. lia.
Qed.

Definition same_but_map (st st' : mct) : Prop :=
  t_fill st' = t_fill st /\ t_type st' = t_type st /\ t_ptype st' = t_ptype st /\ t_keep st' = t_keep st /\
  t_np st' = t_np st /\ t_start st' = t_start st /\ t_boxes st' = t_boxes st.

Definition init_body (ety start : Z) (c : nat) (st : mct) : prog (Z * mct) :=
    let chan := Z.of_nat c in
    b <- rd 1 ;;
    cm <- aset (t_cmask st) (chan + start) b ;;
    let st := mkMct (t_fill st) (t_type st) (t_ptype st) (t_keep st) (t_np st) (t_start st)
                    cm (t_cmap st) (t_nch st) (t_boxes st) in
    if 0 <? b then
      if ety =? 2 then Ret (E_LFE, st)
      else
        mp <- aset (t_cmap st) (t_nch st + start) (chan + start) ;;
        Ret (0, mkMct (t_fill st) (t_type st) (t_ptype st) (t_keep st) (t_np st) (t_start st)
                      (t_cmask st) mp (t_nch st + 1) (t_boxes st))
    else Ret (0, st).

Lemma init_loop ety (start : nat) : ety <> 2 -> forall mask c (n : nat) st rest, len (t_cmask st) = 24%nat -> len (t_cmap st) = 24%nat ->
  (start + c + len mask <= 24)%nat -> t_nch st = Z.of_nat n -> (start + n + len (picked_from c mask) <= 24)%nat ->
  exists st', runA (forE (len mask) c (init_body ety (Z.of_nat start)) st) (mask ++ rest) = Done ((0, st'), rest) /\
    same_but_map st st' /\ len (t_cmask st') = 24%nat /\ len (t_cmap st') = 24%nat /\ t_nch st' = Z.of_nat (n + len (picked_from c mask)) /\
    (forall i, (i < start + n \/ start + n + len (picked_from c mask) <= i)%nat -> nth_error (t_cmap st') i = nth_error (t_cmap st) i) /\
    (forall i p, nth_error (picked_from c mask) i = Some p -> nth_error (t_cmap st') (start + n + i) = Some (Z.of_nat (start + p))).
Proof.
  intros NE. induction mask as [|b mask IH]; intros c n st rest L1 L2 H1 H2 H3.
  - exists st. split; [reflexivity|]. cbn [picked_from List.length]. rewrite Nat.add_0_r.
    split; [unfold same_but_map; auto 10|]. do 4 (split; [auto|]). intros i p N. destruct i; discriminate.
  - cbn [List.length forE picked_from] in *. rewrite runA_bind. unfold init_body at 1. change (b :: mask ++ rest) with (bit b ++ (mask ++ rest)).
    cbn [app]. change (b :: mask ++ rest) with (bit b ++ (mask ++ rest)).
    rewrite rd_bit. replace (Z.of_nat c + Z.of_nat start) with (Z.of_nat (c + start)) by lia.
    rewrite aset_run by lia. cbv zeta. cbn [t_fill t_type t_ptype t_keep t_np t_start t_cmask t_cmap t_nch t_boxes].
    destruct b; cbn [z1 Z.ltb Z.compare] in *.
    + destruct (Z.eqb_spec ety 2) as [E|_]; [congruence|]. rewrite H2. replace (Z.of_nat n + Z.of_nat start) with (Z.of_nat (n + start)) by lia.
      cbn [List.length] in H3. rewrite aset_run by lia. cbn [runA Z.eqb].
      destruct (IH (S c) (S n) (mkMct (t_fill st) (t_type st) (t_ptype st) (t_keep st) (t_np st) (t_start st) (upd1 (t_cmask st) (c + start) 1)
          (upd1 (t_cmap st) (n + start) (Z.of_nat (c + start))) (Z.of_nat n + 1) (t_boxes st)) rest) as (st' & R & S1 & S2 & S3 & S4 & S5 & S6);
        cbn [t_fill t_type t_ptype t_keep t_np t_start t_cmask t_cmap t_nch t_boxes] in *; try (rewrite ?upd1_len by lia; lia).
      exists st'. split; [exact R|]. split; [exact S1|]. split; [exact S2|]. split; [exact S3|].
      split; [cbn [List.length]; rewrite S4; lia|]. split.
      * intros i Hi. cbn [List.length] in Hi. rewrite S5 by lia. apply upd1_neq; lia.
      * intros i p N. destruct i as [|i]; cbn [nth_error] in N.
        -- injection N as <-. rewrite S5 by lia. rewrite Nat.add_0_r, (Nat.add_comm start n). rewrite upd1_eq by lia. f_equal. lia.
        -- replace (start + n + S i)%nat with (start + S n + i)%nat by lia. apply S6, N.
    + cbn [runA Z.eqb].
      destruct (IH (S c) n (mkMct (t_fill st) (t_type st) (t_ptype st) (t_keep st) (t_np st) (t_start st) (upd1 (t_cmask st) (c + start) 0)
          (t_cmap st) (t_nch st) (t_boxes st)) rest) as (st' & R & S1 & S2 & S3 & S4 & S5 & S6);
        cbn [t_fill t_type t_ptype t_keep t_np t_start t_cmask t_cmap t_nch t_boxes] in *; try (rewrite ?upd1_len by lia; lia).
      exists st'. auto 10.
Qed.

(** A structure on which nothing was decoded yet. *)
Definition unused (st : mct) : Prop :=
  t_np st = 0 /\ t_ptype st = 0 /\ t_nch st = 0 /\ len (t_cmask st) = 24%nat /\ len (t_cmap st) = 24%nat /\ t_boxes st = repeat box0 16.

Lemma unused0 : unused mct0.
Proof. repeat split. Qed.

(** The tool configured for the channels [mask] from channel [start] on. *)
Definition set_up (start : nat) (mask : list bool) (st : mct) : Prop :=
  t_start st = Z.of_nat start /\ t_nch st = Z.of_nat (len (picked mask)) /\ len (t_cmap st) = 24%nat /\
  forall i p, nth_error (picked mask) i = Some p -> nth_error (t_cmap st) (start + i) = Some (Z.of_nat (start + p)).

Lemma init_run ety start mask st rest : ety <> 2 -> unused st -> (start + len mask <= 24)%nat ->
  exists st', runA (mc_init ety (Z.of_nat (len mask)) (Z.of_nat start) st) (mask ++ rest) =
      Done ((if Z.of_nat (len (picked mask)) <? 2 then E_ENTRIES else 0, st'), rest) /\
    set_up start mask st' /\ t_boxes st' = repeat box0 16 /\ t_np st' = 0 /\ t_ptype st' = 0 /\
    (forall i, (i < start \/ start + len (picked mask) <= i)%nat -> nth_error (t_cmap st') i = nth_error (t_cmap st) i).
Proof.
  intros NE (U1 & U2 & U3 & U4 & U5 & U6) H. unfold mc_init. rewrite Nat2Z.id.
  assert (LP := picked_len mask 0).
  destruct (init_loop ety start NE mask 0 0 (mkMct (t_fill st) (t_type st) (t_ptype st) (t_keep st) (t_np st) (Z.of_nat start)
                  (t_cmask st) (t_cmap st) (t_nch st) (t_boxes st)) rest) as (st' & R & S1 & S2 & S3 & S4 & S5 & S6);
    cbn [t_fill t_type t_ptype t_keep t_np t_start t_cmask t_cmap t_nch t_boxes] in *; try lia.
  match goal with |- context [forE _ _ ?f _] => change f with (init_body ety (Z.of_nat start)) end.
  rewrite runA_bind. cbn [t_fill t_type t_ptype t_keep t_np t_start t_cmask t_cmap t_nch t_boxes]. rewrite R. cbn [Z.eqb].
  destruct S1 as (E1 & E2 & E3 & E4 & E5 & E6 & E7). cbn [t_fill t_type t_ptype t_keep t_np t_start t_cmask t_cmap t_nch t_boxes] in *.
  exists st'. split.
  { rewrite S4. cbn [Nat.add]. unfold picked. destruct (_ <? 2); reflexivity. }
  split.
  { split; [exact E6|]. split; [rewrite S4; reflexivity|]. split; [exact S3|]. intros i p N. specialize (S6 i p N).
    rewrite Nat.add_0_r in S6. exact S6. }
  split; [congruence|]. split; [congruence|]. split; [congruence|]. intros i Hi. apply S5. unfold picked in Hi. lia.
Qed.

(** ** Streams *)

(** The payloads of successive frames, each with the independency flag of its frame and the
    window of every channel; decoding stops at the first error.  The state after each frame
    is given, with what is left of the payload. *)
Fixpoint decode_frames (ps : list (Z * list (option Z) * list Z)) (st : mct) : outcome (list (mct * rbuf)) :=
  match ps with
  | [] => Done []
  | (indep, sfb, d) :: r =>
    match exec (mc_parse indep sfb st) (fresh d) with
    | Done ((e, st'), s') =>
      if e =? 0 then match decode_frames r st' with Done l => Done ((st', s') :: l) | o => o end else Jmp e
    | Jmp c => Jmp c
    | UB r => UB r
    end
  end.

(** The windows of the channels of a box, known from the core decoder. *)
Definition window_of (start : nat) (mask : list bool) (sfb : list (option Z)) (s : sbox) : Prop :=
  exists c il, nth_error (picked mask) (Z.to_nat (fst (s_pair s))) = Some c /\
    nth_error sfb (start + c) = Some (Some il) /\ (il =? 0) = s_short s.

Definition carries (start : nat) (mask : list bool) (fb : frame * list bool) (p : Z * list (option Z) * list Z) : Prop :=
  let '(f, bits) := fb in let '(indep, sfb, d) := p in
  indep = z1 (f_indep f) /\ are_bytes d /\ (exists pad, bytes_bits d = bits ++ pad) /\
  Forall (window_of start mask sfb) (f_boxes f).

Definition shows_frame (f : frame) (st : mct) : Prop :=
  t_np st = Z.of_nat (len (f_boxes f)) /\ t_type st = kz (f_kind f) /\ t_fill st = z1 (f_fill f) /\
  Forall2 shows (f_boxes f) (firstn (len (f_boxes f)) (t_boxes st)).

Lemma window_conv start mask st sfb f pk hs : set_up start mask st -> frame_ok (t_nch st) pk hs f ->
  Forall (window_of start mask sfb) (f_boxes f) -> Forall (window_is st sfb) (f_boxes f).
Proof.
  intros (S1 & S2 & S3 & S4) (_ & _ & F3) W. apply forall_nth. intros i s N.
  pose proof (nth_in _ _ _ _ W N) as (c & il & W1 & W2 & W3).
  assert (BO := boxes_ok_nth _ _ _ _ _ 0 i s F3 N). destruct BO as (_ & B2 & _).
  exists (start + c)%nat, il. split; [lia|]. split; [|auto]. rewrite S1.
  replace (Z.to_nat (Z.of_nat start + fst (s_pair s))) with (start + Z.to_nat (fst (s_pair s)))%nat by lia. apply S4, W1.
Qed.

Theorem stream_run start mask : (start + len mask <= 24)%nat -> forall fs pk hs ps st,
  tracks pk hs st -> set_up start mask st -> stream_ok (Z.of_nat (len (picked mask))) pk hs fs ->
  Forall2 (carries start mask) (combine fs (stream_bits (Z.of_nat (len (picked mask))) hs fs)) ps ->
  exists sts, decode_frames ps st = Done sts /\ Forall2 (fun f r => shows_frame f (fst r)) fs sts.
Proof.
  intros HM. set (nch := Z.of_nat (len (picked mask))).
  assert (LP := picked_len mask 0).
  induction fs as [|f fs IH]; intros pk hs ps st T SU SO C.
  - inversion C. subst. exists []. split; constructor.
  - cbn [stream_bits combine stream_ok] in *. inversion C as [|x y xs ys C1 C2]. subst.
    destruct y as [[indep sfb] d]. destruct C1 as (-> & D1 & (pad & D2) & D3). destruct SO as [SO1 SO2].
    assert (SU' := SU). destruct SU' as (S1 & S2 & S3 & S4).
    destruct (frame_run pk hs f nch st sfb pad T SO1 S2) as (st' & R & R1 & R2 & R3 & R4 & R5 & R6 & R7 & R8).
    { unfold nch, picked. lia. }
    { eapply window_conv; eauto. rewrite S2. exact SO1. }
    rewrite <- D2, <- rest_fresh in R.
    destruct (exec_of_run _ _ _ _ (wf_fresh _ D1) R) as (s' & X & _ & _).
    cbn [decode_frames]. rewrite X. cbn [Z.eqb].
    destruct (IH (f_kind f) (map (leaves (f_kind f)) (f_boxes f)) ys st' R5) as (sts & Y1 & Y2).
    { unfold set_up. rewrite R6, R7, R8. auto. }
    { exact SO2. }
    { exact C2. }
    rewrite Y1. exists ((st', s') :: sts). split; [reflexivity|]. constructor; [|exact Y2].
    unfold shows_frame. auto.
Qed.

Lemma tracks_unused st : t_boxes st = repeat box0 16 -> t_np st = 0 -> t_ptype st = 0 -> tracks Prediction [] st.
Proof.
  intros E1 E2 E3. unfold tracks. rewrite E1, E2, E3. split; [reflexivity|]. split; [reflexivity|]. split; [reflexivity|].
  split; [cbn; lia|]. split; [|constructor]. intros i b N. apply nth_error_In, repeat_spec in N. subst b.
  replace (nth_error (@nil hist) i) with (@None hist) by (destruct i; reflexivity).
  split; [repeat split|]. split; [reflexivity|]. intros t.
  first [ intros ?; cbn [snd]; rewrite nth_nil | cbn [snd]; rewrite nth_nil ]; unfold box0; cbn [x_sprev dk]; try (apply nth_error_rep; lia).
Qed.

Theorem mct_stream ety start mask fs ps d st sd : ety <> 2 -> unused st -> (start + len mask <= 24)%nat -> (2 <= len (picked mask))%nat ->
  wf d -> rest_bits d = mask ++ sd ->
  stream_ok (Z.of_nat (len (picked mask))) Prediction [] fs ->
  Forall2 (carries start mask) (combine fs (stream_bits (Z.of_nat (len (picked mask))) [] fs)) ps ->
  exists st' d' sts, exec (mc_init ety (Z.of_nat (len mask)) (Z.of_nat start) st) d = Done ((0, st'), d') /\ rest_bits d' = sd /\
    decode_frames ps st' = Done sts /\ Forall2 (fun f r => shows_frame f (fst r)) fs sts.
Proof.
  intros NE U H1 H2 W RB SO C.
  destruct (init_run ety start mask st sd NE U H1) as (st' & R & S1 & S2 & S3 & S4 & _).
  replace (Z.of_nat (len (picked mask)) <? 2) with false in R by (symmetry; apply Z.ltb_ge; lia).
  rewrite <- RB in R. destruct (exec_of_run _ _ _ _ W R) as (d' & X & _ & R').
  destruct (stream_run start mask H1 fs Prediction [] ps st' (tracks_unused _ S2 S3 S4) S1 SO C) as (sts & Y1 & Y2).
  exists st', d', sts. auto.
Qed.

(** ** Arbitrary payloads *)
Lemma inv_init start mask st : set_up start mask st -> (start + len mask <= 24)%nat -> (1 <= len mask)%nat ->
  t_boxes st = repeat box0 16 -> t_np st = 0 -> t_ptype st = 0 -> Forall (fun c => 0 <= c <= 23) (t_cmap st) ->
  inv false 0 st.
Proof.
  intros (S1 & S2 & S3 & _) H H1 E1 E2 E3 F. assert (LP := picked_len mask 0). unfold picked in S2. unfold inv. rewrite S1, S2, E1, E2, E3.
  split; [reflexivity|]. do 6 (split; [try lia; exact S3|]). split; [exact F|].
  apply Forall_forall. intros b Hb. apply repeat_spec in Hb. subst b. split; [repeat split|]. split.
  - unfold pair_fits. rewrite S1. cbn [box0 x_c0 x_c1]. lia.
  - split; [cbn; lia|]. intros t v N. cbn [box0 x_sprev] in N. apply nth_error_In, repeat_spec in N. subst v. cbn. lia.
Qed.

Lemma map_range start mask st st' : set_up start mask st' -> (start + len mask <= 24)%nat -> len (t_cmap st') = 24%nat ->
  (forall i, (i < start \/ start + len (picked mask) <= i)%nat -> nth_error (t_cmap st') i = nth_error (t_cmap st) i) ->
  Forall (fun c => 0 <= c <= 23) (t_cmap st) -> Forall (fun c => 0 <= c <= 23) (t_cmap st').
Proof.
  intros (S1 & S2 & S3 & S4) H L E F. apply forall_nth. intros i x N.
  destruct (le_lt_dec start i) as [A|A]; [destruct (le_lt_dec (start + len (picked mask)) i) as [B|B]|].
  - rewrite E in N by lia. apply (nth_in _ _ _ _ F N).
  - destruct (nth_error (picked mask) (i - start)) as [p|] eqn:P; [|apply nth_error_None in P; lia].
    assert (R := picked_range _ _ _ _ P). specialize (S4 _ _ P). replace (start + (i - start))%nat with i in S4 by lia.
    rewrite S4 in N. injection N as <-. lia.
  - rewrite E in N by lia. apply (nth_in _ _ _ _ F N).
Qed.

Definition payload_ok (p : Z * list (option Z) * list Z) : Prop := len (snd (fst p)) = 24%nat /\ are_bytes (snd p).

Lemma frames_safe ps : forall B st, 0 <= B -> B + 3904 * Z.of_nat (len ps) <= 2 ^ 31 - 200 -> inv true B st -> Forall payload_ok ps ->
  forall r, decode_frames ps st <> UB r.
Proof.
  induction ps as [|[[indep sfb] d] ps IH]; intros B st B0 BS IV F r; cbn [decode_frames]; [discriminate|].
  cbn [len List.length] in BS. destruct (Forall_inv F) as [F1 F2]. cbn [fst snd] in F1, F2. apply Forall_inv_tail in F.
  assert (P := parse_safe indep sfb st B (fresh d) B0 ltac:(lia) IV F1 (wf_fresh d F2)).
  destruct (exec _ _) as [[[e st'] s']|c|u]; [|discriminate|destruct P].
  destruct (Z.eqb_spec e 0) as [->|E]; [|discriminate]. destruct (P eq_refl) as [P1 _].
  assert (Q := IH (B + 3904) st' ltac:(lia) ltac:(lia) P1 F). destruct (decode_frames ps st'); congruence.
Qed.

(** Every angle in force is an index of the tables of sines and cosines, every channel one of
    the 24. *)
Definition in_tables (st : mct) : Prop :=
  forall i b, Z.of_nat i < t_np st -> nth_error (t_boxes st) i = Some b ->
    0 <= t_start st + x_c0 b <= 23 /\ 0 <= t_start st + x_c1 b <= 23 /\
    (t_type st <> 0 -> forall t m q, Z.of_nat t < x_nb b -> nth_error (x_mask b) t = Some m -> 0 < m ->
      nth_error (x_coef b) t = Some q -> 0 <= q <= 64).

Lemma ready_in B st : 0 <= t_start st -> ready false B st -> in_tables st.
Proof.
  intros H0 R i b Hi N. unfold ready in R. assert (N' : nth_error (firstn (Z.to_nat (t_np st)) (t_boxes st)) i = Some b).
  { rewrite nth_error_firstn_lt by lia. exact N. }
  pose proof (nth_in _ _ _ _ R N') as ((P1 & P2 & P3 & P4) & Q1 & Q2). split; [lia|]. split; [lia|].
  intros T t m q H1 H2 H3 H4. assert (V : val_ok false (t_type st) B q).
  { apply (Q2 t q); [|exact H4]. split; [lia|eauto]. }
  unfold val_ok in V. destruct (Z.eqb_spec (t_type st) 0); [congruence|exact V].
Qed.

Lemma frames_in ps : forall B st l, 0 <= B -> B + 3904 * Z.of_nat (len ps) <= 2 ^ 31 - 200 -> inv false B st -> Forall payload_ok ps ->
  decode_frames ps st = Done l -> Forall (fun r => (19 <= len (rest_bits (snd r)))%nat) l -> Forall (fun r => in_tables (fst r)) l.
Proof.
  induction ps as [|[[indep sfb] d] ps IH]; intros B st l B0 BS IV F E L; cbn [decode_frames] in E; [injection E as <-; constructor|].
  cbn [len List.length] in BS. destruct (Forall_inv F) as [F1 F2]. cbn [fst snd] in F1, F2. apply Forall_inv_tail in F.
  destruct (exec (mc_parse indep sfb st) (fresh d)) as [[[e st'] s']|c|u] eqn:X; try discriminate.
  destruct (Z.eqb_spec e 0) as [->|NE]; [|discriminate].
  destruct (decode_frames ps st') as [l'|c|u] eqn:D; try discriminate. injection E as <-.
  pose proof (Forall_inv L) as L1. apply Forall_inv_tail in L. cbn [snd] in L1.
  destruct (parse_ready indep sfb st B (fresh d) st' s' B0 ltac:(lia) IV F1 (wf_fresh d F2) X L1) as [P1 P2].
  constructor; [|apply (IH (B + 3904) st' l' ltac:(lia) ltac:(lia) P1 F D L)].
  cbn [fst]. eapply ready_in; [|exact P2]. destruct P1 as (_ & _ & _ & P1 & _). lia.
Qed.

Lemma init_inv ety start mask st sd d st' d' : ety <> 2 -> unused st -> Forall (fun c => 0 <= c <= 23) (t_cmap st) -> (start + len mask <= 24)%nat -> wf d -> rest_bits d = mask ++ sd ->
  exec (mc_init ety (Z.of_nat (len mask)) (Z.of_nat start) st) d = Done ((0, st'), d') -> inv false 0 st'.
Proof.
  intros NE U UF H1 W RB X.
  destruct (init_run ety start mask st sd NE U H1) as (st1 & R & S1 & S2 & S3 & S4 & S5).
  rewrite <- RB in R. destruct (exec_of_run _ _ _ _ W R) as (d1 & X1 & _ & _). rewrite X in X1. injection X1 as E -> _.
  assert (LP := picked_len mask 0). unfold picked in E.
  destruct (Z.ltb_spec (Z.of_nat (len (picked_from 0 mask))) 2) as [G|G]; [discriminate|].
  apply (inv_init start mask); auto; try lia. eapply map_range; eauto. apply S1.
Qed.

Theorem mct_safe ety start mask st sd d st' d' ps : ety <> 2 -> unused st -> Forall (fun c => 0 <= c <= 23) (t_cmap st) -> (start + len mask <= 24)%nat -> wf d -> rest_bits d = mask ++ sd ->
  exec (mc_init ety (Z.of_nat (len mask)) (Z.of_nat start) st) d = Done ((0, st'), d') ->
  Forall payload_ok ps -> Z.of_nat (len ps) <= 550000 ->
  (forall r, decode_frames ps st' <> UB r) /\
  (forall l, decode_frames ps st' = Done l -> Forall (fun r => (19 <= len (rest_bits (snd r)))%nat) l -> Forall (fun r => in_tables (fst r)) l).
Proof.
  intros NE U UF H1 W RB X F HN. assert (IV := init_inv ety start mask st sd d st' d' NE U UF H1 W RB X). split.
  - apply (frames_safe ps 0); auto; lia.
  - intros l. apply (frames_in ps 0); auto; lia.
Qed.

(** ** A payload that ends inside a codeword *)
Definition all_long : list (option Z) := repeat (Some 1) 24.
Definition cut_stream : list (Z * list (option Z) * list Z) := [(1, all_long, [66; 59; 192]); (0, all_long, [103])].

Lemma cut_accepted : exists st' d' l r s' b,
  exec (mc_init 3 2 0 mct0) (fresh [192]) = Done ((0, st'), d') /\ Forall payload_ok cut_stream /\
  decode_frames cut_stream st' = Done [l; (r, s')] /\ t_type r = 1 /\ t_np r = 1 /\
  nth_error (t_boxes r) 0 = Some b /\ x_nb b = 64 /\ nth_error (x_mask b) 0 = Some 1 /\ nth_error (x_coef b) 0 = Some (-1).
Proof.
  do 6 eexists. split; [vm_compute; reflexivity|]. split.
  { repeat constructor; cbn; lia. }
  split; [vm_compute; reflexivity|]. repeat split.
Qed.

(** ** A second configuration *)
Lemma init_again : exists st1 d1 st2 d2,
  exec (mc_init 3 4 0 mct0) (fresh [208]) = Done ((0, st1), d1) /\
  exec (mc_init 3 4 0 st1) (fresh [208]) = Done ((0, st2), d2) /\
  t_nch st1 = 3 /\ firstn 4 (t_cmap st1) = [0; 1; 3; 0] /\ t_nch st2 = 6 /\ firstn 6 (t_cmap st2) = [0; 1; 3; 0; 1; 3].
Proof. do 4 eexists. split; [vm_compute; reflexivity|]. split; [vm_compute; reflexivity|]. repeat split. Qed.

Lemma init_overrun : exists st1 d1, exec (mc_init 3 16 0 mct0) (fresh [255; 255]) = Done ((0, st1), d1) /\
  exec (mc_init 3 16 0 st1) (fresh [255; 255]) = UB UOob.
Proof. do 2 eexists. split; [vm_compute; reflexivity|]. vm_compute. reflexivity. Qed.

(** ** Single steps, and examples *)
Lemma mct_frame pk hs f nch st sfb rest s : tracks pk hs st -> frame_ok nch pk hs f -> t_nch st = nch -> nch <= 24 ->
  Forall (window_is st sfb) (f_boxes f) -> wf s -> rest_bits s = frame_bits nch hs f ++ rest ->
  exists st' s', exec (mc_parse (z1 (f_indep f)) sfb st) s = Done ((0, st'), s') /\ rest_bits s' = rest /\
    shows_frame f st' /\ tracks (f_kind f) (map (leaves (f_kind f)) (f_boxes f)) st'.
Proof.
  intros T FO HN H24 WI W RB. destruct (frame_run pk hs f nch st sfb rest T FO HN H24 WI) as (st' & R & R1 & R2 & R3 & R4 & R5 & _).
  rewrite <- RB in R. destruct (exec_of_run _ _ _ _ W R) as (s' & X & _ & R'). exists st', s'. unfold shows_frame. auto 12.
Qed.

Lemma init_exec ety start mask st sd d : ety <> 2 -> unused st -> (start + len mask <= 24)%nat -> wf d -> rest_bits d = mask ++ sd ->
  exists st' d', exec (mc_init ety (Z.of_nat (len mask)) (Z.of_nat start) st) d =
      Done ((if Z.of_nat (len (picked mask)) <? 2 then E_ENTRIES else 0, st'), d') /\ rest_bits d' = sd /\
    t_start st' = Z.of_nat start /\ t_nch st' = Z.of_nat (len (picked mask)) /\
    (forall i p, nth_error (picked mask) i = Some p -> nth_error (t_cmap st') (start + i) = Some (Z.of_nat (start + p))).
Proof.
  intros NE U H W RB. destruct (init_run ety start mask st sd NE U H) as (st' & R & (S1 & S2 & S3 & S4) & _).
  rewrite <- RB in R. destruct (exec_of_run _ _ _ _ W R) as (d' & X & _ & R'). exists st', d'. auto.
Qed.

Lemma spare_case : exists st' d' l, exec (mc_init 3 2 0 mct0) (fresh [192]) = Done ((0, st'), d') /\
  decode_frames [(1, all_long, [66; 59; 192; 0; 0])] st' = Done l /\
  len l = 1%nat /\ Forall (fun r => (19 <= len (rest_bits (snd r)))%nat) l.
Proof.
  do 3 eexists. split; [vm_compute; reflexivity|]. split; [vm_compute; reflexivity|]. split; [reflexivity|].
  repeat constructor; cbn; lia.
Qed.

Definition ex_mask : list bool := [true; true; false; true; true; false; true].
Definition ex_frames : list frame := [
  mkFrame true true Rotation false [
    mkSbox true (1, 3) true false false (Masked 20 [[true; false]; [true; true]; [false; false]; [true; false]; [true; false]; [true; false]; [false; true]; [true; true]]);
    mkSbox false (0, 4) true false false (PerBandMasked [[Some 3; None]; [None; Some 64]; [None; None]; [Some 1; Some 2]; [Some 48; None]; [None; Some 7]; [Some 9; None]; [Some 63; Some 0]])];
  mkFrame false false Rotation true [
    mkSbox false (1, 3) true false true (Whole 5);
    mkSbox false (0, 4) false false false (Whole 64)];
  mkFrame false true Prediction false [
    mkSbox false (2, 3) false true false (PerBand [[5; -20; 0; 11; 12; 13]]);
    mkSbox true (0, 1) false false false (Whole (-31))]].
Definition ex_payloads : list (Z * list (option Z) * list Z) :=
  let lg := Some 1 in let sh := Some 0 in
  map (fun x => let '(f, b, s) := x in (z1 (f_indep f), s, pack b))
    (combine (combine ex_frames (stream_bits 5 [] ex_frames))
       [repeat sh 24; lg :: repeat sh 23; repeat lg 24]).

Ltac ok1 := cbn; repeat first
  [ progress cbn | split | discriminate | exact I | lia
  | match goal with |- forall _, _ => intros | |- _ -> _ => intros end
  | match goal with |- Forall _ _ => constructor end | congruence | reflexivity | match goal with |- exists n, _ /\ Forall _ (?r :: _) => exists (List.length r) end ].

Lemma ex_stream : stream_ok 5 Prediction [] ex_frames /\ picked ex_mask = [0; 1; 3; 4; 6]%nat /\
  map (@len bool) (stream_bits 5 [] ex_frames) = [143; 27; 98]%nat /\
  (exists ps, Forall2 (carries 0 ex_mask) (combine ex_frames (stream_bits 5 [] ex_frames)) ps).
Proof.
  split; [|split; [reflexivity|split; [vm_compute; reflexivity|]]].
  - unfold ex_frames. ok1.
  - exists ex_payloads. set (bs := stream_bits 5 [] ex_frames). vm_compute in bs. unfold ex_payloads. fold bs.
    set (ps := map _ _). vm_compute in ps. subst ps bs. unfold ex_frames. cbn [combine].
    repeat (constructor; [split; [reflexivity|split; [repeat constructor; lia|split; [eexists; vm_compute; reflexivity|
       repeat (constructor; [eexists; eexists; split; [reflexivity|split; reflexivity]|]); constructor]]]|]). constructor.
Qed.
