(** * Lem_MctPair: the pairs of a frame, the tables, and the cut payload *)

From Coq Require Import ZArith List Lia Bool Arith SpecFloat.
From Verif Require Import Bits BitBuf F32 Prog Mct Spec_Mct MctProc Spec_MctProc Spec_MctFill Lem_MctHuff Lem_MctBand Lem_MctBox Lem_MctRT Lem_MctFrame Lem_MctSafe Lem_MctCut Lem_MctSeq Lem_MctProc Lem_MctFill.
Import ListNotations.
Open Scope list_scope.
Open Scope Z_scope.

Lemma forall2_nth {A B} (P : A -> B -> Prop) la : forall lb i a, Forall2 P la lb -> nth_error la i = Some a -> exists b, nth_error lb i = Some b /\ P a b.
Proof.
  induction la as [|x la IH]; intros lb [|i] a F N; cbn in N; try discriminate; inversion F; subst.
  - injection N as <-. eexists. split; [reflexivity|assumption].
  - cbn [nth_error]. apply IH; assumption.
Qed.

Lemma nth_firstn_some {A} n : forall (l : list A) i x, nth_error (firstn n l) i = Some x -> nth_error l i = Some x.
Proof. induction n as [|n IH]; intros [|a l] [|i] x H; cbn in *; try discriminate; auto. Qed.

Theorem pair_upmix nch pk hs f st i s cs sn tbl bins d r :
  frame_ok nch pk hs f -> shows_frame f st -> nth_error (f_boxes f) i = Some s ->
  len cs = 65%nat -> len sn = 65%nat -> ends_ok (Z.of_nat bins) tbl ->
  len r = len d -> (windows (s_short s) * bins <= len d)%nat ->
  exists b d' r', nth_error (t_boxes st) i = Some b /\
    mc_apply cs sn (t_type st) b (x_long b) (Z.of_nat bins) (Z.of_nat (len tbl)) tbl (windows (s_short s)) (d, r) = Done (d', r') /\
    len d' = len d /\ len r' = len d /\
    (forall w k, (w < windows (s_short s))%nat -> (k < bins)%nat ->
       (nth (w * bins + k) d' S754_nan, nth (w * bins + k) r' S754_nan) =
       upmix cs sn (f_kind f) (s_dir s) (coefficient s tbl w (Z.of_nat k)) (nth (w * bins + k) d S754_nan, nth (w * bins + k) r S754_nan)) /\
    (forall k, (windows (s_short s) * bins <= k)%nat -> nth k d' S754_nan = nth k d S754_nan /\ nth k r' S754_nan = nth k r S754_nan).
Proof.
  intros (_ & _ & F3) (_ & TY & _ & F2) NI H1 H2 HE L HW.
  assert (BO := boxes_ok_nth _ _ _ _ _ 0 i s F3 NI). destruct BO as (_ & _ & _ & _ & _ & HC).
  destruct (forall2_nth _ _ _ _ _ F2 NI) as (b & Nb & SH). apply nth_firstn_some in Nb.
  destruct (apply_run cs sn (f_kind f) s b _ tbl bins (len d) H1 H2 HC SH HE (d, r) HW) as ((d' & r') & R1 & (R2 & R2') & R3 & R4).
  { split; [reflexivity|exact L]. }
  exists b, d', r'. rewrite TY. split; [exact Nb|]. split; [exact R1|]. split; [exact R2|]. split; [exact R2'|]. split.
  - intros w k Hw Hk. exact (R3 w k Hw Hk).
  - intros k Hk. specialize (R4 k Hk). unfold at_ in R4. cbn [fst snd] in R4. injection R4. auto.
Qed.

(** ** The tables *)
Definition circle_ok (i : nat) : bool :=
  match nth_error cos_millionths i, nth_error sin_millionths i, nth_error cos_millionths (64 - i), nth_error sin_millionths (64 - i) with
  | Some c, Some s, Some c', Some s' => (Z.abs (c * c + s * s - 10 ^ 12) <=? 10 ^ 6 * 2) && (c' =? c) && (s' =? - s)
  | _, _, _, _ => false
  end.

Lemma rom_circle : len rom_cos = 65%nat /\ len rom_sin = 65%nat /\
  forall i, (i <= 64)%nat -> exists c s, nth_error cos_millionths i = Some c /\ nth_error sin_millionths i = Some s /\
    nth_error rom_cos i = Some (F32.lit c 1000000) /\ nth_error rom_sin i = Some (F32.lit s 1000000) /\
    Z.abs (c * c + s * s - 10 ^ 12) <= 10 ^ 6 * 2 /\
    nth_error cos_millionths (64 - i) = Some c /\ nth_error sin_millionths (64 - i) = Some (- s).
Proof.
  split; [reflexivity|]. split; [reflexivity|]. intros i Hi.
  assert (A : forallb circle_ok (seq 0 65) = true) by (vm_compute; reflexivity).
  rewrite forallb_forall in A. specialize (A i ltac:(apply in_seq; lia)). unfold circle_ok in A.
  unfold rom_cos, rom_sin. rewrite !nth_error_map.
  destruct (nth_error cos_millionths i) as [c|]; [|discriminate]. destruct (nth_error sin_millionths i) as [s|]; [|discriminate].
  destruct (nth_error cos_millionths (64 - i)) as [c'|]; [|discriminate]. destruct (nth_error sin_millionths (64 - i)) as [s'|]; [|discriminate].
  apply andb_prop in A. destruct A as [A A3]. apply andb_prop in A. destruct A as [A1 A2].
  apply Z.leb_le in A1. apply Z.eqb_eq in A2. apply Z.eqb_eq in A3. subst c' s'. exists c, s. repeat split; auto.
Qed.

(** ** The angle -1 *)
Lemma cut_lines : exists st' d' l r s' b,
  exec (mc_init 3 2 0 mct0) (fresh [192]) = Done ((0, st'), d') /\ Forall payload_ok cut_stream /\
  decode_frames cut_stream st' = Done [l; (r, s')] /\ nth_error (t_boxes r) 0 = Some b /\
  forall cs sn tbl total bins x y xs ys, 0 < bins ->
    mc_apply cs sn (t_type r) b (x_long b) bins total tbl 1 (x :: xs, y :: ys) = UB UOob.
Proof.
  do 6 eexists. split; [vm_compute; reflexivity|]. split.
  { repeat constructor; cbn; lia. }
  split; [vm_compute; reflexivity|]. split; [reflexivity|].
  intros cs sn tbl total bins x y xs ys HB. cbn [t_type x_long]. unfold mc_apply. cbn [Z.eqb x_nb mc_windows obind]. unfold mc_process. cbn [x_bw x_mf Z.eqb andb x_coef Z.mul].
  cbn [oget Z.ltb Z.compare Z.to_nat nth_error obind].
  destruct (Z.to_nat bins) as [|n] eqn:E; [lia|]. reflexivity.
Qed.

(** ** Stereo filling *)
Theorem downmix_window cs sn l r N bins tbl row mask coef k (rev : bool) whole dmx bw mf :
  len cs = 65%nat -> len sn = 65%nat -> len l = N -> len r = N -> len dmx = N -> (bins <= N)%nat ->
  ends_ok (Z.of_nat bins) tbl ->
  (forall t o, nth_error row t = Some o -> nth_error mask t = Some (match o with Some _ => 1 | None => 0 end) /\
     forall q, o = Some q -> nth_error coef t = Some q /\ 0 <= q <= 64) ->
  (forall q, whole = Some q -> nth_error coef 0 = Some q /\ 0 <= q <= 64) ->
  (k = Rotation -> whole = None -> Nat.Odd (len tbl) /\ (len tbl <= 127)%nat /\ (len tbl < 2 * len mask)%nat) ->
  ((bw =? 0) && (mf =? 0) = match whole with Some _ => true | None => false end) ->
  exists d', prev_dmx cs sn (match k with Prediction => 0 | Rotation => 1 end) bw mf (if rev then 1 else 0) (Some l) (Some r) mask coef
      (Z.of_nat (len row)) (Z.of_nat bins) (Z.of_nat (len tbl)) tbl dmx = Done (0, d') /\
    len d' = N /\ forall i, (i < bins)%nat -> nth i d' S754_nan =
      match k with
      | Prediction => half rev (nth i l S754_nan) (nth i r S754_nan)
      | Rotation => match angle_at whole row tbl (Z.of_nat i) with
                    | Some a => turn_back cs sn a (nth i l S754_nan) (nth i r S754_nan)
                    | None => nth i dmx S754_nan end
      end.
Proof.
  intros H1 H2 H3 H4 H5 H6 HE HR HW HO BM.
  refine (fill_window cs sn l r N _ _ _ _ bins tbl row mask coef _ _ _ k rev whole dmx _ _ _ bw mf _); assumption.
Qed.

(** ia_core_coder_sfb_48_128, ia_core_coder_rom.c:1350-1351. *)
Definition sfb_48_short : list Z := [4; 8; 12; 16; 20; 28; 36; 44; 56; 68; 80; 96; 112; 128].

Lemma even_refused :
  (forall cs sn bw mf rev p1 p2 mask coef bpw bins tbl dmx d, (bw =? 0) && (mf =? 0) = false ->
     Nat.Even (len tbl) -> (len tbl <= 126)%nat ->
     prev_dmx cs sn 1 bw mf rev p1 p2 mask coef bpw bins (Z.of_nat (len tbl)) tbl dmx <> Done (0, d)) /\
  prev_dmx rom_cos rom_sin 1 1 0 0 None None (repeat 1 64) (repeat 48 64) 8 128 14 sfb_48_short (repeat (S754_zero false) 128)
    = Done (E_SFB, repeat (S754_zero false) 128).
Proof.
  split; [|vm_compute; reflexivity]. intros cs sn bw mf rev p1 p2 mask coef bpw bins tbl dmx d B E L.
  exact (fill_even cs sn bw mf rev p1 p2 mask coef bpw bins tbl dmx d B E L).
Qed.

(** ** Examples *)
Definition ex_pair : sbox := mkSbox false (0, 2) false false false (PerBandMasked [[Some 48; None]]).
Definition ex_pair_frame : frame := mkFrame true false Rotation false [ex_pair].
Definition ex_pair_state : mct :=
  mkMct 0 1 1 0 1 0 (repeat 0 24) (repeat 0 24) 4
    (mkBox 1 0 2 (repeat 48 64) 48 0 0 (48 :: repeat 0 63) 2 (1 :: repeat 0 63) 1 1 0 :: repeat box0 15).

Lemma ex_pair_ok : frame_ok 4 Prediction [] ex_pair_frame /\ shows_frame ex_pair_frame ex_pair_state /\
  ends_ok 6 [2; 3; 5; 6] /\
  map (fun k => coefficient ex_pair [2; 3; 5; 6] 0 (Z.of_nat k)) (seq 0 6) = [Some 48; Some 48; Some 48; None; None; None].
Proof.
  split; [|split; [|split; [|reflexivity]]].
  - split; [cbn; lia|]. split; [discriminate|]. cbn [ex_pair_frame f_boxes boxes_ok]. split; [|exact I].
    unfold box_ok. cbn. repeat split; try discriminate; try lia. exists 2%nat. split; [lia|]. repeat constructor.
  - split; [reflexivity|]. split; [reflexivity|]. split; [reflexivity|]. cbn. constructor; [|constructor].
    repeat split; intros; try reflexivity.
    + destruct w as [|[|w]]; cbn in H; try discriminate. injection H as <-. destruct t as [|[|[|t]]]; cbn in H0; try discriminate; injection H0 as <-; reflexivity.
    + destruct w as [|[|w]]; cbn in H; try discriminate. injection H as <-. destruct t as [|[|[|t]]]; cbn in H0; try discriminate; injection H0 as <-; try discriminate.
      injection H1 as <-. reflexivity.
  - repeat split; try discriminate; try lia. repeat constructor; lia.
Qed.

Lemma ex_fill_ok : ends_ok 4 [1; 3; 4] /\ Nat.Odd (len [1; 3; 4]) /\
  map (angle_at None [Some 48; None] [1; 3; 4]) [0; 1; 2; 3] = [Some 48; Some 48; Some 48; Some 32].
Proof.
  split; [|split; [exists 1%nat; reflexivity|reflexivity]]. repeat split; try discriminate; try lia. repeat constructor; lia.
Qed.
