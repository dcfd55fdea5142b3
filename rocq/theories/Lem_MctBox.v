(** * Lem_MctBox: one channel pair is read back *)

From Coq Require Import ZArith List Lia Bool Ascii String.
From Verif Require Import Bits BitBuf Prog Wp Loops Escape Config Mct Spec_Mct Lem_MctHuff Lem_MctBand.
Import ListNotations.
Open Scope list_scope.
Open Scope Z_scope.

Definition z1 (b : bool) : Z := if b then 1 else 0.

Lemma rd_bit {A} b (K : Z -> prog A) rest : runA (bind (rd 1) K) (bit b ++ rest) = runA (K (z1 b)) rest.
Proof.
  replace (bit b) with (bits_of 1 (z1 b)) by (destruct b; reflexivity).
  apply runA_rdb; [reflexivity|lia|destruct b; cbn; lia].
Qed.

Lemma masks_one {B} nb : forall i mask (K : list Z -> prog B) rest, (i + nb <= 64)%nat -> len mask = 64%nat ->
  exists m', runA (bind (forP nb i (fun i l => v <- (if 0 =? 0 then Ret 1 else rd 1) ;; aset l (Z.of_nat i) v) mask) K) rest
      = runA (K m') rest /\ len m' = 64%nat /\
    (forall t, (t < i)%nat -> nth_error m' t = nth_error mask t) /\
    (forall t, (i <= t < i + nb)%nat -> nth_error m' t = Some 1).
Proof.
  induction nb as [|nb IH]; intros i mask K rest H L.
  - exists mask. repeat split; auto. intros; lia.
  - cbn [forP]. destruct (IH (S i) (upd1 mask i 1) K rest) as (m' & R & L' & A & C); [lia|rewrite upd1_len; lia|].
    exists m'. split; [cbn [Z.eqb bind]; rewrite bind_assoc, aset_run by lia; exact R|]. split; [exact L'|]. split.
    + intros t Ht. rewrite A by lia. apply upd1_neq; lia.
    + intros t Ht. destruct (Nat.eq_dec t i) as [->|]; [|apply C; lia]. rewrite A by lia. apply upd1_eq. lia.
Qed.

Lemma masks_read {B} bs : forall i mask (K : list Z -> prog B) rest, (i + len bs <= 64)%nat -> len mask = 64%nat ->
  exists m', runA (bind (forP (len bs) i (fun i l => v <- (if 1 =? 0 then Ret 1 else rd 1) ;; aset l (Z.of_nat i) v) mask) K) (bs ++ rest)
      = runA (K m') rest /\ len m' = 64%nat /\
    (forall t, (t < i)%nat -> nth_error m' t = nth_error mask t) /\
    (forall t b, nth_error bs t = Some b -> nth_error m' (i + t) = Some (z1 b)).
Proof.
  induction bs as [|b bs IH]; intros i mask K rest H L.
  - exists mask. repeat split; auto. intros [|t] ? ?; discriminate.
  - cbn [len forP] in *. destruct (IH (S i) (upd1 mask i (z1 b)) K rest) as (m' & R & L' & A & C); [lia|rewrite upd1_len; lia|].
    exists m'. split.
    + cbn [Z.eqb]. rewrite !bind_assoc. change ((b :: bs) ++ rest) with (bit b ++ (bs ++ rest)).
      rewrite rd_bit. rewrite aset_run by lia. exact R.
    + split; [exact L'|]. split.
      * intros t Ht. rewrite A by lia. apply upd1_neq; lia.
      * intros [|t] b0 Ht; cbn in Ht.
        -- injection Ht as <-. rewrite Nat.add_0_r, A by lia. apply upd1_eq. lia.
        -- replace (i + S t)%nat with (S i + t)%nat by lia. apply C. exact Ht.
Qed.

(** A list of rows of the same length, flattened. *)
Lemma concat_nth {A} n (rows : list (list A)) : Forall (fun r => len r = n) rows ->
  forall w row t x, nth_error rows w = Some row -> nth_error row t = Some x ->
  nth_error (List.concat rows) (w * n + t) = Some x.
Proof.
  induction rows as [|r rows IH]; intros F w row t x Hw Ht; [destruct w; discriminate|].
  pose proof (Forall_inv F) as L. cbn beta in L. apply Forall_inv_tail in F. cbn [List.concat].
  assert (t < len row)%nat by (apply nth_error_Some; congruence).
  destruct w as [|w]; cbn in Hw.
  - injection Hw as ->. cbn [Nat.mul Nat.add]. rewrite nth_error_app1 by lia. exact Ht.
  - rewrite nth_error_app2 by lia. replace (S w * n + t - len r)%nat with (w * n + t)%nat by lia. eapply IH; eauto.
Qed.

Lemma concat_len {A} n (rows : list (list A)) : Forall (fun r => len r = n) rows ->
  len (List.concat rows) = (len rows * n)%nat.
Proof.
  induction rows as [|r rows IH]; intros F; [reflexivity|].
  pose proof (Forall_inv F) as L. cbn beta in L. apply Forall_inv_tail in F.
  cbn [List.concat len]. rewrite app_length, IH by exact F. lia.
Qed.

Lemma concat_map_map {A B} (f : A -> B) rows : List.concat (map (map f) rows) = map f (List.concat rows).
Proof. induction rows; cbn; [reflexivity|]. rewrite map_app. f_equal. auto. Qed.

(** ** Shape of the coefficients *)
Definition bands_of (short : bool) (c : content) : nat :=
  match c with Whole _ => (64 / windows short)%nat | _ => nbands c end.

Definition is_wise (c : content) : bool := match c with PerBand _ | PerBandMasked _ => true | _ => false end.
Definition is_masked (c : content) : bool := match c with Masked _ _ | PerBandMasked _ => true | _ => false end.

Lemma shaped_hd {A} short (rows : list (list A)) : shaped short rows ->
  len rows = windows short /\ Forall (fun r => len r = len (hd [] rows)) rows /\
  (len (hd [] rows) <= if short then 8 else 31)%nat.
Proof.
  intros (L & n & Hn & F). split; [exact L|].
  assert (E : len (hd [] rows) = n).
  { destruct rows as [|r rows]; [destruct short; discriminate|]. exact (Forall_inv F). }
  rewrite E. split; [exact F|]. destruct short; exact Hn.
Qed.

Lemma effect_shape k time short ref c : content_ok k time short ref c ->
  len (effect short c) = windows short /\
  Forall (fun r => len r = bands_of short c) (effect short c) /\
  (windows short * bands_of short c <= 64)%nat.
Proof.
  assert (M : forall {A B} (f : A -> B) n (rows : list (list A)), Forall (fun r => len r = n) rows ->
     Forall (fun r => len r = n) (map (map f) rows)).
  { intros A B f n rows F. rewrite Forall_map. eapply Forall_impl; [|exact F]. intros r Hr. cbn beta. rewrite map_length. exact Hr. }
  destruct c as [q|q rows|rows|rows]; cbn [content_ok effect bands_of nbands]; intros H.
  - rewrite repeat_length. split; [reflexivity|]. split.
    + apply Forall_forall. intros r Hr. apply repeat_spec in Hr. subst r. apply repeat_length.
    + destruct short; vm_compute; lia.
  - destruct H as [S0 _]. apply shaped_hd in S0. destruct S0 as (A & B & C).
    rewrite map_length. split; [exact A|]. split; [apply M, B|]. destruct short; cbn [windows] in *; lia.
  - destruct H as [S0 _]. apply shaped_hd in S0. destruct S0 as (A & B & C).
    rewrite map_length. split; [exact A|]. split; [apply M, B|]. destruct short; cbn [windows] in *; lia.
  - destruct H as [S0 _]. apply shaped_hd in S0. destruct S0 as (A & B & C).
    split; [exact A|]. split; [exact B|]. destruct short; cbn [windows] in *; lia.
Qed.

(** ** The coefficients of a box *)
Definition full_of (k : kind) (c : content) : Z := match c with Whole q => q | Masked q _ => q | _ => dk k end.

Definition sized (b : box) : Prop := len (x_sprev b) = 64%nat /\ len (x_coef b) = 64%nat /\ len (x_mask b) = 64%nat.

Definition holds_ref (k : kind) (ref : Z * list Z) (b : box) : Prop :=
  x_fprev b = fst ref /\ forall t, (t < 64)%nat -> nth_error (x_sprev b) t = Some (nth t (snd ref) (dk k)).

Definition ref_good (k : kind) (ref : Z * list Z) : Prop :=
  ref_fits k (fst ref) /\ forall t, ref_fits k (nth t (snd ref) (dk k)).

Lemma nth_settle_beyond k row t : (len row <= t)%nat -> nth t (settle k row) (dk k) = dk k.
Proof. intros H. apply nth_overflow. unfold settle. rewrite map_length. exact H. Qed.

Lemma coefs_run {A} k time short ref c b (K : box -> prog A) rest :
  content_ok k time short ref c -> ref_good k ref -> sized b ->
  (x_long b =? 0) = short -> x_dt b = z1 time -> x_bw b = z1 (is_wise c) ->
  x_nb b = Z.of_nat (windows short * bands_of short c) ->
  masks_of (effect short c) 0 (bands_of short c) (x_mask b) ->
  (time = true -> holds_ref k ref b) ->
  exists co sp,
    runA (bind (mc_coefs huff (kz k) b) K) (coef_bits k time short ref c ++ rest) =
    runA (K (mkBox (x_long b) (x_c0 b) (x_c1 b) sp (full_of k c) (x_dt b) (x_dir b) co (x_nb b) (x_mask b)
                   (x_mf b) (x_bw b) (x_ff b))) rest /\
    len co = 64%nat /\ len sp = 64%nat /\ co_has (effect short c) 0 (bands_of short c) co /\
    (forall t, (t < 64)%nat -> nth_error sp t = Some (nth t (settle k (last (effect short c) [])) (dk k))).
Proof.
  intros OK RG (Ls & Lc & Lm) HL HD HB HN HM HR.
  destruct (effect_shape _ _ _ _ _ OK) as (E1 & E2 & E3).
  set (n := bands_of short c) in *. set (rows := effect short c) in *.
  assert (Hn64 : (n <= 64)%nat) by (destruct short; cbn [windows] in E3; lia).
  assert (BPW : (if x_long b =? 0 then x_nb b / 8 else x_nb b) = Z.of_nat n).
  { rewrite HL, HN. destruct short; cbn [windows].
    - rewrite Nat2Z.inj_mul. rewrite Z.mul_comm. apply Z.div_mul. discriminate.
    - f_equal. lia. }
  assert (NB : Z.to_nat (x_nb b) = (len rows * n)%nat) by (rewrite HN, Nat2Z.id, E1; reflexivity).
  assert (NE : rows <> []) by (destruct rows; [destruct short; discriminate|discriminate]).
  assert (LR : len (last rows []) = n).
  { assert (In (last rows []) rows) as I.
    { clear - NE. induction rows as [|r [|r2 rows] IH]; [congruence|left; reflexivity|right; apply IH; discriminate]. }
    rewrite Forall_forall in E2. apply E2. exact I. }
  unfold mc_coefs. rewrite BPW. rewrite bind_assoc.
  assert (FIN : forall co1 sp1 b1, len co1 = 64%nat -> len sp1 = 64%nat ->
     co_has rows 0 n co1 ->
     (forall t, (t < n)%nat -> nth_error sp1 t = Some (nth t (settle k (last rows [])) (dk k))) ->
     b1 = mkBox (x_long b) (x_c0 b) (x_c1 b) sp1 (full_of k c) (x_dt b) (x_dir b) co1 (x_nb b) (x_mask b) (x_mf b) (x_bw b) (x_ff b) ->
     exists co sp,
      runA (bind (sp <- forP (Z.to_nat (64 - Z.of_nat n)) (Z.to_nat (Z.of_nat n)) (fun i l => aset l (Z.of_nat i) (dflt (kz k))) (x_sprev b1) ;;
         Ret (mkBox (x_long b1) (x_c0 b1) (x_c1 b1) sp (x_fprev b1) (x_dt b1) (x_dir b1) (x_coef b1) (x_nb b1) (x_mask b1) (x_mf b1) (x_bw b1) (x_ff b1))) K) rest
      = runA (K (mkBox (x_long b) (x_c0 b) (x_c1 b) sp (full_of k c) (x_dt b) (x_dir b) co (x_nb b) (x_mask b) (x_mf b) (x_bw b) (x_ff b))) rest /\
      len co = 64%nat /\ len sp = 64%nat /\ co_has rows 0 n co /\
      (forall t, (t < 64)%nat -> nth_error sp t = Some (nth t (settle k (last rows [])) (dk k)))).
  { intros co1 sp1 b1 L1 L2 CH SP ->. cbn [x_long x_c0 x_c1 x_sprev x_fprev x_dt x_dir x_coef x_nb x_mask x_mf x_bw x_ff].
    rewrite Nat2Z.id. replace (Z.to_nat (64 - Z.of_nat n)) with (64 - n)%nat by lia.
    destruct (tail_run (dflt (kz k)) n sp1 (fun sp => bind (Ret (mkBox (x_long b) (x_c0 b) (x_c1 b) sp (full_of k c) (x_dt b) (x_dir b) co1 (x_nb b) (x_mask b) (x_mf b) (x_bw b) (x_ff b))) K) rest Hn64 L2)
      as (sp & R & L3 & T1 & T2).
    exists co1, sp. split; [rewrite bind_assoc; exact R|]. split; [exact L1|]. split; [exact L3|]. split; [exact CH|].
    intros t Ht. destruct (Nat.lt_ge_cases t n) as [H|H].
    - rewrite T1 by exact H. apply SP. exact H.
    - rewrite T2 by lia. rewrite nth_settle_beyond by lia. rewrite dflt_kz. reflexivity. }
  destruct (is_wise c) eqn:WI.
  - (* band-wise *)
    rewrite HB in *. rewrite HD in *. cbn [z1 Z.eqb]. unfold band_wise. rewrite bind_assoc. rewrite NB.
    assert (RB : rows_ok k time (snd ref) rows /\ coef_bits k time short ref c = rows_bits k time (snd ref) rows).
    { destruct c; try discriminate WI; cbn [content_ok] in OK; split; try reflexivity; apply OK. }
    destruct RB as [RO RBits]. rewrite RBits.
    destruct (band_rows k time n (x_mask b) rows (snd ref) 0 0 (x_coef b) (x_sprev b) rest)
      as (l' & co1 & sp1 & R & L1 & L2 & _ & CH & SP); auto; try lia.
    { destruct n; [reflexivity|apply Nat.mod_0_l; lia]. }
    { intros T t Ht. apply HR; [exact T|lia]. }
    { intros t Ht. apply RG. }
    change (if time then 1 else 0) with (z1 time) in R. rewrite runA_bind. rewrite R. cbn [bind].
    apply (FIN co1 sp1); auto.
    rewrite dflt_kz, HD, HB. f_equal. destruct c; try discriminate WI; reflexivity.
  - rewrite HB in *. rewrite HD in *. cbn [z1 Z.eqb]. unfold full_band.
    assert (QB : exists q, full_of k c = q /\ codable k (if time then fst ref else dk k) q /\
        coef_bits k time short ref c = code k (if time then fst ref else dk k) q /\
        (forall w row t v, nth_error rows w = Some row -> nth_error row t = Some (Some v) -> v = q)).
    { destruct c as [q|q ms| |]; try discriminate WI; exists q; cbn [full_of content_ok coef_bits] in *; (split; [reflexivity|]);
        (split; [apply OK|]); (split; [reflexivity|]); intros w row t v Hw Ht; unfold rows in Hw; cbn [effect] in Hw.
      - apply nth_error_In, repeat_spec in Hw. subst row. apply nth_error_In, repeat_spec in Ht. congruence.
      - apply nth_error_In in Hw. apply in_map_iff in Hw. destruct Hw as (bs & <- & _).
        apply nth_error_In in Ht. apply in_map_iff in Ht. destruct Ht as ([|] & X & _); congruence. }
    destruct QB as (q & Q1 & Q2 & Q3 & Q4). rewrite Q3.
    assert (LV : (if 0 <? z1 time then x_fprev b else dflt (kz k)) = (if time then fst ref else dk k)).
    { destruct time; cbn; [apply HR; reflexivity|apply dflt_kz]. }
    rewrite LV. rewrite bind_assoc. rewrite new_full_run; [|exact Q2|destruct time; [apply RG|apply fits_dk]].
    rewrite bind_assoc. rewrite NB.
    destruct (full_rows k q n (x_mask b) rows 0 (x_coef b) (x_sprev b) rest)
      as (co1 & sp1 & R & L1 & L2 & _ & CH & SP); auto; try lia.
    { destruct n; [reflexivity|apply Nat.mod_0_l; lia]. }
    rewrite runA_bind. rewrite R. cbn [bind].
    apply (FIN co1 sp1); auto. rewrite Q1, HD, HB. reflexivity.
Qed.
