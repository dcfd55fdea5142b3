(** * Lem_Mp4Desc: descriptions in MP4 boxes are read back *)
From Coq Require Import ZArith List Lia Bool.
From Verif Require Import Bits BitBuf Prog Asi BitWrite Wp Frame Spec_Asi Lem_Asi Lem_AsiRT Mp4 Spec_Mp4 Lem_DrcGain Lem_DrcGainSafe Leaf Lem_Mp4
  Lem_Mp4Safe Spec_Mp4Desc.
Import ListNotations.
Open Scope Z_scope.

Definition put (d : desc) (j : nat) (id : Z) : desc := mkDs (upd (ds_len d) j 1) (upd (ds_id d) j id).

Lemma put_shape d j id : (j < 128)%nat -> desc_shape d -> desc_shape (put d j id).
Proof.
  intros H (S1 & S2 & S3). split; [|split]; cbn [put ds_len ds_id].
  - rewrite upd_length by lia. exact S1.
  - rewrite upd_length by lia. exact S2.
  - apply upd_Forall; [lia|exact S3|lia].
Qed.

Lemma block_put {A} d j id (k : desc -> prog A) : (j < 128)%nat -> desc_shape d -> bind (block d (Z.of_nat j) id) k = k (put d j id).
Proof. intros H (S1 & S2 & S3). unfold block. rewrite (aset_ok _ j) by lia. cbn [bind]. rewrite (aset_ok _ j) by lia. reflexivity. Qed.

Lemma row_one b rest {A} (k : unit -> prog A) : 0 <= b < 2 -> runA (bind (row 1) k) (bits_of 1 b ++ rest) = runA (k tt) rest.
Proof.
  intros H. unfold row. change (Z.to_nat 1) with 1%nat. cbn [forP]. unfold chk. change ((0 <=? Z.of_nat 0) && (Z.of_nat 0 <? 256)) with true. cbv iota. cbn [bind].
  rewrite !bind_assoc. rewrite (runA_rdb 1 1) by (try lia; exact H). reflexivity.
Qed.

Lemma chk_ok i n {A} (k : unit -> prog A) : 0 <= i < n -> bind (chk i n) k = k tt.
Proof. intros H. unfold chk. replace ((0 <=? i) && (i <? n)) with true by lia. reflexivity. Qed.

Lemma gstep j d x rest : (j < 128)%nat -> desc_shape d -> valid_descr 7 x ->
  runA (gblock j d) (box_gdescr x ++ rest) = Done (put d j (d_id x), rest).
Proof.
  intros H S0 (V1 & V2 & V3). unfold gblock, box_gdescr, box_text. rewrite chk_ok by lia. rp. rewrite (block_put _ _ _ _ H S0). rp. rewrite row_one by exact V3. rewrite chk_ok by lia. reflexivity.
Qed.
Lemma pstep j d x rest : (j < 128)%nat -> desc_shape d -> valid_descr 5 x ->
  runA (pblock j d) (box_pdescr x ++ rest) = Done (put d j (d_id x), rest).
Proof.
  intros H S0 (V1 & V2 & V3). unfold pblock, box_pdescr, box_text. rewrite chk_ok by lia. rp. rewrite (block_put _ _ _ _ H S0). rp. rewrite row_one by exact V3. rewrite chk_ok by lia. reflexivity.
Qed.
Lemma sstep g j d x rest : (j < 128)%nat -> desc_shape d -> valid_descr 5 x -> nth_error (ds_len g) j = Some 1 ->
  runA (sblock g j d) (box_sdescr x ++ rest) = Done (put d j (d_id x), rest).
Proof.
  intros H S0 (V1 & V2 & V3) G. unfold sblock, box_sdescr, box_text. rp. rewrite chk_ok by lia. rp. rewrite (block_put _ _ _ _ H S0). rp. rewrite (aget_ok _ _ _ G). cbn [bind]. rewrite row_one by exact V3. rewrite chk_ok by lia. reflexivity.
Qed.

Lemma firstn_upd_S {A} (l : list A) i v : (i < length l)%nat -> firstn (S i) (upd l i v) = firstn i l ++ [v].
Proof.
  intros H. unfold upd. rewrite firstn_app, firstn_length, Nat.min_l by lia. replace (S i - i)%nat with 1%nat by lia.
  rewrite firstn_firstn, Nat.min_r by lia. reflexivity.
Qed.

Lemma repeat_snoc {A} (a : A) n : repeat a n ++ [a] = repeat a (S n).
Proof. induction n as [|n IH]; [reflexivity|]. cbn [repeat app]. rewrite IH. reflexivity. Qed.

(** What a loop leaves, for any body that does one step. *)
Lemma loop_put (body : nat -> desc -> prog desc) (enc : descr -> list bool) (ok : descr -> Prop) bnd : (bnd <= 128)%nat ->
  (forall j d x rest, (j < bnd)%nat -> desc_shape d -> ok x -> runA (body j d) (enc x ++ rest) = Done (put d j (d_id x), rest)) ->
  forall xs done d rest, (length done + length xs <= bnd)%nat -> Forall ok xs -> desc_shape d -> holds_descrs done d ->
  exists d', runA (forP (length xs) (length done) body d) (concat (map enc xs) ++ rest) = Done (d', rest) /\ desc_shape d' /\ holds_descrs (done ++ xs) d'.
Proof.
  intros HB ST. induction xs as [|x xs IH]; intros done d rest HL HF HS HH; cbn [length forP map concat] in *.
  - exists d. rewrite app_nil_r. split; [reflexivity|]. split; assumption.
  - inversion HF; subst. rewrite <- app_assoc, runA_bind, ST by (auto; lia).
    assert (L : length (done ++ [x]) = S (length done)) by (rewrite app_length; cbn; lia).
    destruct (IH (done ++ [x]) (put d (length done) (d_id x)) rest) as (d' & E & S' & H').
    + lia.
    + assumption.
    + apply put_shape; [lia|exact HS].
    + destruct HS as (S1 & S2 & S3), HH as (H1' & H2'). split; rewrite L; cbn [put ds_id ds_len]; rewrite firstn_upd_S by lia.
      * rewrite H1', map_app. reflexivity.
      * rewrite H2'. apply repeat_snoc.
    + rewrite L in E. rewrite <- app_assoc in H'. exists d'. split; [exact E|]. split; assumption.
Qed.

Lemma put_past l d id : (length l < 128)%nat -> desc_shape d -> holds_descrs l d -> holds_descrs l (put d (length l) id).
Proof.
  intros H (S1 & S2 & S3) (H1 & H2). split; cbn [put ds_id ds_len]; unfold upd; rewrite firstn_app, firstn_length, Nat.min_l by lia; rewrite Nat.sub_diag, firstn_firstn, Nat.min_id, firstn_O, app_nil_r; assumption.
Qed.

Lemma put_len l d j id : (length l < 128)%nat -> desc_shape d -> holds_descrs l d -> (j <= length l)%nat -> nth_error (ds_len (put d (length l) id)) j = Some 1.
Proof.
  intros H (S1 & S2 & S3) (H1 & H2) Hj. cbn [put ds_len]. unfold upd.
  destruct (Nat.eq_dec j (length l)) as [->|N].
  - rewrite nth_error_app2 by (rewrite firstn_length; lia). rewrite firstn_length, Nat.min_l, Nat.sub_diag by lia. reflexivity.
  - rewrite nth_error_app1 by (rewrite firstn_length; lia). rewrite H2. apply nth_error_repeat. lia.
Qed.

Lemma mael_rt langs code gs ss ps g s p rest : fits 4 (langs - 1) -> fits 24 code ->
  (1 <= length gs <= 127)%nat -> (1 <= length ss <= 32)%nat -> (1 <= length ps <= 32)%nat -> (length ss <= length gs + 1)%nat ->
  Forall (valid_descr 7) gs -> Forall (valid_descr 5) ss -> Forall (valid_descr 5) ps -> desc_shape g -> desc_shape s -> desc_shape p ->
  exists g' s' p', runA (mael false g s p) (box_descrs langs code gs ss ps ++ rest) = Done (Ok (g', s', p'), rest) /\
    holds_descrs gs g' /\ holds_descrs ss s' /\ holds_descrs ps p' /\ desc_shape g' /\ desc_shape s' /\ desc_shape p'.
Proof.
  intros F1 F2 Lg Ls Lp Lgs Vg Vs Vp Sg Ss Sp. unfold mael, box_descrs.
  assert (Pg : fits 7 (Z.of_nat (length gs) - 1)) by (unfold fits; lia).
  assert (Ps : fits 5 (Z.of_nat (length ss) - 1)) by (unfold fits; lia).
  assert (Pp : fits 5 (Z.of_nat (length ps) - 1)) by (unfold fits; lia).
  rp. unfold guard. cbn [andb]. replace (Z.of_nat (length gs) - 1 + 1) with (Z.of_nat (length gs)) by lia. rewrite Nat2Z.id. rewrite runA_bind.
  destruct (loop_put gblock box_gdescr (valid_descr 7) 128 ltac:(lia) (fun j d x r A B C => gstep j d x r A B C) gs [] g
    (pad 3 ++ bits_of 5 (Z.of_nat (length ss) - 1) ++ concat (map box_sdescr ss) ++ pad 3 ++ bits_of 5 (Z.of_nat (length ps) - 1) ++ concat (map box_pdescr ps) ++ rest) ltac:(cbn; lia) Vg Sg ltac:(split; reflexivity)) as (g1 & E & G1 & G2).
  rewrite ?app_assoc in E |- *. rewrite <- ?app_assoc in E |- *. cbn [length] in E. unfold pad in E. rewrite E. clear E. cbn [app] in G2.
  rewrite block_put by (auto; lia). rp. replace (Z.of_nat (length ss) - 1 + 1) with (Z.of_nat (length ss)) by lia. rewrite Nat2Z.id. rewrite runA_bind.
  set (g2 := put g1 (length gs) 0).
  assert (G3 : desc_shape g2) by (apply put_shape; [lia|exact G1]).
  destruct (loop_put (sblock g2) box_sdescr (valid_descr 5) (length ss) ltac:(lia)
    (fun j d x r A B C => sstep g2 j d x r ltac:(lia) B C (put_len gs g1 j 0 ltac:(lia) G1 G2 ltac:(lia))) ss [] s
    (pad 3 ++ bits_of 5 (Z.of_nat (length ps) - 1) ++ concat (map box_pdescr ps) ++ rest) ltac:(cbn; lia) Vs Ss ltac:(split; reflexivity)) as (s1 & E & S1' & S2').
  rewrite <- ?app_assoc in E |- *. cbn [length] in E. unfold pad in E. rewrite E. clear E. cbn [app] in S2'.
  rewrite block_put by (auto; lia).
  destruct (nth_error (ds_len g2) (length ss)) as [n|] eqn:En; [|exfalso; apply nth_error_None in En; destruct G3; lia].
  assert (Bn : -128 <= n <= 127) by (destruct G3 as (_ & _ & G); rewrite Forall_forall in G; apply G; eapply nth_error_In; exact En).
  rewrite (aget_ok _ _ _ En). cbn [bind].
  assert (X : forall A (k : unit -> prog A), bind (if 0 <=? n then chk n 256 else Ret tt) k = k tt).
  { intros A k. destruct (Z.leb_spec 0 n); [apply chk_ok; lia|reflexivity]. }
  rewrite X. rp. replace (Z.of_nat (length ps) - 1 + 1) with (Z.of_nat (length ps)) by lia. rewrite Nat2Z.id. rewrite runA_bind.
  destruct (loop_put pblock box_pdescr (valid_descr 5) 128 ltac:(lia) (fun j d x r A B C => pstep j d x r A B C) ps [] p rest ltac:(cbn; lia) Vp Sp ltac:(split; reflexivity)) as (p1 & E & P1 & P2).
  rewrite <- ?app_assoc in E |- *. cbn [length] in E. unfold pad in E. rewrite E. clear E. cbn [app] in P2.
  rewrite block_put by (auto; lia). cbn [runA].
  exists g2, (put s1 (length ss) 0), (put p1 (length ps) 0). split; [reflexivity|].
  split; [apply put_past; [lia|assumption|assumption]|]. split; [apply put_past; [lia|assumption|assumption]|]. split; [apply put_past; [lia|assumption|assumption]|].
  split; [exact G3|]. split; apply put_shape; auto; lia.
Qed.

Lemma descriptions_exec langs code gs ss ps g d p s rest : fits 4 (langs - 1) -> fits 24 code ->
  (1 <= length gs <= 127)%nat -> (1 <= length ss <= 32)%nat -> (1 <= length ps <= 32)%nat -> (length ss <= length gs + 1)%nat ->
  Forall (valid_descr 7) gs -> Forall (valid_descr 5) ss -> Forall (valid_descr 5) ps -> desc_shape g -> desc_shape d -> desc_shape p ->
  wf s -> rest_bits s = box_descrs langs code gs ss ps ++ rest ->
  exists g' d' p' s', exec (mael false g d p) s = Done (Ok (g', d', p'), s') /\ rest_bits s' = rest /\
    holds_descrs gs g' /\ holds_descrs ss d' /\ holds_descrs ps p' /\ desc_shape g' /\ desc_shape d' /\ desc_shape p'.
Proof.
  intros H1 H2 H3 H4 H5 H6 H7 H8 H9 H10 H11 H12 W R.
  destruct (mael_rt langs code gs ss ps g d p rest H1 H2 H3 H4 H5 H6 H7 H8 H9 H10 H11 H12) as (g' & d' & p' & E & K).
  pose proof (exec_refines (mael false g d p) s W) as X. rewrite R, E in X. destruct X as (s' & X & W' & R'). exists g', d', p', s'. auto.
Qed.

(** ** Texts of whole characters *)
Lemma runA_inv {A B} (p : prog A) (k : A -> prog B) l r : runA (bind p k) l = Done r -> exists a l', runA p l = Done (a, l') /\ runA (k a) l' = Done r.
Proof. rewrite runA_bind. destruct (runA p l) as [[a l']| |]; intros H; [eauto|discriminate|discriminate]. Qed.


Lemma bits_of_mod n v : bits_of n (v mod 2 ^ Z.of_nat n) = bits_of n v.
Proof.
  assert (G : forall m, (m <= n)%nat -> bits_of m (v mod 2 ^ Z.of_nat n) = bits_of m v).
  { induction m as [|m IH]; intros H; [reflexivity|]. cbn [bits_of]. rewrite IH by lia. f_equal. apply Z.mod_pow2_bits_low. lia. }
  apply G. lia.
Qed.

Lemma bits_of_zero_end n v : bits_of n v ++ bits_of 1 0 = bits_of (n + 1) (2 * v).
Proof.
  rewrite (bits_of_split n 1). f_equal; [f_equal; change (2 ^ Z.of_nat 1) with 2; rewrite Z.mul_comm, Z.div_mul by lia; reflexivity|].
  cbn [bits_of]. f_equal. rewrite Z.testbit_even_0. reflexivity.
Qed.

(** Two descriptions of one character each, cut as the decoder cuts them. *)
Lemma letters_cut id1 c1 id2 c2 rest : lettered id1 c1 ++ lettered id2 c2 ++ rest =
  box_gdescr {| d_id := id1; d_len := 0; d_bit := c1 / 128 mod 2 |} ++
  bits_of 1 (c1 / 64 mod 2) ++ bits_of 7 (2 * (c1 mod 64)) ++ bits_of 8 (2 * id2) ++ bits_of 1 0 ++ bits_of 6 0 ++ bits_of 8 c2 ++ rest.
Proof.
  unfold lettered, box_gdescr, box_text, pad. cbn [d_id d_len d_bit].
  assert (Z1 : bits_of 8 (2 * id2) = bits_of 7 id2 ++ bits_of 1 0) by (symmetry; exact (bits_of_zero_end 7 id2)).
  assert (Z2 : bits_of 7 (2 * (c1 mod 64)) = bits_of 6 c1 ++ bits_of 1 0).
  { rewrite <- (bits_of_mod 6 c1). symmetry. exact (bits_of_zero_end 6 (c1 mod 64)). }
  assert (Z3 : forall x, bits_of 1 (x mod 2) = bits_of 1 x) by (intros x; exact (bits_of_mod 1 x)).
  assert (Z4 : bits_of 8 c1 = bits_of 1 (c1 / 128) ++ bits_of 1 (c1 / 64) ++ bits_of 6 c1).
  { etransitivity; [exact (bits_of_split 1 7 c1)|]. f_equal. exact (bits_of_split 1 6 c1). }
  rewrite Z1, Z2, !Z3, Z4.
  rewrite <- !app_assoc. reflexivity.
Qed.

Lemma gstep_any j d a id w b rest : (j < 128)%nat -> desc_shape d -> fits 1 a -> fits 7 id -> fits 8 w -> fits 1 b ->
  runA (gblock j d) (bits_of 1 a ++ bits_of 7 id ++ bits_of 8 w ++ bits_of 1 b ++ rest) = Done (put d j id, rest).
Proof.
  intros H S0 V0 V1 V2 V3. unfold gblock. rewrite chk_ok by lia. rp. rewrite (block_put _ _ _ _ H S0). rp. rewrite row_one by exact V3. rewrite chk_ok by lia. reflexivity.
Qed.

Lemma letters_misread langs code id1 c1 id2 c2 g d p rest r l' : fits 4 (langs - 1) -> fits 24 code -> fits 7 id1 -> fits 7 id2 -> fits 8 c1 ->
  desc_shape g ->
  runA (mael false g d p) (pad 4 ++ bits_of 4 (langs - 1) ++ bits_of 24 code ++ pad 1 ++ bits_of 7 1 ++ lettered id1 c1 ++ lettered id2 c2 ++ rest) = Done (r, l') ->
  exists g' d' p', r = Ok (g', d', p') /\ firstn 2 (ds_id g') = [id1; 2 * (c1 mod 64)].
Proof.
  intros F1 F2 F3 F4 F5 (S1 & S2 & S3). unfold mael.
  assert (U : fits 7 1) by (unfold fits; lia). rp. unfold guard. cbn [andb]. change (Z.to_nat (1 + 1)) with 2%nat. cbn [forP]. rewrite !bind_assoc.
  rewrite letters_cut, runA_bind, gstep.
  2: lia. 2: split; auto. 2: { split; [exact F3|]. split; [unfold fits; cbn; lia|]. unfold fits. cbn [d_bit]. change (2 ^ 1) with 2. apply Z.mod_pos_bound. lia. }
  cbn [d_id]. rewrite bind_assoc, runA_bind, gstep_any.
  2: lia. 2: { apply put_shape; [lia|split; auto]. } 2: { unfold fits. change (2 ^ 1) with 2. apply Z.mod_pos_bound. lia. }
  2: { pose proof (Z.mod_pos_bound c1 64 ltac:(lia)). unfold fits. change (2 ^ 7) with 128. lia. }
  2: { unfold fits in *. change (2 ^ 7) with 128 in *. change (2 ^ 8) with 256. lia. } 2: { unfold fits. lia. }
  cbn [bind]. change (1 + 1) with (Z.of_nat 2). rewrite block_put; [|lia|apply put_shape; [lia|apply put_shape; [lia|split; auto]]].
  set (g2 := put (put (put g 0 id1) 1 (2 * (c1 mod 64))) 2 0). intros H.
  apply runA_inv in H. destruct H as (? & ? & _ & H). cbv beta in H. apply runA_inv in H. destruct H as (ns & ? & _ & H). cbv beta in H.
  apply runA_inv in H. destruct H as (? & ? & _ & H). cbv beta in H. apply runA_inv in H. destruct H as (s2 & ? & _ & H). cbv beta in H.
  apply runA_inv in H. destruct H as (? & ? & _ & H). cbv beta in H. apply runA_inv in H. destruct H as (? & ? & _ & H). cbv beta in H.
  apply runA_inv in H. destruct H as (? & ? & _ & H). cbv beta in H. apply runA_inv in H. destruct H as (? & ? & _ & H). cbv beta in H.
  apply runA_inv in H. destruct H as (? & ? & _ & H). cbv beta in H. apply runA_inv in H. destruct H as (p2 & ? & _ & H). cbv beta in H.
  cbn [runA] in H. injection H as <- _. exists g2, s2, p2. split; [reflexivity|].
  unfold g2. cbn [put ds_id]. destruct (ds_id g) as [|? [|? [|? ?]]]; try discriminate S2. reflexivity.
Qed.

Lemma letters_guard langs code g d p rest : fits 4 (langs - 1) -> fits 24 code ->
  runA (mael false g d p) (pad 4 ++ bits_of 4 (langs - 1) ++ bits_of 24 code ++ pad 1 ++ bits_of 7 1 ++ rest) =
  runA (mael true g d p) (pad 4 ++ bits_of 4 (langs - 1) ++ bits_of 24 code ++ pad 1 ++ bits_of 7 1 ++ rest).
Proof.
  intros F1 F2. assert (U : fits 7 1) by (unfold fits; lia). unfold mael. rp. reflexivity.
Qed.

Lemma letters_exec langs code id1 c1 id2 c2 g d p s rest : fits 4 (langs - 1) -> fits 24 code -> fits 7 id1 -> fits 7 id2 -> fits 8 c1 ->
  desc_shape g -> desc_shape d -> desc_shape p -> wf s ->
  rest_bits s = pad 4 ++ bits_of 4 (langs - 1) ++ bits_of 24 code ++ pad 1 ++ bits_of 7 1 ++ lettered id1 c1 ++ lettered id2 c2 ++ rest ->
  match exec (mael false g d p) s with
  | Done (Ok (g', d', p'), s') => firstn 2 (ds_id g') = [id1; 2 * (c1 mod 64)]
  | Done (Er _, _) => False | Jmp _ => True | UB _ => False end.
Proof.
  intros F1 F2 F3 F4 F5 Sg Sd Sp W R. pose proof (exec_refines (mael false g d p) s W) as X.
  pose proof (wp_runA _ _ (wp_mael g d p Sg Sd Sp) (rest_bits s)) as N.
  rewrite R in N, X. rewrite <- letters_guard in N by assumption.
  destruct (runA (mael false g d p) _) as [[a l']| |] eqn:E; [| |contradiction].
  - destruct X as (s2 & X & _). rewrite X. eapply letters_misread in E; eauto. destruct E as (g' & d' & p' & -> & K). exact K.
  - unfold agrees in X. rewrite X. exact I.
Qed.
