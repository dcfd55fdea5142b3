(** * Lem_MctHuff: the linear search for a codeword finds it, wherever the payload ends *)

From Coq Require Import ZArith List Lia Bool Ascii String.
From Verif Require Import Bits BitBuf Prog Wp Mct Spec_Mct.
Import ListNotations.
Open Scope list_scope.
Open Scope Z_scope.

(** Entry [(lj, cj)], tried earlier, is not taken for the word of entry [(li, ci)]. *)
Definition differ (ej ei : Z * Z) : bool :=
  let '(lj, cj) := ej in let '(li, ci) := ei in
  if lj <=? li then negb (ci / 2 ^ (li - lj) =? cj)
  else negb (cj / 2 ^ (lj - li) =? ci) && (2 ^ (lj - 1) <=? cj).

Definition fine (e : Z * Z) : bool :=
  let '(l, c) := e in (0 <? l) && (l <=? 24) && (0 <=? c) && (c <? 2 ^ l).

Fixpoint book_ok (tab : list (Z * Z)) : bool :=
  match tab with
  | [] => true
  | e :: r => fine e && forallb (differ e) r && book_ok r
  end.

Definition word_of (e : Z * Z) : list bool := bits_of (Z.to_nat (fst e)) (snd e).

Lemma firstn_val (w rest : list bool) a : (List.length w <= a)%nat -> (a <= List.length (w ++ rest))%nat ->
  val_of (firstn a (w ++ rest)) / 2 ^ Z.of_nat (a - List.length w) = val_of w.
Proof.
  intros H1 H2. rewrite firstn_app, firstn_all2 by lia. rewrite val_of_app.
  rewrite app_length in H2.
  assert (L : List.length (firstn (a - List.length w) rest) = (a - List.length w)%nat) by (rewrite firstn_length; lia).
  rewrite L. assert (R := val_of_range (firstn (a - List.length w) rest)). rewrite L in R.
  rewrite Z.div_add_l by lia. rewrite Z.div_small by lia. lia.
Qed.

Lemma differ_spec ej ei rest : fine ej = true -> fine ei = true -> differ ej ei = true ->
  val_of (firstn (Z.to_nat (Z.min (fst ej) (Z.of_nat (List.length (word_of ei ++ rest))))) (word_of ei ++ rest)) <> snd ej.
Proof.
  destruct ej as [lj cj], ei as [li ci]. unfold fine, differ, word_of. cbn [fst snd].
  intros Fj Fi D. rewrite !andb_true_iff in Fj, Fi.
  destruct Fj as [[[J1 J2] J3] J4]. destruct Fi as [[[I1 I2] I3] I4].
  apply Z.ltb_lt in J1, J4, I1, I4. apply Z.leb_le in J2, J3, I2, I3.
  set (w := bits_of (Z.to_nat li) ci).
  assert (Lw : List.length w = Z.to_nat li) by apply bits_of_length.
  assert (Vw : val_of w = ci) by (apply val_bits_of; rewrite Z2Nat.id by lia; lia).
  rewrite app_length, Lw.
  destruct (Z.leb_spec lj li) as [E|E].
  - rewrite Z.min_l by lia. rewrite firstn_app, Lw.
    replace (Z.to_nat lj - Z.to_nat li)%nat with 0%nat by lia. cbn [firstn]. rewrite app_nil_r.
    rewrite val_of_firstn by lia. rewrite Vw, Lw.
    apply negb_true_iff, Z.eqb_neq in D. intros X. apply D. rewrite <- X. f_equal. f_equal. lia.
  - apply andb_true_iff in D. destruct D as [D1 D2]. apply negb_true_iff, Z.eqb_neq in D1. apply Z.leb_le in D2.
    destruct (Z_le_gt_dec lj (Z.of_nat (Z.to_nat li + List.length rest))) as [M|M].
    + rewrite Z.min_l by lia. intros X. apply D1. rewrite <- X.
      replace (lj - li) with (Z.of_nat (Z.to_nat lj - List.length w)) by lia.
      rewrite firstn_val; [exact Vw|lia|rewrite app_length; lia].
    + rewrite Z.min_r by lia. rewrite Nat2Z.id. rewrite firstn_all2 by (rewrite app_length; lia).
      assert (R := val_of_range (w ++ rest)). rewrite app_length, Lw in R.
      intros X. assert (2 ^ Z.of_nat (Z.to_nat li + List.length rest) <= 2 ^ (lj - 1)) by (apply Z.pow_le_mono_r; lia).
      lia.
Qed.

Lemma huff_from_ok {A} tab : forall i0 i e (k : Z -> prog A) rest,
  book_ok tab = true -> nth_error tab i = Some e ->
  runA (bind (huff_from tab i0) k) (word_of e ++ rest) = runA (k (i0 + Z.of_nat i)) rest.
Proof.
  induction tab as [|[l c] tab IH]; intros i0 i e k rest B N; [destruct i; discriminate|].
  cbn [book_ok] in B. rewrite !andb_true_iff in B. destruct B as [[F D] B].
  cbn [huff_from]. unfold avail, peek, skip. cbn [bind runA].
  assert (F' := F). unfold fine in F'. rewrite !andb_true_iff in F'.
  destruct F' as [[[J1 J2] J3] J4]. apply Z.ltb_lt in J1, J4. apply Z.leb_le in J2, J3.
  set (a := Z.min l (Z.of_nat (List.length (word_of e ++ rest)))).
  assert (Ha : 0 <= a <= 24 /\ a <= Z.of_nat (List.length (word_of e ++ rest))) by (unfold a; lia).
  replace (a <? 0) with false by (symmetry; apply Z.ltb_ge; lia).
  replace (24 <? a) with false by (symmetry; apply Z.ltb_ge; lia). cbn [orb].
  replace (Z.of_nat (List.length (word_of e ++ rest)) <? a) with false by (symmetry; apply Z.ltb_ge; lia).
  destruct i as [|i].
  - cbn in N. injection N as <-.
    assert (Lw : List.length (word_of (l, c)) = Z.to_nat l) by apply bits_of_length.
    assert (Ea : a = l) by (unfold a; rewrite app_length, Lw; lia).
    rewrite Ea in *. rewrite firstn_app, Lw, Nat.sub_diag, firstn_all2 by lia. cbn [firstn]. rewrite app_nil_r.
    unfold word_of at 1. cbn [fst snd]. rewrite val_bits_of by (rewrite Z2Nat.id by lia; lia).
    rewrite Z.eqb_refl. cbn [bind runA].
    replace (l <? 0) with false by (symmetry; apply Z.ltb_ge; lia).
    replace (Z.of_nat (List.length (word_of (l, c) ++ rest)) <? l) with false by (symmetry; apply Z.ltb_ge; lia).
    rewrite skipn_app, Lw, Nat.sub_diag, skipn_all2 by lia. cbn [skipn app]. f_equal. f_equal. lia.
  - cbn [nth_error] in N.
    assert (Fe : fine e = true /\ differ (l, c) e = true).
    { split.
      - clear - B N. revert i N. induction tab as [|e' tab IH]; intros [|i] N; cbn in *; try discriminate.
        + injection N as ->. rewrite !andb_true_iff in B. tauto.
        + rewrite !andb_true_iff in B. eapply IH; eauto; tauto.
      - rewrite forallb_forall in D. apply D. eapply nth_error_In; eauto. }
    destruct Fe as [Fe De].
    assert (X := differ_spec (l, c) e rest F Fe De). cbn [fst snd] in X. fold a in X.
    apply Z.eqb_neq in X. rewrite X. rewrite (IH (i0 + 1) i e k rest B N). f_equal. f_equal. lia.
Qed.

Lemma angle_book : book_ok tab_angle = true. Proof. vm_compute. reflexivity. Qed.
Lemma scf_book : book_ok tab_scf = true. Proof. vm_compute. reflexivity. Qed.

Lemma angle_words : map word book_angle = map word_of tab_angle. Proof. vm_compute. reflexivity. Qed.
Lemma scf_words : map word book_scf = map word_of tab_scf. Proof. vm_compute. reflexivity. Qed.

Lemma huff_word {A} tab bk i (k : Z -> prog A) rest :
  book_ok tab = true -> map word bk = map word_of tab -> 0 <= i < Z.of_nat (List.length tab) ->
  runA (bind (huff tab) k) (word (nth (Z.to_nat i) bk EmptyString) ++ rest) = runA (k i) rest.
Proof.
  intros B W Hi.
  destruct (nth_error_Some_ex tab (Z.to_nat i) ltac:(lia)) as [e E].
  replace (word (nth (Z.to_nat i) bk EmptyString)) with (word_of e).
  - unfold huff. rewrite (huff_from_ok tab 0 (Z.to_nat i) e k rest B E). f_equal. f_equal. lia.
  - rewrite <- (map_nth word bk EmptyString). rewrite W.
    assert (L : List.length bk = List.length tab) by (rewrite <- (map_length word bk), W, map_length; reflexivity).
    rewrite (nth_indep _ _ (word_of (0, 0))) by (rewrite map_length; lia).
    rewrite map_nth. f_equal. symmetry. apply nth_error_nth. exact E.
Qed.

Lemma len_tab_angle : List.length tab_angle = 65%nat. Proof. reflexivity. Qed.
Lemma len_tab_scf : List.length tab_scf = 121%nat. Proof. reflexivity. Qed.

(** ** One coefficient *)
Definition kz (k : kind) : Z := match k with Prediction => 0 | Rotation => 1 end.

Definition ref_fits (k : kind) (r : Z) : Prop := match k with Prediction => True | Rotation => 0 <= r <= 64 end.

Lemma dflt_kz k : dflt (kz k) = dk k. Proof. destruct k; reflexivity. Qed.

Lemma addi_run {A} a b (k : Z -> prog A) l : - 2 ^ 31 <= a + b < 2 ^ 31 ->
  runA (bind (Oam.addi a b) k) l = runA (k (a + b)) l.
Proof.
  intros H. unfold Oam.addi.
  replace (- 2 ^ 31 <=? a + b) with true by (symmetry; apply Z.leb_le; lia).
  replace (a + b <? 2 ^ 31) with true by (symmetry; apply Z.ltb_lt; lia). reflexivity.
Qed.

Lemma scf_coef {A} ref q (k : Z -> prog A) rest : codable Prediction ref q ->
  runA (bind (bind (huff tab_scf) (fun idx => dec_alpha ref idx)) k) (code Prediction ref q ++ rest) = runA (k q) rest.
Proof.
  intros [C1 C2]. rewrite bind_assoc. unfold code.
  rewrite huff_word; [|apply scf_book|apply scf_words|rewrite len_tab_scf; lia].
  unfold dec_alpha. rewrite bind_assoc. rewrite addi_run by lia. rewrite addi_run by lia. f_equal. f_equal. lia.
Qed.

Lemma new_full_run {A} kd ref q (k : Z -> prog A) rest : codable kd ref q -> ref_fits kd ref ->
  runA (bind (new_full huff (kz kd) ref) k) (code kd ref q ++ rest) = runA (k q) rest.
Proof.
  destruct kd; intros C F.
  - unfold new_full. cbn [kz Z.eqb]. apply scf_coef. exact C.
  - unfold new_full. cbn [kz Z.eqb]. cbn in C, F. rewrite bind_assoc. unfold code.
    assert (M := Z.mod_pos_bound (q - ref) 65 ltac:(lia)).
    rewrite huff_word; [|apply angle_book|apply angle_words|rewrite len_tab_angle; lia].
    rewrite bind_assoc. rewrite addi_run by lia. cbn [bind]. f_equal. f_equal.
    assert (Q : (q - ref) mod 65 = q - ref \/ (q - ref) mod 65 = q - ref + 65).
    { destruct (Z_lt_le_dec (q - ref) 0) as [N|N].
      - right. rewrite <- (Z_mod_plus_full (q - ref) 1 65). apply Z.mod_small. lia.
      - left. apply Z.mod_small. lia. }
    destruct (65 <=? ref + (q - ref) mod 65) eqn:E; lia.
Qed.

Lemma new_band_run {A} kd ref q (k : Z -> prog A) rest : codable kd ref q -> ref_fits kd ref ->
  runA (bind (new_band huff (kz kd) ref) k) (code kd ref q ++ rest) = runA (k q) rest.
Proof.
  destruct kd; intros C F.
  - unfold new_band. cbn [kz Z.eqb]. apply scf_coef. exact C.
  - unfold new_band. cbn [kz Z.eqb]. cbn in C, F. rewrite bind_assoc. unfold code.
    assert (M := Z.mod_pos_bound (q - ref) 65 ltac:(lia)).
    rewrite huff_word; [|apply angle_book|apply angle_words|rewrite len_tab_angle; lia].
    rewrite bind_assoc. rewrite addi_run by lia. cbn [bind]. f_equal. f_equal.
    assert (Q : (q - ref) mod 65 = q - ref \/ (q - ref) mod 65 = q - ref + 65).
    { destruct (Z_lt_le_dec (q - ref) 0) as [N|N].
      - right. rewrite <- (Z_mod_plus_full (q - ref) 1 65). apply Z.mod_small. lia.
      - left. apply Z.mod_small. lia. }
    destruct Q as [-> | ->].
    + replace (ref + (q - ref)) with q by lia.
      replace (65 <=? q) with false by (symmetry; apply Z.leb_gt; lia).
      replace (q <? 0) with false by (symmetry; apply Z.ltb_ge; lia). reflexivity.
    + replace (ref + (q - ref + 65)) with (q + 1 * 65) by lia.
      replace (65 <=? q + 1 * 65) with true by (symmetry; apply Z.leb_le; lia).
      rewrite Z_mod_plus_full, Z.mod_small by lia.
      replace (q <? 0) with false by (symmetry; apply Z.ltb_ge; lia). reflexivity.
Qed.
