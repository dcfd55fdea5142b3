(** * Lem_HoaVec: vectors of HOA frames are read back *)

From Coq Require Import ZArith List Lia Bool.
From Verif Require Import Bits BitBuf Prog Wp Asi Hoa Lem_Hoa HoaFrm Spec_HoaFrm Lem_HoaFrm HoaVec Spec_HoaVec.
Import ListNotations.
Open Scope Z_scope.

Lemma put_in {A} (l : list A) i v x : In x (put l i v) -> x = v \/ In x l.
Proof.
  unfold put. rewrite in_app_iff. intros [H|[H|H]]; [right|left; auto|right].
  - rewrite <- (firstn_skipn i l). apply in_or_app. auto.
  - rewrite <- (firstn_skipn (S i) l). apply in_or_app. auto.
Qed.
Lemma put_row {A} (l : list (list A)) i j r : (i < length l)%nat ->
  nth j (put l i r) [] = if Nat.eqb i j then r else nth j l [].
Proof.
  intros H. destruct (Nat.eqb_spec i j) as [->|N].
  - apply nth_error_nth. apply put_same, H.
  - pose proof (put_other l i j r N H) as E. destruct (nth_error l j) as [x|] eqn:Ej.
    + rewrite (nth_error_nth _ _ _ E), (nth_error_nth _ _ _ Ej). reflexivity.
    + apply nth_error_None in E, Ej. rewrite !nth_overflow by assumption. reflexivity.
Qed.
Lemma put_rows {A} n m (l : list (list A)) i r : rows n m l -> (i < n)%nat -> length r = m -> rows n m (put l i r).
Proof.
  intros (H1 & H2) Hi Hr. split; [rewrite put_len; lia|]. intros x Hx. destruct (put_in _ _ _ _ Hx) as [->|]; auto.
Qed.
Lemma nth_e {A} (l : list A) i d : (i < length l)%nat -> nth_error l i = Some (nth i l d).
Proof. intros H. apply nth_error_nth'. exact H. Qed.

Lemma masked_run {B} s i c (k : bool -> prog B) bits :
  marks_ok s -> (i < 49)%nat -> (c < 49)%nat ->
  runA (bind (masked s (Z.of_nat i) (Z.of_nat c)) k) bits = runA (k (unsent s i c)) bits.
Proof.
  intros (L1 & L2 & L3) Hi Hc. unfold masked, unsent.
  rewrite bind_assoc, (runA_aget _ _ (nth c (f_nontr s) 0)) by (rewrite ?Nat2Z.id; try lia; apply nth_e; lia).
  destruct (nth c (f_nontr s) 0 =? 0); cbn [negb orb]; [|reflexivity].
  rewrite bind_assoc, (runA_aget _ _ (nth i (f_new s) 0)) by (rewrite ?Nat2Z.id; try lia; apply nth_e; lia).
  destruct (nth i (f_new s) 0 =? 1); cbn [andb]; [|reflexivity].
  rewrite bind_assoc, (runA_aget _ _ (nth c (f_fade s) 0)) by (rewrite ?Nat2Z.id; try lia; apply nth_e; lia). reflexivity.
Qed.

(** Filling a table step by step. *)
Lemma fill_run (body : nat -> list Z -> prog (list Z)) (bits : nat -> list bool) (w : nat -> Z) (L : nat) :
  forall n i r rest,
  (forall j r rest, (i <= j < i + n)%nat -> length r = L -> runA (body j r) (bits j ++ rest) = Done (put r j (w j), rest)) ->
  length r = L -> (i + n <= L)%nat ->
  exists r', runA (forP n i body r) (concat (map bits (seq i n)) ++ rest) = Done (r', rest) /\ length r' = L /\
    (forall j, (i <= j < i + n)%nat -> nth j r' 0 = w j) /\ (forall j, (j < i)%nat -> nth j r' 0 = nth j r 0).
Proof.
  induction n as [|n IH]; intros i r rest Hb Hr Hn.
  - exists r. split; [reflexivity|]. split; [exact Hr|]. split; [lia|reflexivity].
  - cbn [forP seq map concat]. rewrite <- app_assoc, runA_bind, Hb by (try assumption; lia).
    destruct (IH (S i) (put r i (w i)) rest) as (r' & E & Lr & In' & Out).
    + intros j r0 rest0 Hj. apply Hb. lia.
    + rewrite put_len; lia.
    + lia.
    + exists r'. split; [exact E|]. split; [exact Lr|]. split.
      * intros j Hj. destruct (Nat.eq_dec j i) as [->|N]; [|apply In'; lia].
        rewrite Out, put_nth by lia. rewrite Nat.eqb_refl. reflexivity.
      * intros j Hj. rewrite Out, put_nth by lia. destruct (Nat.eqb_spec i j); [lia|reflexivity].
Qed.

Definition dims (h : hoac) : Prop := 0 <= h_off h /\ 0 <= h_vvl h /\ h_off h + h_vvl h <= 49.

Lemma words_run h s idx v ws rest :
  dims h -> marks_ok s -> vstate_ok v -> (idx < 16)%nat -> words_ok h s idx ws ->
  exists row, runA (vec_words h s (Z.of_nat idx) v) (word_bits h s idx ws ++ rest) =
    Done (Ok (mkHv (v_idx v) (v_sgn v) (v_w v) (put (v_word v) idx row) (v_add v)), rest) /\
    length row = 49%nat /\ map (fun j => nth j row 0) (seq 0 (Z.to_nat (h_vvl h))) = ws.
Proof.
  intros (D1 & D2 & D3) Hm (_ & _ & _ & (R1 & R2) & _) Hi (Lw & Hw). unfold vec_words, word_bits.
  rewrite (runA_aget _ _ (nth idx (v_word v) [])) by (rewrite ?Nat2Z.id; try lia; apply nth_e; lia).
  assert (Lr : length (nth idx (v_word v) []) = 49%nat) by (apply R2, nth_In; lia).
  match goal with |- context [forP _ 0 ?b _] => set (body := b) end.
  destruct (fill_run body (fun j => if unsent s idx (Z.to_nat (h_off h) + j) then [] else wbits 8 (nth j ws 0)) (fun j => nth j ws 0) 49
    (Z.to_nat (h_vvl h)) 0 (nth idx (v_word v) []) rest) as (row & E & L & V & _).
  - intros j r rs Hj Hr. unfold body. replace (h_off h + Z.of_nat j) with (Z.of_nat (Z.to_nat (h_off h) + j)) by lia.
    rewrite masked_run by (try assumption; lia). destruct (Hw j) as (B & C); [lia|].
    destruct (unsent s idx (Z.to_nat (h_off h) + j)).
    + rewrite (C eq_refl). unfold aset. replace ((0 <=? Z.of_nat j) && (Z.of_nat j <? Z.of_nat (length r))) with true.
      * rewrite Nat2Z.id. reflexivity.
      * symmetry. apply andb_true_intro. split; [apply Z.leb_le|apply Z.ltb_lt]; lia.
    + rewrite rw by (change (2 ^ 8) with 256; lia). unfold aset. replace ((0 <=? Z.of_nat j) && (Z.of_nat j <? Z.of_nat (length r))) with true.
      * rewrite Nat2Z.id. reflexivity.
      * symmetry. apply andb_true_intro. split; [apply Z.leb_le|apply Z.ltb_lt]; lia.
  - exact Lr.
  - lia.
  - exists row. split; [|split; [exact L|]].
    + rewrite runA_bind, E. cbv beta iota. rewrite runA_aset by lia. rewrite Nat2Z.id. reflexivity.
    + rewrite <- Lw. apply nth_ext with (d := 0) (d' := 0). { rewrite map_length, seq_length. reflexivity. }
      intros j Hj. rewrite map_length, seq_length in Hj.
      rewrite nth_indep with (d' := (fun j => nth j row 0) O) by (rewrite map_length, seq_length; lia).
      rewrite map_nth with (f := fun j => nth j row 0). rewrite seq_nth by lia. apply V. lia.
Qed.

Lemma all_words h s : forall wss idx v rest,
  dims h -> marks_ok s -> vstate_ok v -> length (f_ch s) = 49%nat -> (idx + length wss <= 16)%nat ->
  (forall i ws, nth_error wss i = Some ws -> words_ok h s (idx + i) ws /\
     exists k, nth_error (f_ch s) (idx + i) = Some k /\ q_nq (k_q k) = 5) ->
  exists v', runA (vec_all h s (map (fun i => Z.of_nat i + 1) (seq idx (length wss))) idx v)
    (concat (map (fun '(i, ws) => word_bits h s i ws) (combine (seq idx (length wss)) wss)) ++ rest) = Done (Ok v', rest) /\
    vstate_ok v' /\ (forall j, (j < idx)%nat -> used_words h v' j = used_words h v j) /\
    (forall i ws, nth_error wss i = Some ws -> used_words h v' (idx + i) = ws) /\
    v_idx v' = v_idx v /\ v_sgn v' = v_sgn v /\ v_w v' = v_w v.
Proof.
  induction wss as [|ws wss IH]; intros idx v rest D Hm Hv Lc Hl Hok.
  - exists v. split; [reflexivity|]. split; [exact Hv|]. split; [reflexivity|]. split; [intros [|i] ws E; discriminate E|auto].
  - cbn [length] in Hl. destruct (Hok O ws eq_refl) as (Hw & k & Ek & Nk). rewrite Nat.add_0_r in *.
    cbn [length seq map combine concat vec_all]. rewrite <- app_assoc.
    replace (Z.of_nat idx + 1 - 1) with (Z.of_nat idx) by lia.
    rewrite (runA_aget _ _ k) by (rewrite ?Nat2Z.id; try lia; assumption).
    rewrite Nk. change (5 =? 4) with false. change (5 =? 5) with true. cbv iota.
    match goal with |- context [word_bits h s idx ws ++ ?r] => destruct (words_run h s idx v ws r D Hm Hv) as (row & E & L & V); [lia|exact Hw|] end.
    rewrite runA_bind, E. cbv beta iota. match goal with |- context [vec_all _ _ _ _ ?x] => set (v1 := x) end.
    assert (Hv1 : vstate_ok v1).
    { destruct Hv as (A1 & A2 & A3 & A4 & A5). split; [exact A1|]. split; [exact A2|]. split; [exact A3|]. split; [|exact A5].
      apply put_rows; [exact A4|lia|exact L]. }
    assert (R : length (v_word v) = 16%nat) by apply Hv.
    destruct (IH (S idx) v1 rest D Hm Hv1 Lc) as (v' & E' & Hv' & Old & New & Z1 & Z2 & Z3).
    + lia.
    + intros i ws' Ei. replace (S idx + i)%nat with (idx + S i)%nat by lia. apply Hok. exact Ei.
    + exists v'. split; [exact E'|]. split; [exact Hv'|]. split; [|split; [|auto]].
      * intros j Hj. rewrite Old by lia. unfold used_words, v1. cbn [v_word]. rewrite put_row by lia.
        destruct (Nat.eqb_spec idx j); [lia|reflexivity].
      * intros [|i] ws' Ei.
        -- injection Ei as <-. rewrite Nat.add_0_r, Old by lia. unfold used_words, v1. cbn [v_word].
           rewrite put_row by lia. rewrite Nat.eqb_refl. exact V.
        -- replace (idx + S i)%nat with (S idx + i)%nat by lia. apply New. exact Ei.
Qed.

(** ** Codebooks *)
Lemma width_eq h book : 0 <= book <= 7 -> 0 <= h_coef h <= 49 -> book_bits h book = book_width h book.
Proof.
  intros H Hc. unfold book_bits, book_width. assert (E : exists k, (k < 8)%nat /\ book = Z.of_nat k) by (exists (Z.to_nat book); lia).
  destruct E as (k & Hk & ->). do 8 (destruct k as [|k]; [cbn; try reflexivity; apply clog2_up; lia|]). lia.
Qed.
Lemma width_le h book : 0 <= h_coef h <= 49 -> 0 <= book_width h book <= 10.
Proof.
  intros Hc. assert (B : 0 <= Z.log2_up (h_coef h) <= 10).
  { split; [apply Z.log2_up_nonneg|]. apply Z.le_trans with (Z.log2_up 49); [apply Z.log2_up_le_mono; lia|vm_compute; discriminate]. }
  unfold book_width. destruct book as [|[[| |]|[| |]|]|]; lia.
Qed.
Lemma bad_not h book i : 0 <= book <= 7 -> within (book_max h book) i -> idx_bad h book i = false.
Proof.
  intros H Hi. unfold idx_bad, book_max, within in *. assert (E : exists k, (k < 8)%nat /\ book = Z.of_nat k) by (exists (Z.to_nat book); lia).
  destruct E as (k & Hk & ->).
  do 8 (destruct k as [|k]; [cbn in *; try reflexivity; try (apply Z.ltb_ge; lia); try (destruct (h_order h =? 4); apply Z.ltb_ge; lia)|]). lia.
Qed.

Lemma pairs_run nb : 0 <= nb <= 24 -> forall l j ix row rest,
  length ix = 128%nat -> length row = 128%nat -> (j + length l <= 128)%nat ->
  (forall i g, In (i, g) l -> 1 <= i <= 2 ^ nb /\ 0 <= g <= 1) ->
  exists ix' row', runA (forP (length l) j (fun j '(ix, row) =>
      i <- rd nb ;; b <- rd 1 ;;
      row <- aset row (Z.of_nat j) b ;; ix <- aset ix (Z.of_nat j) (i + 1) ;; Ret (ix, row)) (ix, row))
    (concat (map (fun '(i, g) => wbits nb (i - 1) ++ wbits 1 g) l) ++ rest) = Done ((ix', row'), rest) /\
    length ix' = 128%nat /\ length row' = 128%nat /\
    map (fun k => (nth k ix' 0, nth k row' 0)) (seq j (length l)) = l /\
    (forall k, (k < j)%nat -> nth k ix' 0 = nth k ix 0 /\ nth k row' 0 = nth k row 0).
Proof.
  intros Hnb. induction l as [|(i, g) l IH]; intros j ix row rest L1 L2 Hj Hok.
  - exists ix, row. split; [reflexivity|]. auto.
  - cbn [length] in Hj. destruct (Hok i g (or_introl eq_refl)) as (Hi & Hg).
    cbn [length forP map concat seq]. rewrite runA_bind, <- !app_assoc.
    rewrite rw by lia. rewrite rw by (change (2 ^ 1) with 2; lia). rewrite runA_aset by lia. rewrite runA_aset by lia.
    rewrite !Nat2Z.id. cbn [runA]. replace (i - 1 + 1) with i by lia.
    change (firstn j row ++ g :: skipn (S j) row) with (put row j g). change (firstn j ix ++ i :: skipn (S j) ix) with (put ix j i).
    destruct (IH (S j) (put ix j i) (put row j g) rest) as (ix' & row' & E & M1 & M2 & V & O).
    + rewrite put_len; lia.
    + rewrite put_len; lia.
    + lia.
    + intros i' g' Hin. apply Hok. right. exact Hin.
    + exists ix', row'. split; [exact E|]. split; [exact M1|]. split; [exact M2|]. split.
      * f_equal; [|exact V]. destruct (O j ltac:(lia)) as (-> & ->). rewrite !put_nth by lia. rewrite Nat.eqb_refl. reflexivity.
      * intros k Hk. destruct (O k ltac:(lia)) as (-> & ->). rewrite !put_nth by lia.
        destruct (Nat.eqb_spec j k); [lia|auto].
Qed.

Lemma check_run h s ix : forall n j bits, length (f_ch s) = 49%nat -> length ix = 128%nat -> (j + n <= 49)%nat ->
  (forall k d, (j <= k < j + n)%nat -> 0 <= q_cb (k_q (nth k (f_ch s) d)) <= 7 /\ within (book_max h (q_cb (k_q (nth k (f_ch s) d)))) (nth k ix 0)) ->
  runA (forP n j (fun j (ok : bool) =>
      if ok then kj <- aget (f_ch s) (Z.of_nat j) ;; i <- aget ix (Z.of_nat j) ;; Ret (negb (idx_bad h (q_cb (k_q kj)) i))
      else Ret false) true) bits = Done (true, bits).
Proof.
  induction n as [|n IH]; intros j bits L1 L2 Hj Hok; [reflexivity|].
  cbn [forP]. rewrite runA_bind. set (d := mkHc 0 0 0 (mkQ 0 0 0 0 0) 0 0 0 0).
  rewrite (runA_aget _ _ (nth j (f_ch s) d)) by (rewrite ?Nat2Z.id; try lia; apply nth_e; lia).
  rewrite (runA_aget _ _ (nth j ix 0)) by (rewrite ?Nat2Z.id; try lia; apply nth_e; lia).
  destruct (Hok j d ltac:(lia)) as (B1 & B2). rewrite bad_not by assumption. cbn [runA negb].
  apply IH; try assumption; [lia|]. intros k d' Hk. apply Hok. lia.
Qed.

Lemma book_run h s v k w l rest :
  conf_ok h -> dims h -> marks_ok s -> vstate_ok v -> length (f_ch s) = 49%nat ->
  nth_error (f_ch s) 0 = Some k -> q_nvi (k_q k) = Z.of_nat (length l) -> (1 <= length l <= 49)%nat ->
  book_vec_ok h (q_cb (k_q k)) w l ->
  (forall j o i g, nth_error (f_ch s) j = Some o -> nth_error l j = Some (i, g) ->
     0 <= q_cb (k_q o) <= 7 /\ within (book_max h (q_cb (k_q o))) i) ->
  exists v', runA (vec_book h s 0 0 v) (book_vec_bits h (q_cb (k_q k)) w l ++ rest) = Done (Ok v', rest) /\
    vstate_ok v' /\ used_book s v' 0 = (q_cb (k_q k), if Z.of_nat (length l) =? 1 then nth 0 (v_w v) 0 else w, l) /\
    (forall j, (j < Z.to_nat (h_vvl h))%nat ->
       nth j (nth 0 (v_add v') []) 0 = if unsent s 0 (Z.to_nat (h_off h) + j) then 0 else 1) /\ v_word v' = v_word v.
Proof.
  intros Hc (D1 & D2 & D3) Hm (A1 & (A2 & A2') & A3 & A4 & (A5 & A5')) Lc Ek En Hl (Hb & Hw & Hok) Hall.
  assert (Cc : 0 <= h_coef h <= 49) by apply Hc.
  pose proof (width_le h (q_cb (k_q k)) Cc) as Wl.
  unfold vec_book, book_vec_bits. rewrite (runA_aget _ _ k) by (rewrite ?Nat2Z.id; try lia; exact Ek). cbv zeta.
  rewrite En, width_eq by assumption. rewrite <- app_assoc.
  set (n := length l) in *.
  assert (W : forall (K : list Z -> prog (res hvs)) bits, runA (w0 <- (if Z.of_nat n =? 1 then Ret (v_w v) else b <- rd 8 ;; aset (v_w v) 0 b) ;; K w0)
     ((if Z.of_nat n =? 1 then [] else wbits 8 w) ++ bits) = runA (K (if Z.of_nat n =? 1 then v_w v else put (v_w v) 0 w)) bits).
  { intros K bits. destruct (Z.of_nat n =? 1); [reflexivity|]. rewrite bind_assoc, rw by (change (2 ^ 8) with 256; lia).
    rewrite runA_aset by lia. reflexivity. }
  rewrite W. clear W.
  rewrite (runA_aget _ _ (nth 0 (v_sgn v) [])) by (try lia; apply nth_e; lia).
  assert (Lr : length (nth 0 (v_sgn v) []) = 128%nat) by (apply A2', nth_In; lia).
  destruct (pairs_run (book_width h (q_cb (k_q k))) ltac:(lia) l 0 (v_idx v) (nth 0 (v_sgn v) []) rest A1 Lr) as (ix & row & E & M1 & M2 & V & _).
  { fold n. lia. } { intros i g Hin. destruct (Hok i g Hin) as (B1 & _ & B3). lia. }
  fold n in E, V. rewrite Nat2Z.id. rewrite runA_bind, E. cbv beta iota.
  rewrite runA_aset by lia.
  rewrite runA_bind, check_run.
  - cbv beta iota. cbn [negb].
    rewrite (runA_aget _ _ (nth 0 (v_add v) [])) by (try lia; apply nth_e; lia).
    assert (La : length (nth 0 (v_add v) []) = 49%nat) by (apply A5', nth_In; lia).
    match goal with |- context [forP (Z.to_nat (h_vvl h)) 0 ?b _] => set (body := b) end.
    destruct (fill_run body (fun _ => []) (fun j => if unsent s 0 (Z.to_nat (h_off h) + j) then 0 else 1) 49
      (Z.to_nat (h_vvl h)) 0 (nth 0 (v_add v) []) rest) as (arow & E' & L' & V' & _); [|exact La|lia|].
    + intros j r rs Hj Hr. unfold body. replace (h_off h + Z.of_nat j) with (Z.of_nat (Z.to_nat (h_off h) + j)) by lia.
      change 0 with (Z.of_nat 0) at 1. cbn [app]. rewrite (masked_run s 0) by (try assumption; lia).
      unfold aset. replace ((0 <=? Z.of_nat j) && (Z.of_nat j <? Z.of_nat (length r))) with true.
      * rewrite Nat2Z.id. reflexivity.
      * symmetry. apply andb_true_intro. split; [apply Z.leb_le|apply Z.ltb_lt]; lia.
    + replace (concat (map (fun _ : nat => []) (seq 0 (Z.to_nat (h_vvl h)))) ++ rest) with rest in E'.
      2: { clear. generalize 0%nat. induction (Z.to_nat (h_vvl h)) as [|m IH]; intros i; [reflexivity|apply (IH (S i))]. }
      rewrite runA_bind, E'. cbv beta iota. rewrite runA_aset by lia. eexists. split; [reflexivity|].
      change (Z.to_nat 0) with O. change (firstn 0 (v_sgn v) ++ row :: skipn 1 (v_sgn v)) with (put (v_sgn v) 0 row).
      change (firstn 0 (v_add v) ++ arow :: skipn 1 (v_add v)) with (put (v_add v) 0 arow).
      split; [|split; [|split; [|reflexivity]]].
      * split; [exact M1|]. split; [apply put_rows; [split; assumption|lia|exact M2]|]. split.
        { cbn [v_w]. destruct (Z.of_nat n =? 1); [exact A3|]. rewrite put_len; lia. }
        split; [exact A4|]. apply put_rows; [split; assumption|lia|exact L'].
      * unfold used_book. rewrite (nth_error_nth _ _ _ Ek). cbn [v_w v_sgn v_idx]. rewrite En, Nat2Z.id. fold n. f_equal; [f_equal|].
        -- destruct (Z.of_nat n =? 1); [reflexivity|]. rewrite put_nth by lia. reflexivity.
        -- rewrite put_row by lia. cbn [Nat.eqb]. exact V.
      * intros j Hj. cbn [v_add]. rewrite put_row by lia. cbn [Nat.eqb]. apply V'. lia.
  - exact Lc.
  - exact M1.
  - lia.
  - intros j d Hj. fold n in V.
    assert (El : nth_error l j = Some (nth j ix 0, nth j row 0)).
    { rewrite <- V. rewrite (map_nth_error _ j (seq 0 n) (d := j)); [reflexivity|].
      rewrite (nth_e (seq 0 n) j 0%nat) by (rewrite seq_length; lia). rewrite seq_nth by lia. reflexivity. }
    apply (Hall j (nth j (f_ch s) d) (nth j ix 0) (nth j row 0)); [apply nth_e; lia|exact El].
Qed.

Lemma accepted_dims h0 h : hoa_ok h0 h -> h_order h <= 5 -> dims h.
Proof.
  intros [Ho Hc Hnt Ha Han Hmc Had Hmx _ _ _ _ _ _ _ _ _ Hcv Hof Hvv] H5. unfold dims.
  assert (h_coef h <= 36) by (rewrite Hc; nia). assert (0 <= h_minco h <= h_coef h) by (rewrite Hmc, Hc; nia).
  assert (1 <= h_coef h) by (rewrite Hc; nia). rewrite Hvv, Hof. destruct (h_cvv h =? 0); lia.
Qed.

(** An index beyond its codebook. *)
Lemma bad_is h book i m : 0 <= book <= 7 -> book_max h book = Some m -> m < i -> idx_bad h book i = true.
Proof.
  intros H E Hi. assert (K : book = 0 \/ book = 1 \/ book = 2 \/ book = 3 \/ book = 4 \/ book = 5 \/ book = 6 \/ book = 7) by lia.
  destruct K as [->|[->|[->|[->|[->|[->|[->| ->]]]]]]]; cbn in E; try discriminate E; injection E as <-; unfold idx_bad; cbn; try (apply Z.ltb_lt; exact Hi).
  destruct (h_order h =? 4); apply Z.ltb_lt; lia.
Qed.
Lemma check_off h s ix : forall n j bits, runA (forP n j (fun j (ok : bool) =>
      if ok then kj <- aget (f_ch s) (Z.of_nat j) ;; i <- aget ix (Z.of_nat j) ;; Ret (negb (idx_bad h (q_cb (k_q kj)) i))
      else Ret false) false) bits = Done (false, bits).
Proof. induction n as [|n IH]; intros j bits; [reflexivity|]. cbn [forP bind]. apply IH. Qed.

Lemma book_beyond h s v k w i g l rest m :
  conf_ok h -> vstate_ok v -> length (f_ch s) = 49%nat ->
  nth_error (f_ch s) 0 = Some k -> q_nvi (k_q k) = Z.of_nat (S (length l)) -> (S (length l) <= 49)%nat ->
  0 <= q_cb (k_q k) <= 7 -> 0 <= w < 256 ->
  (forall i' g', In (i', g') ((i, g) :: l) -> 1 <= i' <= 2 ^ book_width h (q_cb (k_q k)) /\ 0 <= g' <= 1) ->
  book_max h (q_cb (k_q k)) = Some m -> m < i ->
  runA (vec_book h s 0 0 v) (book_vec_bits h (q_cb (k_q k)) w ((i, g) :: l) ++ rest) = Done (Er E_VVEC_IDX, rest).
Proof.
  intros Hc (A1 & (A2 & A2') & A3 & A4 & (A5 & A5')) Lc Ek En Hl Hb Hw Hok Hm Hi.
  assert (Cc : 0 <= h_coef h <= 49) by apply Hc.
  pose proof (width_le h (q_cb (k_q k)) Cc) as Wl.
  change (S (length l)) with (length ((i, g) :: l)) in En, Hl.
  unfold vec_book, book_vec_bits. rewrite (runA_aget _ _ k) by (rewrite ?Nat2Z.id; try lia; exact Ek). cbv zeta.
  rewrite En, width_eq by assumption. rewrite <- app_assoc.
  set (L := (i, g) :: l) in *. set (n := length L) in *.
  assert (W : forall (K : list Z -> prog (res hvs)) bits, runA (w0 <- (if Z.of_nat n =? 1 then Ret (v_w v) else b <- rd 8 ;; aset (v_w v) 0 b) ;; K w0)
     ((if Z.of_nat n =? 1 then [] else wbits 8 w) ++ bits) = runA (K (if Z.of_nat n =? 1 then v_w v else put (v_w v) 0 w)) bits).
  { intros K bits. destruct (Z.of_nat n =? 1); [reflexivity|]. rewrite bind_assoc, rw by (change (2 ^ 8) with 256; lia).
    rewrite runA_aset by lia. reflexivity. }
  rewrite W. clear W.
  rewrite (runA_aget _ _ (nth 0 (v_sgn v) [])) by (try lia; apply nth_e; lia).
  assert (Lr : length (nth 0 (v_sgn v) []) = 128%nat) by (apply A2', nth_In; lia).
  destruct (pairs_run (book_width h (q_cb (k_q k))) ltac:(lia) L 0 (v_idx v) (nth 0 (v_sgn v) []) rest A1 Lr) as (ix & row & E & M1 & M2 & V & _).
  { fold n. lia. } { intros i' g' Hin. destruct (Hok i' g' Hin) as (B1 & B3). lia. }
  fold n in E, V. rewrite Nat2Z.id. rewrite runA_bind, E. cbv beta iota.
  rewrite runA_aset by lia.
  assert (I0 : nth_error ix 0 = Some i).
  { rewrite (nth_e ix 0 0) by lia. f_equal. unfold n, L in V. cbn [length seq map] in V. injection V as V _ _. exact V. }
  rewrite runA_bind. unfold n at 1. cbn [length L forP]. rewrite runA_bind.
  rewrite (runA_aget _ _ k) by (try lia; exact Ek). rewrite (runA_aget _ _ i) by (try lia; exact I0).
  rewrite (bad_is h _ i m Hb Hm Hi). cbn [negb runA]. rewrite check_off. reflexivity.
Qed.
