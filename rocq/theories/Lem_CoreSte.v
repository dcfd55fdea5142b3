(** * Lem_CoreSte: stereo side information is read as sent *)

From Coq Require Import ZArith List Lia Bool String.
From Verif Require Import Bits BitBuf Prog Wp Loops Config Oam CoreIcs CoreSte Spec_CoreIcs Spec_Mct
  Lem_Asi Spec_Asi Lem_AsiRT Lem_MctBand Lem_MctHuff Lem_CoreIcs Lem_CoreTns Spec_CoreSte.
Import ListNotations.
Open Scope list_scope.
Open Scope Z_scope.

(** ** Codewords *)
Lemma cw_ext tab : forall len code bs x r t, runA (cw_from tab len code) bs = Done (x, r) ->
  runA (cw_from tab len code) (bs ++ t) = Done (x, r ++ t).
Proof.
  induction tab as [|[[ix l] c] tab IH]; intros len code bs x r t H; [discriminate|]. cbn [cw_from] in *.
  destruct (code =? c). { cbn [runA] in *. injection H as <- <-. reflexivity. }
  destruct tab as [|[[ix' l'] c'] tab]; [discriminate|]. cbv zeta in *.
  destruct (l' - len <? 0) eqn:E. { cbn [runA] in *. injection H as <- <-. reflexivity. }
  unfold rd in *. cbn [bind runA] in *. apply Z.ltb_ge in E.
  destruct ((l' - len <? 0) || (24 <? l' - len)); [discriminate|].
  destruct (Z.ltb_spec (Z.of_nat (List.length bs)) (l' - len)); [discriminate|].
  replace (Z.of_nat (List.length (bs ++ t)) <? l' - len) with false by (symmetry; apply Z.ltb_ge; rewrite app_length; lia).
  rewrite firstn_app, skipn_app. replace (Z.to_nat (l' - len) - List.length bs)%nat with 0%nat by lia. cbn [firstn skipn]. rewrite app_nil_r.
  apply IH. exact H.
Qed.

Lemma codeword_ext tab bs x r t : runA (codeword tab) bs = Done (x, r) -> runA (codeword tab) (bs ++ t) = Done (x, r ++ t).
Proof.
  destruct tab as [|[[ix l] c] tab]; [discriminate|]. set (tb := (ix, l, c) :: tab). unfold codeword, tb. fold tb. intros H.
  unfold rd in *. cbn [bind runA] in *.
  destruct ((l <? 0) || (24 <? l)) eqn:E; [discriminate|]. apply orb_false_iff in E. destruct E as [E _]. apply Z.ltb_ge in E.
  destruct (Z.ltb_spec (Z.of_nat (List.length bs)) l); [discriminate|].
  replace (Z.of_nat (List.length (bs ++ t)) <? l) with false by (symmetry; apply Z.ltb_ge; rewrite app_length; lia).
  rewrite firstn_app, skipn_app. replace (Z.to_nat l - List.length bs)%nat with 0%nat by lia. cbn [firstn skipn]. rewrite app_nil_r.
  apply cw_ext. exact H.
Qed.

(** Every word of the codebook is decoded to its number. *)
Fixpoint all_words (i : Z) (bk : list string) : bool :=
  match bk with
  | [] => true
  | w :: r => match runA (codeword scl_book) (word w) with Done (x, []) => x =? i | _ => false end && all_words (i + 1) r
  end.
Lemma words_right : all_words 0 book_scf = true. Proof. vm_compute. reflexivity. Qed.
Lemma words_nth bk : forall i k, all_words i bk = true -> (k < List.length bk)%nat ->
  runA (codeword scl_book) (word (nth k bk EmptyString)) = Done (i + Z.of_nat k, []).
Proof.
  induction bk as [|w bk IH]; intros i k H K; [cbn in K; lia|]. cbn [all_words] in H. apply andb_true_iff in H. destruct H as [H1 H].
  destruct k as [|k].
  - cbn [nth]. destruct (runA (codeword scl_book) (word w)) as [[x [|]]|?|?]; try discriminate. apply Z.eqb_eq in H1. subst. f_equal. f_equal. lia.
  - cbn [nth]. rewrite (IH (i + 1) k H) by (cbn in K; lia). f_equal. f_equal. lia.
Qed.

Lemma codeword_run {A} i (k : Z -> prog A) rest : 0 <= i < 121 ->
  runA (bind (codeword scl_book) k) (word (nth (Z.to_nat i) book_scf EmptyString) ++ rest) = runA (k i) rest.
Proof.
  intros H. rewrite runA_bind.
  assert (L : List.length book_scf = 121%nat) by reflexivity.
  rewrite (codeword_ext _ _ _ _ rest (words_nth _ 0 (Z.to_nat i) words_right ltac:(lia))).
  cbn [app]. f_equal. f_equal. lia.
Qed.

(** ** Lists of pairs *)
Fixpoint dupn (m : nat) (vs : list Z) : list Z :=
  match vs, m with
  | v :: r, S (S m') => v :: v :: dupn m' r
  | v :: _, 1%nat => [v]
  | _, _ => []
  end.
Lemma pairs_SS m : pairs (S (S m)) = S (pairs m).
Proof. unfold pairs. replace (S (S m) + 1)%nat with (S (S (m + 1))) by lia. reflexivity. Qed.

Lemma dupn_len : forall vs m, List.length vs = pairs m -> List.length (dupn m vs) = m.
Proof.
  induction vs as [|v vs IH]; intros m H.
  - destruct m as [|[|m]]; [reflexivity| |rewrite pairs_SS in H]; discriminate.
  - destruct m as [|[|m]]; [discriminate|reflexivity|]. rewrite pairs_SS in H. cbn. f_equal. f_equal. apply IH. cbn in H. lia.
Qed.
Lemma dupn_nth : forall vs m j, List.length vs = pairs m -> (j < m)%nat -> nth_error (dupn m vs) j = nth_error vs (Nat.div2 j).
Proof.
  induction vs as [|v vs IH]; intros m j H J.
  - destruct m as [|[|m]]; [lia| |rewrite pairs_SS in H]; discriminate.
  - destruct m as [|[|m]]; [lia| |].
    + destruct j as [|j]; [reflexivity|lia].
    + rewrite pairs_SS in H. destruct j as [|[|j]]; [reflexivity|reflexivity|]. cbn. apply IH; cbn in H; lia.
Qed.

Lemma fillr_run {A} n : forall done l v (k : list Z -> prog A) bs, (n <= List.length l)%nat ->
  runA (bind (fillr (done ++ l) (List.length done) n v) k) bs = runA (k (done ++ repeat v n ++ skipn n l)) bs.
Proof.
  unfold fillr. induction n as [|n IH]; intros done l v k bs H; [reflexivity|].
  destruct l as [|x l]; [cbn in H; lia|]. cbn [forP repeat skipn]. rewrite bind_assoc, aset_run by (rewrite app_length; cbn; lia). rewrite upd1_app.
  replace (done ++ v :: l) with ((done ++ [v]) ++ l) by (rewrite <- app_assoc; reflexivity).
  replace (S (List.length done)) with (List.length (done ++ [v])) by (rewrite app_length; cbn; lia).
  rewrite IH by (cbn in H; lia). rewrite <- app_assoc. reflexivity.
Qed.
(** Clearing the rest of an array of 136. *)
Lemma clear_run {A} ms l (k : list Z -> prog A) bs : (ms <= 136)%nat -> List.length l = 136%nat ->
  runA (bind (fillr l ms (136 - ms) 0) k) bs = runA (k (firstn ms l ++ repeat 0 (136 - ms))) bs.
Proof.
  intros H L. assert (F : List.length (firstn ms l) = ms) by (rewrite firstn_length; lia).
  pose proof (fillr_run (136 - ms) (firstn ms l) (skipn ms l) 0 k bs ltac:(rewrite skipn_length; lia)) as X.
  rewrite firstn_skipn, F in X. rewrite X. do 3 f_equal.
  rewrite skipn_skipn_add. rewrite (skipn_all2 l) by lia. apply app_nil_r.
Qed.

(** ** Which bands are predicted *)
Lemma used_run : forall fs i ms done l rest, List.length done = (2 * i)%nat -> List.length fs = pairs (ms - 2 * i) -> (2 * i <= ms)%nat ->
  (ms - 2 * i <= List.length l)%nat ->
  runA (forP (List.length fs) i (used_band ms) (done ++ l)) (fs ++ rest) =
  Done (done ++ dupn (ms - 2 * i) (map b2z fs) ++ skipn (ms - 2 * i) l, rest).
Proof.
  induction fs as [|f fs IH]; intros i ms done l rest D P M L.
  - assert (ms - 2 * i = 0)%nat as ->. { destruct (ms - 2 * i)%nat as [|[|m]] eqn:E; [reflexivity| |rewrite pairs_SS in P]; discriminate. }
    reflexivity.
  - cbn [List.length forP]. unfold used_band at 1. rewrite !bind_assoc.
    change ((f :: fs) ++ rest) with ([f] ++ (fs ++ rest)). rewrite one_flag, runA_flag.
    destruct (ms - 2 * i)%nat as [|[|m]] eqn:E; [discriminate| |].
    + destruct l as [|x l]; [cbn in L; lia|]. rewrite bind_assoc, <- D, aset_run by (rewrite app_length; cbn; lia). rewrite upd1_app.
      replace (List.length done + 1 <? ms)%nat with false by (symmetry; apply Nat.ltb_ge; lia). cbn [bind].
      cbn in P. assert (fs = []) as -> by (destruct fs; [reflexivity|discriminate]). reflexivity.
    + rewrite pairs_SS in P. destruct l as [|x [|y l]]; [cbn in L; lia|cbn in L; lia|].
      rewrite bind_assoc, <- D, aset_run by (rewrite app_length; cbn; lia). rewrite upd1_app.
      replace (List.length done + 1 <? ms)%nat with true by (symmetry; apply Nat.ltb_lt; lia).
      replace (done ++ b2z f :: y :: l) with ((done ++ [b2z f]) ++ y :: l) by (rewrite <- app_assoc; reflexivity).
      replace (List.length done + 1)%nat with (List.length (done ++ [b2z f])) by (rewrite app_length; cbn; lia).
      rewrite aset_run by (rewrite !app_length; cbn; lia). rewrite upd1_app.
      replace ((done ++ [b2z f]) ++ b2z f :: l) with ((done ++ [b2z f; b2z f]) ++ l) by (rewrite <- !app_assoc; reflexivity).
      rewrite (IH (S i)) by (try (rewrite app_length; cbn); try (replace (ms - 2 * S i)%nat with m by lia); cbn in *; lia).
      replace (ms - 2 * S i)%nat with m by lia. cbn [map dupn skipn]. rewrite <- !app_assoc. reflexivity.
Qed.

Definition rows (l : list (list Z)) : Prop := List.length l = 8%nat /\ Forall (fun r => List.length r = 136%nat) l.

Lemma pairs_le ms : (pairs ms <= ms)%nat.
Proof. unfold pairs. pose proof (Nat.div2_decr (ms + 1) ms ltac:(lia)). lia. Qed.

Lemma dupn_repeat m : dupn m (repeat 1 (pairs m)) = repeat 1 m.
Proof.
  assert (H : forall n m, (m <= n)%nat -> dupn m (repeat 1 (pairs m)) = repeat 1 m).
  { induction n as [|n IH]; intros [|[|k]] L; try reflexivity; try lia. rewrite pairs_SS. cbn. rewrite IH by lia. reflexivity. }
  apply (H m). lia.
Qed.

Definition pad (ms : nat) (l : list Z) : list Z := l ++ repeat 0 (136 - ms).
Lemma firstn_head {A} (a b : list A) n : List.length a = n -> firstn n (a ++ b) = a.
Proof. intros <-. rewrite firstn_app, Nat.sub_diag, firstn_all. cbn. apply app_nil_r. Qed.

Lemma used_grp_run {A} (flags : bool) ms g u row (fs : list bool) (k : list (list Z) -> prog A) rest :
  nth_error u g = Some row -> List.length row = 136%nat -> (ms <= 136)%nat -> List.length fs = pairs ms ->
  (flags = false -> Forall (fun b => b = true) fs) ->
  runA (bind (used_grp (b2z (negb flags)) ms g u) k) ((if flags then fs else []) ++ rest) =
  runA (k (upd1 u g (pad ms (dupn ms (map b2z fs))))) rest.
Proof.
  intros N L M F V. unfold used_grp. rewrite !bind_assoc. rewrite (aget_run _ _ _ _ _ N). rewrite !bind_assoc.
  assert (G : (g < List.length u)%nat) by (apply nth_error_Some; congruence).
  destruct flags; cbn [negb b2z].
  - change (0 =? 1) with false. cbv iota. rewrite runA_bind. rewrite <- F.
    pose proof (used_run fs 0 ms [] row rest eq_refl) as U. rewrite Nat.mul_0_r, Nat.sub_0_r in U. cbn [app] in U.
    rewrite U by lia. rewrite !bind_assoc, clear_run by (try rewrite app_length, dupn_len, skipn_length; try rewrite map_length; lia).
    rewrite aset_run by exact G. rewrite firstn_head by (apply dupn_len; rewrite map_length; exact F). reflexivity.
  - change (1 =? 1) with true. cbv iota. cbn [app].
    pose proof (fun A k => @fillr_run A ms [] row 1 k rest ltac:(lia)) as U. cbn [app List.length] in U. rewrite U. clear U.
    rewrite bind_assoc, clear_run by (try rewrite app_length, repeat_length, skipn_length; lia).
    rewrite aset_run by exact G. rewrite firstn_head by apply repeat_length.
    assert (map b2z fs = repeat 1 (pairs ms)) as ->.
    { rewrite <- F. specialize (V eq_refl). clear - V. induction V; cbn; [reflexivity|]. subst. cbn. f_equal. assumption. }
    rewrite dupn_repeat. reflexivity.
Qed.

(** Writing one row after another. *)
Fixpoint wrows {A} (i : nat) (rs : list A) (l : list A) : list A :=
  match rs with [] => l | r :: rs => wrows (S i) rs (upd1 l i r) end.
Lemma wrows_len {A} (rs : list A) : forall i l, (i + List.length rs <= List.length l)%nat -> List.length (wrows i rs l) = List.length l.
Proof. induction rs as [|r rs IH]; intros i l H; cbn in *; [reflexivity|]. rewrite IH; rewrite upd1_len; lia. Qed.
Lemma wrows_nth {A} (rs : list A) : forall i l j, (i + List.length rs <= List.length l)%nat ->
  nth_error (wrows i rs l) j = if (i <=? j)%nat && (j <? i + List.length rs)%nat then nth_error rs (j - i) else nth_error l j.
Proof.
  induction rs as [|r rs IH]; intros i l j H; cbn [wrows List.length] in *.
  - replace ((i <=? j)%nat && (j <? i + 0)%nat) with false; [reflexivity|]. symmetry. apply andb_false_iff. destruct (Nat.leb_spec i j); auto. right. apply Nat.ltb_ge. lia.
  - rewrite IH by (rewrite upd1_len; lia). destruct (Nat.eq_dec j i) as [->|E].
    + replace (S i <=? i)%nat with false by (symmetry; apply Nat.leb_gt; lia). cbn [andb]. rewrite Nat.leb_refl.
      replace (i <? i + S (List.length rs))%nat with true by (symmetry; apply Nat.ltb_lt; lia). cbn [andb]. rewrite Nat.sub_diag. apply upd1_eq. lia.
    + rewrite upd1_neq by lia. destruct (Nat.leb_spec (S i) j), (Nat.leb_spec i j); try lia; cbn [andb]; try reflexivity.
      replace (j <? i + S (List.length rs))%nat with (j <? S i + List.length rs)%nat by (f_equal; lia).
      destruct (j <? S i + List.length rs)%nat eqn:Q; [|reflexivity]. replace (j - i)%nat with (S (j - S i)) by lia. reflexivity.
Qed.
Lemma wrows_rows (rs : list (list Z)) i l : rows l -> (i + List.length rs <= 8)%nat -> Forall (fun r => List.length r = 136%nat) rs -> rows (wrows i rs l).
Proof.
  intros [L F] H R. split; [rewrite wrows_len; lia|]. apply Forall_forall. intros x Hx. apply In_nth_error in Hx. destruct Hx as [j Hx].
  rewrite wrows_nth in Hx by lia. destruct (_ && _); apply nth_error_In in Hx; [rewrite Forall_forall in R|rewrite Forall_forall in F]; auto.
Qed.

Definition urow (ms : nat) (g : list (option coef)) : list Z := pad ms (dupn ms (map (fun v => b2z (on v)) g)).
Lemma urow_len ms g : (ms <= 136)%nat -> List.length g = pairs ms -> List.length (urow ms g) = 136%nat.
Proof. intros M H. unfold urow, pad. rewrite app_length, repeat_length, dupn_len by (rewrite map_length; exact H). lia. Qed.

Lemma used_grps_run (flags : bool) ms : (ms <= 136)%nat -> forall gs i u rest, rows u -> (i + List.length gs <= 8)%nat ->
  Forall (fun g => List.length g = pairs ms) gs -> (flags = false -> Forall (Forall (fun v => on v = true)) gs) ->
  runA (forP (List.length gs) i (used_grp (b2z (negb flags)) ms) u) ((if flags then flat_map (map on) gs else []) ++ rest) =
  Done (wrows i (map (urow ms) gs) u, rest).
Proof.
  intros M. induction gs as [|g gs IH]; intros i u rest R H F V; [destruct flags; reflexivity|].
  apply Forall_cons_iff in F. destruct F as [F1 F]. cbn [List.length forP map wrows].
  destruct (nth_error u i) as [row|] eqn:N; [|apply nth_error_None in N; destruct R; cbn in H; lia].
  assert (L136 : List.length row = 136%nat). { destruct R as [_ R]. rewrite Forall_forall in R. apply R. eapply nth_error_In; eauto. }
  assert (X : ((if flags then flat_map (map on) (g :: gs) else []) ++ rest) =
     (if flags then map on g else []) ++ ((if flags then flat_map (map on) gs else []) ++ rest)) by (destruct flags; cbn; [rewrite <- app_assoc|]; reflexivity).
  rewrite X. rewrite (used_grp_run flags ms i u row (map on g)); auto.
  - rewrite map_map. rewrite IH; auto.
    + change [urow ms g] with ([urow ms g]). apply (wrows_rows [urow ms g] i u R); [cbn in *; lia|]. constructor; [apply urow_len; auto|constructor].
    + cbn in H; lia.
    + intros E. specialize (V E). apply Forall_cons_iff in V. tauto.
  - rewrite map_length. exact F1.
  - intros E. specialize (V E). apply Forall_cons_iff in V. destruct V as [V _]. clear - V. induction V; cbn; constructor; auto.
Qed.

(** ** Coefficients of a group *)
Fixpoint wevens (i : nat) (vs : list Z) (l : list Z) : list Z :=
  match vs with [] => l | v :: r => wevens (S i) r (upd1 l (2 * i) v) end.
Lemma wevens_len vs : forall i l, (2 * (i + List.length vs) <= S (List.length l))%nat -> List.length (wevens i vs l) = List.length l.
Proof. induction vs as [|v vs IH]; intros i l H; cbn [wevens List.length] in *; [reflexivity|]. rewrite IH; rewrite upd1_len; lia. Qed.
Lemma wevens_nth vs : forall i l b, (2 * (i + List.length vs) <= S (List.length l))%nat ->
  nth_error (wevens i vs l) (2 * b) = if (i <=? b)%nat && (b <? i + List.length vs)%nat then nth_error vs (b - i) else nth_error l (2 * b).
Proof.
  induction vs as [|v vs IH]; intros i l b H; cbn [wevens List.length] in *.
  - replace ((i <=? b)%nat && (b <? i + 0)%nat) with false; [reflexivity|]. symmetry. apply andb_false_iff. destruct (Nat.leb_spec i b); auto. right. apply Nat.ltb_ge. lia.
  - rewrite IH by (rewrite upd1_len; lia). destruct (Nat.eq_dec b i) as [->|E].
    + replace (S i <=? i)%nat with false by (symmetry; apply Nat.leb_gt; lia). cbn [andb]. rewrite Nat.leb_refl.
      replace (i <? i + S (List.length vs))%nat with true by (symmetry; apply Nat.ltb_lt; lia). cbn [andb]. rewrite Nat.sub_diag. apply upd1_eq. lia.
    + rewrite upd1_neq by lia. destruct (Nat.leb_spec (S i) b), (Nat.leb_spec i b); try lia; cbn [andb]; try reflexivity.
      replace (b <? i + S (List.length vs))%nat with (b <? S i + List.length vs)%nat by (f_equal; lia).
      destruct (b <? S i + List.length vs)%nat eqn:Q; [|reflexivity]. replace (b - i)%nat with (S (b - S i)) by lia. reflexivity.
Qed.

Lemma get_run {A} (time cplx : bool) (used re im rp ip : list Z) sfb (from : coef) v (k : Z * Z -> prog A) rest :
  (if time then nth_error rp sfb = Some (fst from) /\ nth_error ip sfb = Some (snd from)
   else (sfb = 0%nat /\ from = (0, 0)) \/ ((0 < sfb)%nat /\ nth_error re (sfb - 1) = Some (fst from) /\ nth_error im (sfb - 1) = Some (snd from))) ->
  nth_error used sfb = Some (b2z (on v)) ->
  match v with None => True | Some q => codable Prediction (fst from) (fst q) /\ (if cplx then codable Prediction (snd from) (snd q) else snd q = 0) end ->
  runA (bind (alpha_get (b2z time) (b2z cplx) used re im rp ip sfb) k)
    (match v with None => [] | Some q => code Prediction (fst from) (fst q) ++ (if cplx then code Prediction (snd from) (snd q) else []) end ++ rest) =
  runA (k (val v)) rest.
Proof.
  intros F U V. unfold alpha_get. rewrite bind_assoc.
  assert (X : forall B (k' : Z * Z -> prog B) bs, runA (bind (if b2z time =? 0 then
      if (0 <? sfb)%nat then
        x <- aget re (Z.of_nat sfb - 1) ;; y <- aget im (Z.of_nat sfb - 1) ;; Ret (x, y)
      else Ret (0, 0)
    else x <- aget rp (Z.of_nat sfb) ;; y <- aget ip (Z.of_nat sfb) ;; Ret (x, y)) k') bs = runA (k' from) bs).
  { intros B k' bs. destruct from as [fr fi]. destruct time; cbn [b2z].
    - destruct F as [F1 F2]. change (1 =? 0) with false. cbv iota. rewrite bind_assoc, (aget_run _ _ _ _ _ F1), bind_assoc, (aget_run _ _ _ _ _ F2). reflexivity.
    - change (0 =? 0) with true. cbv iota. destruct F as [[-> E]|(P & F1 & F2)].
      + injection E as -> ->. reflexivity.
      + replace (0 <? sfb)%nat with true by (symmetry; apply Nat.ltb_lt; lia). replace (Z.of_nat sfb - 1) with (Z.of_nat (sfb - 1)) by lia.
        rewrite bind_assoc, (aget_run _ _ _ _ _ F1), bind_assoc, (aget_run _ _ _ _ _ F2). reflexivity. }
  rewrite X. destruct from as [fr fi]. rewrite bind_assoc, (aget_run _ _ _ _ _ U).
  destruct v as [[qr qi]|]; cbn [on b2z val fst snd] in *; [|reflexivity].
  change (1 =? 0) with false. cbv iota. destruct V as [V1 V2]. rewrite <- app_assoc.
  destruct V1 as [V3 V4]. unfold code at 1. rewrite bind_assoc, codeword_run by lia. rewrite bind_assoc, addi_run by lia.
  replace (- (60 + fr - qr) + 60 + fr) with qr by lia. destruct cplx; cbn [b2z].
  - change (negb (1 =? 0)) with true. cbv iota. destruct V2 as [V5 V6]. unfold code. rewrite bind_assoc, codeword_run by lia. rewrite bind_assoc, addi_run by lia.
    replace (- (60 + fi - qi) + 60 + fi) with qi by lia. reflexivity.
  - change (negb (0 =? 0)) with false. cbv iota. subst. reflexivity.
Qed.

Lemma put_run {A} ms dre dim x y lre lim rp ip q m (k : _ -> prog A) bs :
  List.length dre = List.length dim -> (m = ms - List.length dre)%nat -> (0 < m)%nat ->
  (m <= S (List.length lre))%nat -> (m <= S (List.length lim))%nat ->
  (List.length dre < List.length rp)%nat -> (List.length dre < List.length ip)%nat ->
  let n := if (1 <? m)%nat then 2%nat else 1%nat in
  runA (bind (alpha_put ms (List.length dre) (dre ++ x :: lre) (dim ++ y :: lim) rp ip q) k) bs =
  runA (k ((dre ++ repeat (fst q) n) ++ skipn (n - 1) lre, (dim ++ repeat (snd q) n) ++ skipn (n - 1) lim,
           upd1 rp (List.length dre) (fst q), upd1 ip (List.length dre) (snd q))) bs.
Proof.
  intros E M M0 L1 L2 R1 R2. destruct q as [r i]. unfold alpha_put. cbv zeta. cbn [fst snd].
  rewrite bind_assoc, aset_run by (rewrite app_length; cbn; lia). rewrite upd1_app.
  rewrite bind_assoc. rewrite E at 1. rewrite aset_run by (rewrite app_length; cbn; lia). rewrite upd1_app.
  rewrite bind_assoc. destruct (Nat.ltb_spec (List.length dre + 1) ms).
  - replace (1 <? m)%nat with true by (symmetry; apply Nat.ltb_lt; lia).
    destruct lre as [|x2 lre]; [cbn in L1; lia|]. destruct lim as [|y2 lim]; [cbn in L2; lia|].
    replace (dre ++ r :: x2 :: lre) with ((dre ++ [r]) ++ x2 :: lre) by (rewrite <- app_assoc; reflexivity).
    replace (dim ++ i :: y2 :: lim) with ((dim ++ [i]) ++ y2 :: lim) by (rewrite <- app_assoc; reflexivity).
    replace (List.length dre + 1)%nat with (List.length (dre ++ [r])) by (rewrite app_length; cbn; lia).
    rewrite bind_assoc, aset_run by (rewrite !app_length; cbn; lia). rewrite upd1_app.
    replace (List.length (dre ++ [r])) with (List.length (dim ++ [i])) by (rewrite !app_length; cbn; lia).
    rewrite bind_assoc, aset_run by (rewrite !app_length; cbn; lia). rewrite upd1_app. cbn [bind].
    rewrite bind_assoc, aset_run by lia. rewrite bind_assoc, aset_run by lia. cbn [bind repeat skipn].
    rewrite <- !app_assoc. reflexivity.
  - replace (1 <? m)%nat with false by (symmetry; apply Nat.ltb_ge; lia). cbn [bind].
    rewrite bind_assoc, aset_run by lia. rewrite bind_assoc, aset_run by lia. cbn [bind repeat skipn].
    rewrite <- !app_assoc. reflexivity.
Qed.

Lemma dupn_cons m v vs : (0 < m)%nat -> dupn m (v :: vs) = repeat v (if (1 <? m)%nat then 2 else 1) ++ (if (1 <? m)%nat then dupn (m - 2) vs else []).
Proof. intros H. destruct m as [|[|m]]; [lia|reflexivity|]. cbn. rewrite Nat.sub_0_r. reflexivity. Qed.

Lemma row_run time cplx ms used : forall vs i last ref dre dim lre lim rp ip rest,
  List.length dre = (2 * i)%nat -> List.length dim = (2 * i)%nat -> List.length vs = pairs (ms - 2 * i) -> (2 * i <= ms)%nat ->
  (ms - 2 * i <= List.length lre)%nat -> (ms - 2 * i <= List.length lim)%nat ->
  (ms <= List.length rp)%nat -> (ms <= List.length ip)%nat ->
  ((i = 0%nat /\ last = (0, 0)) \/ ((0 < i)%nat /\ nth_error dre (2 * i - 1) = Some (fst last) /\ nth_error dim (2 * i - 1) = Some (snd last))) ->
  (time = true -> forall b, (b < List.length vs)%nat -> nth_error rp (2 * (i + b)) = Some (fst (nth b ref (0, 0))) /\ nth_error ip (2 * (i + b)) = Some (snd (nth b ref (0, 0)))) ->
  (forall b v, nth_error vs b = Some v -> nth_error used (2 * (i + b)) = Some (b2z (on v))) ->
  valid_row time cplx last ref vs ->
  runA (forP (List.length vs) i (alpha_band (b2z time) (b2z cplx) ms used) (dre ++ lre, dim ++ lim, rp, ip)) (enc_row time cplx last ref vs ++ rest) =
  Done ((dre ++ dupn (ms - 2 * i) (map (fun v => fst (val v)) vs) ++ skipn (ms - 2 * i) lre,
         dim ++ dupn (ms - 2 * i) (map (fun v => snd (val v)) vs) ++ skipn (ms - 2 * i) lim,
         wevens i (map (fun v => fst (val v)) vs) rp, wevens i (map (fun v => snd (val v)) vs) ip), rest).
Proof.
  induction vs as [|v vs IH]; intros i last ref dre dim lre lim rp ip rest D1 D2 P M L1 L2 R1 R2 LA TI US V.
  - assert (ms - 2 * i = 0)%nat as ->. { destruct (ms - 2 * i)%nat as [|[|m]] eqn:E; [reflexivity| |rewrite pairs_SS in P]; discriminate. }
    reflexivity.
  - set (m := (ms - 2 * i)%nat) in *.
    assert (M0 : (0 < m)%nat) by (destruct m; [discriminate|lia]).
    destruct lre as [|x lre]; [cbn in L1; lia|]. destruct lim as [|y lim]; [cbn in L2; lia|].
    cbn [List.length forP enc_row]. cbv zeta. rewrite <- app_assoc. unfold alpha_band at 1. rewrite bind_assoc.
    cbn [valid_row] in V. cbv zeta in V. destruct V as [V1 V2].
    rewrite (get_run time cplx used _ _ rp ip (2 * i) (if time then hd (0, 0) ref else last) v); auto.
    + replace (2 * i)%nat with (List.length dre) at 1 by lia.
      rewrite (put_run ms dre dim x y lre lim rp ip (val v) m) by (cbn in L1, L2; lia). cbv zeta.
      set (n := if (1 <? m)%nat then 2%nat else 1%nat).
      cbn [map wevens]. rewrite !dupn_cons by lia. fold n. rewrite !D1.
      destruct (Nat.ltb_spec 1 m).
      * assert (n = 2%nat) as -> by (unfold n; destruct (Nat.ltb_spec 1 m); lia).
        replace (m - 2)%nat with (ms - 2 * S i)%nat by lia.
        replace (skipn m (x :: lre)) with (skipn (ms - 2 * S i) (skipn 1 lre)) by (rewrite skipn_skipn_add; replace m with (S (1 + (ms - 2 * S i))) by lia; reflexivity).
        replace (skipn m (y :: lim)) with (skipn (ms - 2 * S i) (skipn 1 lim)) by (rewrite skipn_skipn_add; replace m with (S (1 + (ms - 2 * S i))) by lia; reflexivity).
        change (2 - 1)%nat with 1%nat.
        cbn [List.length] in L1, L2.
        rewrite (IH (S i) (val v) (tl ref)); auto.
        -- rewrite <- !app_assoc. reflexivity.
        -- rewrite app_length, repeat_length. lia.
        -- rewrite app_length, repeat_length. lia.
        -- cbn in P. replace m with (S (S (ms - 2 * S i))) in P by lia. rewrite pairs_SS in P. lia.
        -- lia.
        -- rewrite skipn_length. lia.
        -- rewrite skipn_length. lia.
        -- rewrite upd1_len; lia.
        -- rewrite upd1_len; lia.
        -- right. split; [lia|]. rewrite !nth_error_app2 by lia. rewrite D1, D2. replace (2 * S i - 1 - 2 * i)%nat with 1%nat by lia. auto.
        -- intros T b B. specialize (TI T (S b) ltac:(cbn; lia)). replace (2 * (i + S b))%nat with (2 * (S i + b))%nat in TI by lia.
           rewrite !upd1_neq by lia. replace (nth b (tl ref) (0, 0)) with (nth (S b) ref (0, 0)); [exact TI|]. destruct ref; [destruct b|]; reflexivity.
        -- intros b w B. replace (S i + b)%nat with (i + S b)%nat by lia. apply US. exact B.
      * assert (m = 1%nat) as E1 by lia. rewrite E1 in *. unfold n. cbn in P. assert (vs = []) as -> by (destruct vs; [reflexivity|discriminate]).
        cbn. rewrite <- !app_assoc. reflexivity.
    + destruct time.
      * specialize (TI eq_refl 0%nat ltac:(cbn; lia)). rewrite Nat.add_0_r in TI. destruct ref; exact TI.
      * destruct LA as [[-> ->]|(I0 & LA1 & LA2)]; [left; auto|]. right. split; [lia|]. rewrite !nth_error_app1 by lia. auto.
    + specialize (US 0%nat v eq_refl). rewrite Nat.add_0_r in US. exact US.
Qed.

(** ** Groups *)
Lemma pairs_lt b ms : (b < pairs ms <-> 2 * b < ms)%nat.
Proof.
  unfold pairs. rewrite Nat.div2_div. pose proof (Nat.div_mod (ms + 1) 2 ltac:(lia)) as D.
  pose proof (Nat.mod_upper_bound (ms + 1) 2 ltac:(lia)). lia.
Qed.

Definition holds_prev (ref : list coef) (rp ip : list Z) : Prop :=
  List.length rp = 136%nat /\ List.length ip = 136%nat /\
  forall b, (b < 68)%nat -> nth_error rp (2 * b) = Some (fst (nth b ref (0, 0))) /\ nth_error ip (2 * b) = Some (snd (nth b ref (0, 0))).

Lemma nth_firstn {A} : forall n i (l : list A), (i < n)%nat -> nth_error (firstn n l) i = nth_error l i.
Proof. induction n as [|n IH]; intros [|i] [|x l] H; try lia; auto. cbn. apply IH. lia. Qed.

Lemma prev_part ms (f : option coef -> Z) g rp b : (ms <= 136)%nat -> List.length g = pairs ms -> List.length rp = 136%nat -> f None = 0 -> (b < 68)%nat ->
  nth_error (firstn ms (wevens 0 (map f g) rp) ++ repeat 0 (136 - ms)) (2 * b) = Some (f (nth b g None)).
Proof.
  intros M L R F0 B. pose proof (pairs_lt b ms) as PL.
  pose proof (pairs_lt (pairs ms - 1) ms) as PE.
  assert (W : List.length (wevens 0 (map f g) rp) = 136%nat) by (rewrite wevens_len; rewrite ?map_length; lia).
  destruct (Nat.lt_ge_cases b (pairs ms)) as [H|H].
  - rewrite nth_error_app1 by (rewrite firstn_length; lia). rewrite nth_firstn by lia.
    rewrite wevens_nth by (rewrite map_length; lia). rewrite map_length, L. cbn [Nat.leb andb Nat.add].
    replace (b <? pairs ms)%nat with true by (symmetry; apply Nat.ltb_lt; lia). rewrite Nat.sub_0_r, nth_error_map.
    rewrite (nth_error_nth' g None) by lia. reflexivity.
  - rewrite nth_error_app2 by (rewrite firstn_length; lia). rewrite firstn_length, W. rewrite nth_error_repeat by lia.
    rewrite nth_overflow by lia. rewrite F0. reflexivity.
Qed.

Definition crow (f : option coef -> Z) (ms : nat) (g : list (option coef)) : list Z := pad ms (dupn ms (map f g)).
Definition fre (v : option coef) : Z := fst (val v).
Definition fim (v : option coef) : Z := snd (val v).
Lemma crow_len f ms g : (ms <= 136)%nat -> List.length g = pairs ms -> List.length (crow f ms g) = 136%nat.
Proof. intros M H. unfold crow, pad. rewrite app_length, repeat_length, dupn_len by (rewrite map_length; exact H). lia. Qed.

Lemma rows_nth u g : rows u -> (g < 8)%nat -> exists r, nth_error u g = Some r /\ List.length r = 136%nat.
Proof.
  intros [L F] G. destruct (nth_error u g) as [r|] eqn:N; [|apply nth_error_None in N; lia]. exists r. split; auto.
  rewrite Forall_forall in F. apply F. eapply nth_error_In; eauto.
Qed.

Lemma grp_run time cplx ms u i g re im rp ip ref rest : (ms <= 136)%nat -> List.length g = pairs ms -> (i < 8)%nat ->
  nth_error u i = Some (urow ms g) -> rows re -> rows im -> holds_prev ref rp ip -> valid_row time cplx (0, 0) ref g ->
  exists rp' ip', runA (alpha_grp (b2z time) (b2z cplx) ms u i (re, im, rp, ip)) (enc_row time cplx (0, 0) ref g ++ rest) =
    Done ((upd1 re i (crow fre ms g), upd1 im i (crow fim ms g), rp', ip'), rest) /\ holds_prev (map val g) rp' ip'.
Proof.
  intros M L I U R1 R2 (P1 & P2 & P3) V. destruct (rows_nth re i R1 I) as (rre & N1 & L1). destruct (rows_nth im i R2 I) as (rim & N2 & L2).
  unfold alpha_grp. rewrite (aget_run _ _ _ _ _ U), (aget_run _ _ _ _ _ N1), (aget_run _ _ _ _ _ N2). rewrite runA_bind.
  pose proof (pairs_lt (pairs ms - 1) ms) as PE.
  pose proof (row_run time cplx ms (urow ms g) g 0 (0, 0) ref [] [] rre rim rp ip rest eq_refl eq_refl) as X.
  rewrite Nat.mul_0_r, Nat.sub_0_r in X. cbn [app Nat.add] in X. rewrite L in X.
  rewrite X; try lia; auto.
  2:{ intros _ b B. apply P3. lia. }
  2:{ intros b v B. unfold urow, pad. pose proof (pairs_lt b ms) as PB. assert (b < pairs ms)%nat by (rewrite <- L; apply nth_error_Some; congruence).
      rewrite nth_error_app1 by (rewrite dupn_len; rewrite ?map_length; lia). rewrite dupn_nth by (rewrite ?map_length; lia).
      rewrite Nat.div2_double. rewrite nth_error_map, B. reflexivity. }
  clear X. cbv beta iota. change (fun v : option coef => fst (val v)) with fre. change (fun v : option coef => snd (val v)) with fim.
  assert (D1 : List.length (dupn ms (map fre g)) = ms) by (apply dupn_len; rewrite map_length; exact L).
  assert (D2 : List.length (dupn ms (map fim g)) = ms) by (apply dupn_len; rewrite map_length; exact L).
  rewrite !clear_run by (try rewrite app_length, skipn_length; try rewrite wevens_len; rewrite ?map_length; lia).
  rewrite aset_run by (apply nth_error_Some; congruence). rewrite aset_run by (apply nth_error_Some; congruence).
  rewrite (firstn_head _ _ ms D1), (firstn_head _ _ ms D2). eexists _, _. split; [reflexivity|]. split; [|split].
  - rewrite app_length, firstn_length, wevens_len, repeat_length; rewrite ?map_length; lia.
  - rewrite app_length, firstn_length, wevens_len, repeat_length; rewrite ?map_length; lia.
  - intros b B. rewrite !prev_part by auto. change (0, 0) with (val None). rewrite map_nth. auto.
Qed.

Lemma grps_run time cplx ms u : (ms <= 136)%nat -> forall gs i re im rp ip ref rest,
  Forall (fun g => List.length g = pairs ms) gs -> (i + List.length gs <= 8)%nat ->
  (forall j g, nth_error gs j = Some g -> nth_error u (i + j) = Some (urow ms g)) ->
  rows re -> rows im -> holds_prev ref rp ip -> valid_rows time cplx ref gs ->
  exists rp' ip', runA (forP (List.length gs) i (alpha_grp (b2z time) (b2z cplx) ms u) (re, im, rp, ip)) (enc_rows time cplx ref gs ++ rest) =
    Done ((wrows i (map (crow fre ms) gs) re, wrows i (map (crow fim ms) gs) im, rp', ip'), rest) /\ holds_prev (final ref gs) rp' ip'.
Proof.
  intros M. induction gs as [|g gs IH]; intros i re im rp ip ref rest F H U R1 R2 P V.
  - exists rp, ip. auto.
  - apply Forall_cons_iff in F. destruct F as [F1 F]. cbn [valid_rows] in V. destruct V as [V1 V].
    cbn [List.length] in H.
    destruct (grp_run time cplx ms u i g re im rp ip ref (enc_rows time cplx (map val g) gs ++ rest) M F1 ltac:(lia)) as (rp1 & ip1 & X & P1); auto.
    { specialize (U 0%nat g eq_refl). rewrite Nat.add_0_r in U. exact U. }
    destruct (IH (S i) (upd1 re i (crow fre ms g)) (upd1 im i (crow fim ms g)) rp1 ip1 (map val g) rest F ltac:(lia)) as (rp2 & ip2 & Y & P2); auto.
    { intros j g' J. replace (S i + j)%nat with (i + S j)%nat by lia. apply U. exact J. }
    { apply (wrows_rows [crow fre ms g] i re R1); [cbn; lia|]. constructor; [apply crow_len; auto|constructor]. }
    { apply (wrows_rows [crow fim ms g] i im R2); [cbn; lia|]. constructor; [apply crow_len; auto|constructor]. }
    exists rp2, ip2. split; [|exact P2]. cbn [List.length forP enc_rows map wrows]. rewrite <- app_assoc, runA_bind, X. exact Y.
Qed.

(** ** The frame's prediction data *)
Definition ste_dim (s : ste) : Prop := rows (c_used s) /\ rows (c_re s) /\ rows (c_im s).

(** What the decoder holds for [ms] bands of the groups. *)
Definition holds_pred (ms : nat) (q : pred) (s : ste) : Prop :=
  c_dir s = b2z (q_dir q) /\ c_cplx s = b2z (q_cplx q) /\ (q_cplx q = true -> c_prevf s = b2z (q_prev q)) /\
  forall g row, nth_error (q_grps q) g = Some row -> exists u re im,
    nth_error (c_used s) g = Some u /\ nth_error (c_re s) g = Some re /\ nth_error (c_im s) g = Some im /\
    List.length u = 136%nat /\ List.length re = 136%nat /\ List.length im = 136%nat /\
    forall b, (b < 136)%nat ->
      let v := if (b <? ms)%nat then nth (Nat.div2 b) row None else None in
      nth b u 0 = b2z (on v) /\ nth b re 0 = fst (val v) /\ nth b im 0 = snd (val v).

Lemma crow_nth f ms g b : (ms <= 136)%nat -> List.length g = pairs ms -> f None = 0 -> (b < 136)%nat ->
  nth b (crow f ms g) 0 = f (if (b <? ms)%nat then nth (Nat.div2 b) g None else None).
Proof.
  intros M L F0 B. apply nth_error_nth. unfold crow, pad. destruct (Nat.ltb_spec b ms).
  - rewrite nth_error_app1 by (rewrite dupn_len; rewrite ?map_length; lia). rewrite dupn_nth by (rewrite ?map_length; lia).
    rewrite nth_error_map. rewrite (nth_error_nth' g None); [reflexivity|]. rewrite L. apply pairs_lt.
    pose proof (Nat.div2_odd b). destruct (Nat.odd b); cbn in *; lia.
  - rewrite nth_error_app2 by (rewrite dupn_len; rewrite ?map_length; lia). rewrite dupn_len by (rewrite map_length; lia).
    rewrite nth_error_repeat by lia. rewrite F0. reflexivity.
Qed.

Lemma pred_run (indep : bool) ms ref q s rest : (ms <= 136)%nat -> (List.length (q_grps q) <= 8)%nat -> ste_dim s ->
  holds_prev ref (c_rp s) (c_ip s) -> valid_pred indep ms ref q ->
  exists s', runA (cplx_pred (b2z indep) (List.length (q_grps q)) ms s) (enc_pred indep ref q ++ rest) = Done (s', rest) /\
    holds_pred ms q s' /\ holds_prev (final ref (q_grps q)) (c_rp s') (c_ip s') /\ ste_dim s'.
Proof.
  intros M G (S1 & S2 & S3) P (V1 & V2 & V3 & V4). set (gs := q_grps q) in *.
  unfold cplx_pred, enc_pred. fold gs. rewrite <- !app_assoc. rewrite one_flag, runA_flag.
  rewrite runA_bind. rewrite used_grps_run by auto. cbv iota beta.
  change ([q_dir q; q_cplx q]) with ([q_dir q] ++ [q_cplx q]). rewrite <- app_assoc. rewrite one_flag, runA_flag. rewrite one_flag, runA_flag.
  set (u := wrows 0 (map (urow ms) gs) (c_used s)).
  assert (UR : rows u). { apply wrows_rows; rewrite ?map_length; auto. apply Forall_map. eapply Forall_impl; [|exact V1]. intros g Hg. apply urow_len; auto. }
  assert (UN : forall j g, nth_error gs j = Some g -> nth_error u (0 + j) = Some (urow ms g)).
  { intros j g J. unfold u. assert (j < List.length gs)%nat by (apply nth_error_Some; congruence). destruct S1 as [S1 _].
    rewrite wrows_nth by (rewrite map_length; lia). rewrite map_length. cbn [Nat.leb andb Nat.add]. replace (j <? List.length gs)%nat with true by (symmetry; apply Nat.ltb_lt; auto).
    rewrite Nat.sub_0_r, nth_error_map, J. reflexivity. }
  destruct (grps_run (q_time q) (q_cplx q) ms u M gs 0 (c_re s) (c_im s) (c_rp s) (c_ip s) ref rest V1 G UN S2 S3 P V4) as (rp & ip & X & P').
  assert (Y : forall pf, (q_cplx q = true -> pf = b2z (q_prev q)) ->
    let s' := mkSte u (wrows 0 (map (crow fre ms) gs) (c_re s)) (wrows 0 (map (crow fim ms) gs) (c_im s)) rp ip (b2z (q_dir q)) (b2z (q_cplx q)) pf in
    holds_pred ms q s' /\ holds_prev (final ref gs) (c_rp s') (c_ip s') /\ ste_dim s').
  { intros pf Hpf. cbv zeta. split; [|split; [exact P'|]].
    - repeat split; auto. intros g row N. fold gs in N. cbn [c_used c_re c_im].
      assert (g < List.length gs)%nat by (apply nth_error_Some; congruence).
      assert (LR : List.length row = pairs ms). { rewrite Forall_forall in V1. apply V1. eapply nth_error_In; eauto. }
      exists (urow ms row), (crow fre ms row), (crow fim ms row). split; [exact (UN g row N)|].
      destruct S2 as [S2 _], S3 as [S3 _]. rewrite !wrows_nth by (rewrite map_length; lia). rewrite !map_length. cbn [Nat.leb andb Nat.add].
      replace (g <? List.length gs)%nat with true by (symmetry; apply Nat.ltb_lt; auto). rewrite Nat.sub_0_r, !nth_error_map, N.
      split; [reflexivity|]. split; [reflexivity|]. split; [apply urow_len; auto|]. split; [apply crow_len; auto|]. split; [apply crow_len; auto|].
      intros b B. cbv zeta. split; [|split].
      + apply (crow_nth (fun v => b2z (on v)) ms row b); auto.
      + apply (crow_nth fre ms row b); auto.
      + apply (crow_nth fim ms row b); auto.
    - split; [exact UR|]. split; apply wrows_rows; rewrite ?map_length; auto; apply Forall_map; (eapply Forall_impl; [|exact V1]); intros g Hg; apply crow_len; auto. }
  destruct indep; cbn [b2z app].
  - destruct (V3 eq_refl) as [T0 Q0]. change (1 =? 0) with false. cbv iota.
    destruct (q_cplx q) eqn:EC; cbn [b2z] in *; [change (negb (1 =? 0)) with true | change (negb (0 =? 0)) with false]; cbv iota; cbn [bind];
      rewrite T0 in X; cbn [b2z] in X; rewrite T0; rewrite runA_bind, X; (eexists; split; [reflexivity|]); apply Y; auto; try discriminate.
    intros _. rewrite Q0. reflexivity.
  - change (0 =? 0) with true. cbv iota.
    destruct (q_cplx q) eqn:EC; cbn [b2z] in *; [change (negb (1 =? 0)) with true | change (negb (0 =? 0)) with false]; cbv iota; cbn [app].
    + change (q_prev q :: q_time q :: enc_rows (q_time q) true ref gs ++ rest) with ([q_prev q] ++ [q_time q] ++ enc_rows (q_time q) true ref gs ++ rest).
      rewrite one_flag, runA_flag. rewrite one_flag, runA_flag. rewrite runA_bind, X. eexists. split; [reflexivity|]. apply Y; auto.
    + cbn [bind]. change (q_time q :: enc_rows (q_time q) false ref gs ++ rest) with ([q_time q] ++ enc_rows (q_time q) false ref gs ++ rest).
      rewrite one_flag, runA_flag. rewrite runA_bind, X. eexists. split; [reflexivity|]. apply Y; auto. discriminate.
Qed.

(** ** The mid/side mask *)
Lemma ms_bits_run p : forall r i done l rest, Z.of_nat (List.length done) = p + Z.of_nat i -> (List.length r <= List.length l)%nat ->
  runA (forP (List.length r) i (ms_bit p) (done ++ l)) (r ++ rest) = Done (done ++ map b2z r ++ skipn (List.length r) l, rest).
Proof.
  induction r as [|b r IH]; intros i done l rest D L; [reflexivity|]. destruct l as [|x l]; [cbn in L; lia|].
  cbn [List.length forP map skipn]. unfold ms_bit at 1. rewrite bind_assoc. change ((b :: r) ++ rest) with ([b] ++ r ++ rest). rewrite one_flag, runA_flag.
  rewrite <- D, aset_run by (rewrite app_length; cbn; lia). rewrite upd1_app.
  replace (done ++ b2z b :: l) with ((done ++ [b2z b]) ++ l) by (rewrite <- app_assoc; reflexivity).
  rewrite IH by (rewrite ?app_length; cbn in *; lia). rewrite <- app_assoc. reflexivity.
Qed.
Lemma ms_fill_run p v : forall n i done l bs, Z.of_nat (List.length done) = p + Z.of_nat i -> (n <= List.length l)%nat ->
  runA (forP n i (ms_fill p v) (done ++ l)) bs = Done (done ++ repeat v n ++ skipn n l, bs).
Proof.
  induction n as [|n IH]; intros i done l bs D L; [reflexivity|]. destruct l as [|x l]; [cbn in L; lia|].
  cbn [forP repeat skipn]. unfold ms_fill at 1.
  rewrite <- D, aset_run by (rewrite app_length; cbn; lia). rewrite upd1_app.
  replace (done ++ v :: l) with ((done ++ [v]) ++ l) by (rewrite <- app_assoc; reflexivity).
  rewrite IH by (rewrite ?app_length; cbn in *; lia). rewrite <- app_assoc. reflexivity.
Qed.

Definition mrow (ms nsb : nat) (r : list bool) : list Z := map b2z r ++ repeat 0 (nsb - ms).

Lemma skip_two {A} a b (l : list A) : skipn a (skipn b l) = skipn (a + b) l.
Proof. rewrite skipn_skipn_add. f_equal. lia. Qed.

Lemma ms_groups_run all ms nsb mwl : (ms <= nsb)%nat -> forall gs rs fuel from gdone tail done l rest,
  List.length rs = List.length gs -> Forall (fun r => List.length r = ms) rs -> Forall (fun g => 0 < g) gs ->
  from + zsum gs = mwl -> (List.length gs < fuel)%nat -> (List.length gs * nsb <= List.length l)%nat ->
  (all = true -> rs = repeat (repeat true ms) (List.length gs)) ->
  runA (ms_groups fuel all ms nsb mwl (gdone ++ ends from gs ++ tail) (List.length gdone) from (Z.of_nat (List.length done)) (done ++ l))
    ((if all then [] else List.concat rs) ++ rest) =
  Done (done ++ flat_map (mrow ms nsb) rs ++ skipn (List.length gs * nsb) l, rest).
Proof.
  intros M. induction gs as [|g gs IH]; intros rs fuel from gdone tail done l rest LR FR P S F L AL.
  - destruct rs; [|discriminate]. cbn in S. destruct fuel; cbn [ms_groups]; (replace (mwl <=? from) with true by (symmetry; apply Z.leb_le; lia)); destruct all; reflexivity.
  - destruct rs as [|r rs]; [discriminate|]. apply Forall_cons_iff in FR. destruct FR as [F1 FR]. apply Forall_cons_iff in P. destruct P as [P1 P].
    change (zsum (g :: gs)) with (g + zsum gs) in S.
    assert (Z0 : 0 <= zsum gs) by (clear - P; induction P; cbn; unfold zsum in *; lia).
    destruct fuel as [|fuel]; [cbn in F; lia|]. cbn [ms_groups ends List.length] in *.
    replace (mwl <=? from) with false by (symmetry; apply Z.leb_gt; lia).
    assert (Lm : (ms <= List.length l)%nat) by nia.
    set (p := Z.of_nat (List.length done)).
    set (bs2 := (if all then [] else List.concat rs) ++ rest).
    assert (X : runA (forP ms 0 (if all then ms_fill p 1 else ms_bit p) (done ++ l)) ((if all then [] else List.concat (r :: rs)) ++ rest) =
      Done ((done ++ map b2z r) ++ skipn ms l, bs2)).
    { rewrite <- app_assoc. destruct all.
      - rewrite ms_fill_run by (unfold p; lia). specialize (AL eq_refl). cbn [repeat] in AL. injection AL as -> _.
        replace (map b2z (repeat true ms)) with (repeat 1 ms) by (clear; induction ms; cbn; congruence). reflexivity.
      - cbn [List.concat]. rewrite <- app_assoc. rewrite <- F1. rewrite ms_bits_run by (unfold p; lia). reflexivity. }
    rewrite runA_bind, X. cbv iota beta.
    assert (Y : runA (if (ms <? nsb)%nat then forP (nsb - ms) ms (ms_fill p 0) ((done ++ map b2z r) ++ skipn ms l) else Ret ((done ++ map b2z r) ++ skipn ms l)) bs2 =
      Done ((done ++ mrow ms nsb r) ++ skipn nsb l, bs2)).
    { unfold mrow. destruct (Nat.ltb_spec ms nsb).
      - rewrite ms_fill_run by (rewrite ?app_length, ?map_length, ?skipn_length; unfold p; nia). rewrite skip_two. replace (nsb - ms + ms)%nat with nsb by lia.
        rewrite <- !app_assoc. reflexivity.
      - replace nsb with ms by lia. rewrite Nat.sub_diag. cbn. rewrite app_nil_r. reflexivity. }
    rewrite runA_bind, Y. cbv iota beta.
    rewrite (aget_run _ _ (from + g)) by (rewrite nth_error_app2 by lia; rewrite Nat.sub_diag; reflexivity).
    assert (LM : List.length (mrow ms nsb r) = nsb) by (unfold mrow; rewrite app_length, map_length, repeat_length; lia).
    replace (p + Z.of_nat nsb) with (Z.of_nat (List.length (done ++ mrow ms nsb r))) by (rewrite app_length, LM; unfold p; lia).
    replace (gdone ++ (from + g :: ends (from + g) gs) ++ tail) with ((gdone ++ [from + g]) ++ ends (from + g) gs ++ tail) by (rewrite <- !app_assoc; reflexivity).
    replace (Datatypes.S (List.length gdone)) with (List.length (gdone ++ [from + g])) by (rewrite app_length; cbn; lia).
    unfold bs2. rewrite (IH rs); auto; try lia.
    + rewrite <- app_assoc. cbn [flat_map]. rewrite <- app_assoc. rewrite skip_two. replace (List.length gs * nsb + nsb)%nat with (Datatypes.S (List.length gs) * nsb)%nat by (cbn; lia). reflexivity.
    + rewrite skipn_length. nia.
    + intros E. specialize (AL E). cbn [repeat] in AL. injection AL as _ AL. exact AL.
Qed.

(** ms_used, by group and band. *)
Definition holds_ms (ng ms nsb : nat) (x : stereo) (l : list Z) : Prop :=
  List.length l = 128%nat /\
  forall g b, (g < ng)%nat -> (b < nsb)%nat -> nth (g * nsb + b) l 0 = b2z (if (b <? ms)%nat then is_ms x g b else false).

Lemma flat_nth {A B} (f : A -> list B) n (d : B) : forall l (g b : nat) r, (forall x, In x l -> List.length (f x) = n) -> nth_error l g = Some r -> (b < n)%nat ->
  nth (g * n + b) (flat_map f l) d = nth b (f r) d.
Proof.
  induction l as [|x l IH]; intros g b r F N Hb; [destruct g; discriminate|]. assert (Fx := F x (or_introl eq_refl)).
  destruct g as [|g]; cbn [nth_error] in N; cbn [flat_map].
  - injection N as ->. rewrite app_nth1 by (cbn; lia). reflexivity.
  - rewrite app_nth2 by (cbn; lia). replace (S g * n + b - List.length (f x))%nat with (g * n + b)%nat by (cbn; lia). apply IH; auto. intros y Hy. apply F. right. exact Hy.
Qed.

Lemma rows_hold ms nsb rs l x : (ms <= nsb)%nat -> Forall (fun r => List.length r = ms) rs -> List.length l = 128%nat -> (List.length rs * nsb <= 128)%nat ->
  (forall g b r, nth_error rs g = Some r -> (b < ms)%nat -> nth b r false = is_ms x g b) ->
  holds_ms (List.length rs) ms nsb x (flat_map (mrow ms nsb) rs ++ skipn (List.length rs * nsb) l).
Proof.
  intros M F L B H.
  assert (FL : forall r, In r rs -> List.length (mrow ms nsb r) = nsb).
  { intros r Hr. rewrite Forall_forall in F. unfold mrow. rewrite app_length, map_length, repeat_length, (F r Hr). lia. }
  assert (FM : List.length (flat_map (mrow ms nsb) rs) = (List.length rs * nsb)%nat).
  { clear - FL. induction rs as [|r rs IH]; [reflexivity|]. cbn [flat_map List.length]. rewrite app_length, (FL r (or_introl eq_refl)), IH by (intros y Hy; apply FL; right; exact Hy). reflexivity. }
  split; [rewrite app_length, skipn_length, FM; lia|]. intros g b G Hb.
  rewrite app_nth1 by nia. destruct (nth_error rs g) as [r|] eqn:N; [|apply nth_error_None in N; lia].
  rewrite (flat_nth (mrow ms nsb) nsb 0 rs g b r FL N Hb). assert (Lr : List.length r = ms) by (rewrite Forall_forall in F; apply F; eapply nth_error_In; eauto).
  unfold mrow. destruct (Nat.ltb_spec b ms).
  - rewrite app_nth1 by (rewrite map_length; lia). change 0 with (b2z false). rewrite map_nth. f_equal. apply H; auto.
  - rewrite app_nth2 by (rewrite map_length; lia). rewrite nth_repeat. reflexivity.
Qed.

Definition mask_code (x : stereo) : Z := match x with LeftRight => 0 | Marked _ => 1 | MidSide => 2 | Predicted _ => 3 end.

Lemma mask_run (indep : bool) ms nsb mwl gs tail ref x s used rest :
  (ms <= nsb)%nat -> (ms <= 136)%nat -> (List.length gs <= 8)%nat -> (List.length gs * nsb <= 128)%nat -> Forall (fun g => 0 < g) gs -> zsum gs = mwl ->
  List.length used = 128%nat -> ste_dim s -> holds_prev ref (c_rp s) (c_ip s) -> valid_stereo indep (List.length gs) ms ref x ->
  exists s' used', runA (ms_mask (b2z indep) (List.length gs) ms nsb mwl (ends 0 gs ++ tail) s used) (enc_stereo indep ref x ++ rest) =
    Done ((mask_code x, s', used'), rest) /\
    holds_prev (next_ref ref x) (c_rp s') (c_ip s') /\ ste_dim s' /\ List.length used' = 128%nat /\
    (match x with Predicted q => holds_pred ms q s' | _ => s' = s end) /\
    (match x with Marked _ | MidSide => holds_ms (List.length gs) ms nsb x used' | _ => used' = used end).
Proof.
  intros M M6 G B P S U D PR V. unfold ms_mask.
  pose proof (fun all rs => ms_groups_run all ms nsb mwl M gs rs 9 0 [] tail [] used) as X. cbn [List.length app Z.of_nat] in X.
  destruct x as [|m| |q]; cbn [enc_stereo mask_code valid_stereo next_ref] in *.
  - rewrite (runA_rdb 2 2) by (try reflexivity; lia). exists s, used. auto 10.
  - destruct V as [V1 V2]. rewrite <- app_assoc. rewrite (runA_rdb 2 2) by (try reflexivity; lia). change (1 =? 3) with false. change (1 =? 2) with false. change (1 =? 1) with true. cbv iota.
    rewrite runA_bind. specialize (X false m rest). cbv iota in X. rewrite X; auto; try lia; try discriminate.
    eexists s, _. split; [reflexivity|]. rewrite <- V1.
    assert (HM : holds_ms (List.length m) ms nsb (Marked m) (flat_map (mrow ms nsb) m ++ skipn (List.length m * nsb) used)).
    { apply rows_hold; auto; [rewrite V1; auto|]. intros g b r N Hb. cbn [is_ms]. f_equal. symmetry. apply nth_error_nth. exact N. }
    split; [exact PR|]. split; [exact D|]. split; [apply HM|]. auto.
  - rewrite (runA_rdb 2 2) by (try reflexivity; lia). change (2 =? 3) with false. change (2 =? 2) with true. cbv iota.
    rewrite runA_bind. set (rs := repeat (repeat true ms) (List.length gs)).
    assert (R1 : List.length rs = List.length gs) by apply repeat_length.
    assert (R2 : Forall (fun r : list bool => List.length r = ms) rs) by (apply Forall_forall; intros r Hr; apply repeat_spec in Hr; subst; apply repeat_length).
    specialize (X true rs rest). cbn [app] in X. rewrite X; auto; try lia.
    eexists s, _. split; [reflexivity|]. rewrite <- R1.
    assert (HM : holds_ms (List.length rs) ms nsb MidSide (flat_map (mrow ms nsb) rs ++ skipn (List.length rs * nsb) used)).
    { apply rows_hold; auto; [rewrite R1; auto|]. intros g b r N Hb. cbn [is_ms]. apply nth_error_In, repeat_spec in N. subst. apply nth_error_nth, nth_error_repeat. exact Hb. }
    split; [exact PR|]. split; [exact D|]. split; [apply HM|]. auto.
  - destruct V as [V1 V2]. rewrite <- app_assoc. rewrite (runA_rdb 2 2) by (try reflexivity; lia). change (3 =? 3) with true. cbv iota.
    rewrite <- V1 in *. destruct (pred_run indep ms ref q s rest M6 G D PR V2) as (s' & Y & H1 & H2 & H3).
    rewrite runA_bind, Y. eexists s', used. split; [reflexivity|]. auto.
Qed.
