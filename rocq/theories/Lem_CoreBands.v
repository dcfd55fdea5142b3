(** * Lem_CoreBands: the bands chosen are those of the standard, and cover the frame *)

From Coq Require Import ZArith List Lia Bool.
From Verif Require Import Bits BitBuf Lem_CoreSafe CoreIcs CoreScf CoreBands Spec_CoreBands.
Import ListNotations.
Open Scope list_scope.
Open Scope Z_scope.
Local Notation len := List.length.

(** The twelve rates stand for all rates. *)
Definition twelve : list Z := [96000; 88200; 64000; 48000; 44100; 32000; 24000; 22050; 16000; 12000; 11025; 8000].
Lemma nominal_in rate : In (nominal rate) twelve.
Proof.
  unfold nominal. repeat match goal with |- In (if ?c then _ else _) _ => destruct c end; cbn; auto 20.
Qed.
Lemma rate_index_eq rate : rate_index rate =
  (if 92017 <=? rate then Done 0 else if 75132 <=? rate then Done 1 else if 55426 <=? rate then Done 2 else if 46009 <=? rate then Done 3 else if 37566 <=? rate then Done 4 else if 27713 <=? rate then Done 5 else if 23004 <=? rate then Done 6 else if 18783 <=? rate then Done 7 else if 13856 <=? rate then Done 8 else if 11502 <=? rate then Done 9 else if 9391 <=? rate then Done 10 else Done 11).
Proof. reflexivity. Qed.
Lemma rate_nominal rate : rate_index rate = rate_index (nominal rate).
Proof.
  rewrite (rate_index_eq rate). unfold nominal. repeat match goal with |- context [?a <=? rate] => destruct (a <=? rate) end; reflexivity.
Qed.

(** ** Bands cover all lines, each once *)
Lemma tops_cover : forall ws from x, Forall (fun w => 0 < w) ws -> from <= x < from + fold_right Z.add 0 ws ->
  exists b, (b < len ws)%nat /\ (match b with O => from | S b' => nth b' (tops from ws) 0 end) <= x < nth b (tops from ws) 0.
Proof.
  induction ws as [|w ws IH]; intros from x P H; cbn [fold_right] in H; [lia|]. inversion P; subst.
  destruct (Z.ltb_spec x (from + w)) as [L|L].
  - exists 0%nat. cbn. split; lia.
  - destruct (IH (from + w) x) as (b & B1 & B2); auto; [lia|]. exists (S b). cbn [len tops nth]. split; [lia|]. destruct b; cbn [nth] in *; exact B2.
Qed.
Lemma tops_mono : forall ws from b, Forall (fun w => 0 < w) ws -> (b < len ws)%nat -> from < nth b (tops from ws) 0.
Proof.
  induction ws as [|w ws IH]; intros from b P B; [cbn in B; lia|]. inversion P; subst. destruct b; cbn [tops nth]; [lia|].
  specialize (IH (from + w) b ltac:(auto) ltac:(cbn in B; lia)). lia.
Qed.
Lemma tops_rise : forall ws from a b, Forall (fun w => 0 < w) ws -> (a < b < len ws)%nat -> nth a (tops from ws) 0 < nth b (tops from ws) 0.
Proof.
  induction ws as [|w ws IH]; intros from a b P B; [cbn in B; lia|]. inversion P; subst. cbn [len] in B.
  destruct b as [|b]; [lia|]. destruct a as [|a]; cbn [tops nth].
  - apply tops_mono; auto. lia.
  - apply IH; auto. lia.
Qed.
Lemma tops_len : forall ws from, len (tops from ws) = len ws.
Proof. induction ws; intros; cbn; auto. Qed.

Lemma bands_one ws x : Forall (fun w => 0 < w) ws -> 0 <= x < fold_right Z.add 0 ws ->
  exists b, in_band (tops 0 ws) b x /\ forall b', in_band (tops 0 ws) b' x -> b' = b.
Proof.
  intros P H. destruct (tops_cover ws 0 x P ltac:(lia)) as (b & B1 & B2). exists b. split.
  - unfold in_band. rewrite tops_len. auto.
  - intros b' [C1 C2]. rewrite tops_len in C1.
    destruct (lt_eq_lt_dec b b') as [[L|E]|L]; auto; exfalso.
    + destruct b' as [|b']; [lia|]. destruct (Nat.eq_dec b b') as [E|E]; [subst; lia|].
      assert (Q := tops_rise ws 0 b b' P ltac:(lia)). lia.
    + destruct b as [|b]; [lia|]. destruct (Nat.eq_dec b' b) as [E|E]; [subst; lia|].
      assert (Q := tops_rise ws 0 b' b P ltac:(lia)). lia.
Qed.

(** ** Filling the arrays *)
Lemma oput_at (a : list Z) n v : (n < len a)%nat -> oput a (Z.of_nat n) v = Done (firstn n a ++ v :: skipn (S n) a).
Proof.
  intros H. unfold oput. replace (Z.of_nat n <? 0) with false by (symmetry; apply Z.ltb_ge; lia). replace (Z.of_nat (len a) <=? Z.of_nat n) with false by (symmetry; apply Z.leb_gt; lia).
  cbn [orb]. rewrite Nat2Z.id. reflexivity.
Qed.
Lemma oget_at (a : list Z) n : (n < len a)%nat -> oget a (Z.of_nat n) = Done (nth n a 0).
Proof.
  intros H. unfold oget, get_byte. replace (0 <=? Z.of_nat n) with true by (symmetry; apply Z.leb_le; lia). replace (Z.of_nat n <? Z.of_nat (len a)) with true by (symmetry; apply Z.ltb_lt; lia).
  cbn [andb]. rewrite Nat2Z.id. rewrite (nth_error_nth' a 0 H). reflexivity.
Qed.
Lemma widths_app a : forall b from, widths from (a ++ b) = widths from a ++ widths (last a from) b.
Proof. induction a as [|x a IH]; intros b from; [reflexivity|]. cbn [app widths]. rewrite IH. do 3 f_equal. destruct a; [reflexivity|]. clear. revert z. induction a as [|y a IH]; intros z; [reflexivity|]. apply (IH y). Qed.
Lemma widths_len a : forall from, len (widths from a) = len a.
Proof. induction a; intros; cbn; auto. Qed.

Lemma put_widths_run tbl2 : forall tbl1 x w, (len tbl1 + 1 + len tbl2 <= len w)%nat ->
  put_widths (len tbl2) (Z.of_nat (len tbl1) + 1) (tbl1 ++ x :: tbl2) w =
    Done (firstn (len tbl1 + 1) w ++ widths x tbl2 ++ skipn (len tbl1 + 1 + len tbl2) w).
Proof.
  induction tbl2 as [|y tbl2 IH]; intros tbl1 x w L; cbn [put_widths len].
  - rewrite Nat.add_0_r. cbn [widths app]. rewrite firstn_skipn. reflexivity.
  - cbn [len] in L. replace (Z.of_nat (len tbl1) + 1) with (Z.of_nat (len tbl1 + 1)) by lia.
    rewrite (oget_at _ (len tbl1 + 1)) by (rewrite app_length; cbn [len]; lia). cbn [obind].
    replace (Z.of_nat (len tbl1 + 1) - 1) with (Z.of_nat (len tbl1)) by lia. rewrite (oget_at _ (len tbl1)) by (rewrite app_length; cbn [len]; lia). cbn [obind].
    rewrite !app_nth2 by lia. rewrite Nat.sub_diag. replace (len tbl1 + 1 - len tbl1)%nat with 1%nat by lia. cbn [nth].
    rewrite oput_at by lia. cbn [obind].
    replace (tbl1 ++ x :: y :: tbl2) with ((tbl1 ++ [x]) ++ y :: tbl2) by (rewrite <- app_assoc; reflexivity).
    replace (Z.of_nat (len tbl1 + 1) + 1) with (Z.of_nat (len (tbl1 ++ [x])) + 1) by (rewrite app_length; cbn [len]; lia).
    set (w' := firstn (len tbl1 + 1) w ++ y - x :: skipn (S (len tbl1 + 1)) w).
    assert (LW : len w' = len w) by (unfold w'; rewrite app_length; cbn [len]; rewrite firstn_length, skipn_length; lia).
    rewrite IH by (rewrite LW, app_length; cbn [len]; lia). rewrite app_length. cbn [len widths app].
    f_equal. unfold w'.
    replace (firstn (len tbl1 + 1 + 1) (firstn (len tbl1 + 1) w ++ y - x :: skipn (S (len tbl1 + 1)) w)) with (firstn (len tbl1 + 1) w ++ [y - x]).
    2:{ rewrite firstn_app, firstn_length. replace (len tbl1 + 1 + 1 - Nat.min (len tbl1 + 1) (len w))%nat with 1%nat by lia. cbn [firstn].
        rewrite (firstn_all2 (firstn _ w)) by (rewrite firstn_length; lia). reflexivity. }
    replace (skipn (len tbl1 + 1 + 1 + len tbl2) (firstn (len tbl1 + 1) w ++ y - x :: skipn (S (len tbl1 + 1)) w)) with (skipn (len tbl1 + 1 + S (len tbl2)) w).
    2:{ rewrite skipn_app, firstn_length. rewrite (skipn_all2 (firstn _ w)) by (rewrite firstn_length; lia). cbn [app].
        replace (len tbl1 + 1 + 1 + len tbl2 - Nat.min (len tbl1 + 1) (len w))%nat with (S (len tbl2)) by lia. rewrite skipn_cons, skipn_skipn_add. f_equal. lia. }
    rewrite <- app_assoc. reflexivity.
Qed.
Lemma set_widths_run tbl w : tbl <> [] -> (len tbl <= len w)%nat -> set_widths (Z.of_nat (len tbl)) tbl w = Done (widths 0 tbl ++ skipn (len tbl) w).
Proof.
  intros NE L. destruct tbl as [|x tbl]; [congruence|]. unfold set_widths. cbn [len] in *. replace (Z.of_nat (S (len tbl)) =? 0) with false by (symmetry; apply Z.eqb_neq; lia).
  change 0 with (Z.of_nat 0) at 1 2. rewrite (oget_at (x :: tbl) 0) by (cbn; lia). cbn [obind nth]. rewrite (oput_at w 0) by lia. cbn [obind firstn app].
  replace (Z.to_nat (Z.of_nat (S (len tbl)) - 1)) with (len tbl) by lia.
  assert (Q := put_widths_run tbl [] x (x :: skipn 1 w) ltac:(cbn [len]; rewrite skipn_length; lia)). cbn [len app] in Q. change (Z.of_nat 0 + 1) with 1 in Q. rewrite Q.
  cbn [widths app firstn]. rewrite Z.sub_0_r. cbn [Nat.add]. rewrite skipn_cons, skipn_skipn_add. reflexivity.
Qed.

Lemma put_ends_run tbl k off : Forall (fun v => -32768 <= v + off < 32768) tbl -> -32768 <= off < 32768 -> forall n idx, (n <= len tbl)%nat -> (k + n <= len idx)%nat ->
  put_ends n tbl (Z.of_nat k) off idx = Done (firstn k idx ++ map (fun v => v + off) (firstn n tbl) ++ skipn (k + n) idx).
Proof.
  intros F O. induction n as [|n IH]; intros idx L M; cbn [put_ends].
  - cbn [firstn map app]. rewrite Nat.add_0_r, firstn_skipn. reflexivity.
  - rewrite oget_at by lia. cbn [obind]. replace (Z.of_nat k + Z.of_nat n) with (Z.of_nat (k + n)) by lia. rewrite oput_at by lia. cbn [obind].
    unfold s16. rewrite (to_s_id 16 off) by lia.
    assert (R : -32768 <= nth n tbl 0 + off < 32768) by (rewrite Forall_forall in F; apply F, nth_In; lia).
    rewrite to_s_id by lia. set (idx' := firstn (k + n) idx ++ _ :: _).
    assert (LI : len idx' = len idx) by (unfold idx'; rewrite app_length; cbn [len]; rewrite firstn_length, skipn_length; lia).
    rewrite IH by lia. f_equal. unfold idx'.
    replace (firstn k (firstn (k + n) idx ++ nth n tbl 0 + off :: skipn (S (k + n)) idx)) with (firstn k idx).
    2:{ rewrite firstn_app, firstn_length. replace (k - Nat.min (k + n) (len idx))%nat with 0%nat by lia. rewrite firstn_O, app_nil_r, firstn_firstn. f_equal. lia. }
    replace (skipn (k + n) (firstn (k + n) idx ++ nth n tbl 0 + off :: skipn (S (k + n)) idx)) with (nth n tbl 0 + off :: skipn (S (k + n)) idx).
    2:{ rewrite skipn_app, firstn_length. rewrite (skipn_all2 (firstn _ idx)) by (rewrite firstn_length; lia). replace (k + n - Nat.min (k + n) (len idx))%nat with 0%nat by lia. reflexivity. }
    replace (firstn (S n) tbl) with (firstn n tbl ++ [nth n tbl 0]).
    + rewrite map_app. cbn [map]. rewrite <- app_assoc. cbn [app]. rewrite Nat.add_succ_r. reflexivity.
    + clear -L. revert n L. induction tbl as [|x tbl IH]; intros n L; [cbn in L; lia|]. destruct n; [reflexivity|]. cbn [firstn nth app]. f_equal. apply IH. cbn in L. lia.
Qed.
Fixpoint shifted (n : nat) (off bins : Z) (tbl : list Z) : list Z := match n with O => [] | S m => map (fun v => v + off) tbl ++ shifted m (off + bins) bins tbl end.
Lemma shifted_len tbl bins : forall n off, len (shifted n off bins tbl) = (n * len tbl)%nat.
Proof. induction n; intros; cbn; [reflexivity|]. rewrite app_length, map_length, IHn. reflexivity. Qed.
Lemma put_windows_run tbl bins : Forall (fun v => 0 <= v <= 1024) tbl -> 0 <= bins <= 1024 -> forall n k off idx, 0 <= off -> off + Z.of_nat n * bins <= 8192 -> (k + n * len tbl <= len idx)%nat ->
  put_windows n (len tbl) tbl bins (Z.of_nat k) off idx = Done (firstn k idx ++ shifted n off bins tbl ++ skipn (k + n * len tbl) idx).
Proof.
  intros F B. induction n as [|n IH]; intros k off idx O OB L; cbn [put_windows].
  - cbn [shifted app Nat.mul]. rewrite Nat.add_0_r, firstn_skipn. reflexivity.
  - cbn [Nat.mul] in L. rewrite put_ends_run; [|eapply Forall_impl; [|exact F]; cbn; intros; nia|nia|lia|lia]. cbn [obind]. rewrite firstn_all.
    set (m := map (fun v => v + off) tbl). assert (ML : len m = len tbl) by apply map_length.
    replace (Z.of_nat k + Z.of_nat (len tbl)) with (Z.of_nat (k + len tbl)) by lia.
    rewrite IH; [|lia|nia|rewrite !app_length, firstn_length, skipn_length, ML; lia]. f_equal.
    replace (firstn (k + len tbl) (firstn k idx ++ m ++ skipn (k + len tbl) idx)) with (firstn k idx ++ m).
    2:{ rewrite app_assoc. rewrite firstn_app, app_length, firstn_length, ML. replace (k + len tbl - (Nat.min k (len idx) + len tbl))%nat with 0%nat by lia.
        rewrite firstn_O, app_nil_r, (firstn_all2 (firstn k idx ++ m)) by (rewrite app_length, firstn_length, ML; lia). reflexivity. }
    replace (skipn (k + len tbl + n * len tbl) (firstn k idx ++ m ++ skipn (k + len tbl) idx)) with (skipn (k + (len tbl + n * len tbl)) idx).
    2:{ rewrite app_assoc. rewrite skipn_app, app_length, firstn_length, ML. rewrite (skipn_all2 (firstn k idx ++ m)) by (rewrite app_length, firstn_length, ML; lia). cbn [app].
        rewrite skipn_skipn_add. f_equal. lia. }
    cbn [shifted Nat.mul]. fold m. rewrite <- !app_assoc. reflexivity.
Qed.

(** ** The tables *)
Definition zl_eqb (a b : list Z) : bool := if list_eq_dec Z.eq_dec a b then true else false.
Lemma zl_eqb_eq a b : zl_eqb a b = true -> a = b.
Proof. unfold zl_eqb. destruct (list_eq_dec Z.eq_dec a b); [auto|discriminate]. Qed.
Definition entry_ok (r : Z) : bool :=
  match rate_index r with
  | Done i =>
    match nth_error rate_tab (Z.to_nat i), nth_error long_tab (Z.to_nat i) with
    | Some (nl, short), Some long =>
      (nl =? Z.of_nat (len long)) && (0 <? nl) && (nl <=? 64) && (0 <? Z.of_nat (len short)) && (Z.of_nat (len short) <=? 15) &&
      forallb (fun v => (0 <=? v) && (v <=? 1024)) (long ++ short) &&
      zl_eqb (widths 0 long) (long_widths r) && zl_eqb (widths 0 short) (short_widths r) &&
      zl_eqb (shifted 1 0 1024 long) (tops 0 (long_widths r)) && zl_eqb (shifted 8 0 128 short) (tops 0 (windows 8 (short_widths r))) &&
      forallb (fun w => 0 <? w) (long_widths r ++ short_widths r) &&
      (fold_right Z.add 0 (long_widths r) =? 1024) && (fold_right Z.add 0 (windows 8 (short_widths r)) =? 1024)
    | _, _ => false
    end
  | _ => false
  end.
Lemma entries_ok : forallb entry_ok twelve = true. Proof. vm_compute. reflexivity. Qed.

Definition dim_bi (w : nat) (b : binfo) : Prop := len (b_width b) = w /\ len (b_idx b) = 125%nat.
(** The bands an ia_sfb_info_struct describes. *)
Definition describes (b : binfo) (windows : nat) (ws all : list Z) : Prop :=
  b_n b = Z.of_nat (len ws) /\ firstn (len ws) (b_width b) = ws /\ firstn (windows * len ws) (b_idx b) = tops 0 all.

Lemma bands_init rate l s : dim_bi 64 l -> dim_bi 16 s -> exists l' s', info_init rate l s = Done (l', s') /\ dim_bi 64 l' /\ dim_bi 16 s' /\
  describes l' 1 (long_widths (nominal rate)) (long_widths (nominal rate)) /\
  describes s' 8 (short_widths (nominal rate)) (windows 8 (short_widths (nominal rate))).
Proof.
  intros [L1 L2] [S1 S2]. unfold info_init. rewrite rate_nominal. assert (E := entries_ok). rewrite forallb_forall in E. specialize (E _ (nominal_in rate)).
  set (r := nominal rate) in *. unfold entry_ok in E. destruct (rate_index r) as [i|?|?]; try discriminate. cbn [obind].
  destruct (nth_error rate_tab (Z.to_nat i)) as [[nl short]|]; [|discriminate]. destruct (nth_error long_tab (Z.to_nat i)) as [long|]; [|discriminate].
  rewrite !andb_true_iff in E. destruct E as [[[[[[[[[[[[A1 A2] A3] A4] A5] A6] A7] A8] A9] A10] A11] A12] A13].
  apply Z.eqb_eq in A1, A12, A13. apply Z.ltb_lt in A2, A4. apply Z.leb_le in A3, A5. apply zl_eqb_eq in A7, A8, A9, A10. subst nl.
  rewrite forallb_app, andb_true_iff in A6. destruct A6 as [B1 B2].
  assert (FL : Forall (fun v => 0 <= v <= 1024) long) by (apply Forall_forall; intros v V; rewrite forallb_forall in B1; specialize (B1 _ V); lia).
  assert (FS : Forall (fun v => 0 <= v <= 1024) short) by (apply Forall_forall; intros v V; rewrite forallb_forall in B2; specialize (B2 _ V); lia).
  assert (NL : long <> []) by (intros ->; cbn in A2; lia). assert (NS : short <> []) by (intros ->; cbn in A4; lia).
  rewrite set_widths_run by (auto; lia). cbn [obind]. rewrite set_widths_run by (auto; lia). cbn [obind]. rewrite !Nat2Z.id.
  rewrite (put_windows_run long 1024 FL ltac:(lia) 1 0 0) by lia. cbn [obind].
  rewrite (put_windows_run short 128 FS ltac:(lia) 8 0 0) by lia. cbn [obind].
  eexists _, _. split; [reflexivity|]. cbn [firstn app Nat.add].
  assert (Q1 := shifted_len long 1024 1 0). assert (Q2 := shifted_len short 128 8 0).
  assert (W1 := widths_len long 0). assert (W2 := widths_len short 0).
  assert (E1 : len (long_widths r) = len long) by (rewrite <- A7; exact W1). assert (E2 : len (short_widths r) = len short) by (rewrite <- A8; exact W2).
  rewrite A7, A8, A9, A10 in *.
  unfold dim_bi, describes. cbn [b_n b_width b_idx]. rewrite !app_length, !skipn_length, Q1, Q2, E1, E2.
  sp; try lia.
  - rewrite firstn_app, E1, Nat.sub_diag, firstn_O, app_nil_r, firstn_all2 by lia. reflexivity.
  - rewrite firstn_app, Q1, Nat.sub_diag, firstn_O, app_nil_r, firstn_all2 by lia. reflexivity.
  - rewrite firstn_app, E2, Nat.sub_diag, firstn_O, app_nil_r, firstn_all2 by lia. reflexivity.
  - rewrite firstn_app, Q2, Nat.sub_diag, firstn_O, app_nil_r, firstn_all2 by lia. reflexivity.
Qed.

Lemma nominal_cover rate x : 0 <= x < 1024 ->
  (exists b, in_band (tops 0 (long_widths (nominal rate))) b x /\ forall b', in_band (tops 0 (long_widths (nominal rate))) b' x -> b' = b) /\
  (exists b, in_band (tops 0 (windows 8 (short_widths (nominal rate)))) b x /\ forall b', in_band (tops 0 (windows 8 (short_widths (nominal rate)))) b' x -> b' = b).
Proof.
  intros X. assert (E := entries_ok). rewrite forallb_forall in E. specialize (E _ (nominal_in rate)).
  set (r := nominal rate) in *. unfold entry_ok in E. destruct (rate_index r) as [i|?|?]; try discriminate.
  destruct (nth_error rate_tab (Z.to_nat i)) as [[nl short]|]; [|discriminate]. destruct (nth_error long_tab (Z.to_nat i)) as [long|]; [|discriminate].
  rewrite !andb_true_iff in E. destruct E as [[[[[[[[[[[[A1 A2] A3] A4] A5] A6] A7] A8] A9] A10] A11] A12] A13].
  apply Z.eqb_eq in A12, A13. rewrite forallb_app, andb_true_iff in A11. destruct A11 as [B1 B2].
  assert (FL : Forall (fun w => 0 < w) (long_widths r)) by (apply Forall_forall; intros v V; rewrite forallb_forall in B1; specialize (B1 _ V); lia).
  assert (FS : Forall (fun w => 0 < w) (windows 8 (short_widths r))).
  { apply Forall_forall. intros v V. unfold windows in V. apply in_concat in V. destruct V as (y & Y1 & Y2). apply repeat_spec in Y1. subst y. rewrite forallb_forall in B2. specialize (B2 _ Y2). lia. }
  split; apply bands_one; auto; lia.
Qed.

Definition one_band (ends : list Z) (x : Z) : Prop := exists b, in_band ends b x /\ forall b', in_band ends b' x -> b' = b.
Lemma bands_cover rate l s l' s' : dim_bi 64 l -> dim_bi 16 s -> info_init rate l s = Done (l', s') -> forall x, 0 <= x < 1024 ->
  one_band (firstn (Z.to_nat (b_n l')) (b_idx l')) x /\ one_band (firstn (8 * Z.to_nat (b_n s')) (b_idx s')) x.
Proof.
  intros L S0 E x X. destruct (bands_init rate l s L S0) as (l1 & s1 & E1 & _ & _ & (A1 & _ & A3) & (B1 & _ & B3)).
  rewrite E in E1. injection E1 as <- <-. rewrite A1, B1, !Nat2Z.id. rewrite Nat.mul_1_l in A3. rewrite A3, B3. exact (nominal_cover rate x X).
Qed.
