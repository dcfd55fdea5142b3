(** * Lem_CoreScf: reading scale factors through the 32-bit window *)

From Coq Require Import ZArith List Lia Bool String.
From Verif Require Import Bits BitBuf Prog Spec_Mct Lem_CoreSafe CoreScf Spec_CoreScf.
Import ListNotations.
Open Scope list_scope.
Open Scope Z_scope.
Local Notation len := List.length.

(** ** Code words *)
Fixpoint run_ones (l : list bool) : nat := match l with true :: r => S (run_ones r) | _ => 0%nat end.

Lemma top_bit b l : Z.testbit (val_of (b :: l)) (Z.of_nat (len l)) = b.
Proof.
  assert (H := bits_of_val (b :: l)). cbn [len bits_of] in H. injection H as H _. exact H.
Qed.
Lemma val_zero l : val_of l = 0 -> l = repeat false (len l).
Proof.
  induction l as [|b l IH]; [reflexivity|]. cbn [val_of repeat len]. assert (R := val_of_range l). assert (P := pow2_pos (Z.of_nat (len l)) ltac:(lia)).
  destruct b; [lia|]. intros H. f_equal. apply IH. lia.
Qed.
Lemma shift_out b l n : n = (S (len l)) -> u32 (val_of (b :: l) * 2) = u32 (val_of (l ++ [false]) + (if b then 2 ^ Z.of_nat n else 0)).
Proof.
  intros ->. rewrite val_of_app. cbn [val_of len]. change (2 ^ Z.of_nat 1) with 2. rewrite Nat2Z.inj_succ, Z.pow_succ_r by lia. f_equal. destruct b; ring.
Qed.
Lemma run_ones_nil l : val_of l = 0 -> run_ones l = 0%nat.
Proof. intros H. apply val_zero in H. rewrite H. destruct (len l); reflexivity. Qed.
Lemma run_ones_app l : run_ones (l ++ [false]) = run_ones l.
Proof. induction l as [|[] l IH]; cbn; auto. Qed.
Lemma lead_list : forall f l n, len l = 32%nat -> (run_ones l < f)%nat -> lead_ones f (val_of l) n = Done (n + Z.of_nat (run_ones l)).
Proof.
  induction f as [|f IH]; intros l n L F; [lia|]. cbn [lead_ones].
  destruct (Z.eqb_spec (val_of l) 0) as [Z|Z]; [rewrite (run_ones_nil _ Z); f_equal; lia|].
  destruct l as [|b l]; [discriminate|]. cbn [len] in L. replace 31 with (Z.of_nat (len l)) by lia. rewrite top_bit.
  destruct b; [|cbn [run_ones]; f_equal; lia].
  rewrite (shift_out true l 32) by lia. cbv iota.
  assert (E : u32 (val_of (l ++ [false]) + 2 ^ Z.of_nat 32) = val_of (l ++ [false])).
  { unfold u32, to_u. assert (R := val_of_range (l ++ [false])). rewrite app_length in R. cbn [len] in R. replace (len l + 1)%nat with 32%nat in R by lia.
    change (Z.of_nat 32) with 32 in *. replace (val_of (l ++ [false]) + 2 ^ 32) with (val_of (l ++ [false]) + 1 * 2 ^ 32) by ring. rewrite Z.mod_add by lia. apply Z.mod_small. exact R. }
  rewrite E. cbn [run_ones] in F |- *. rewrite IH by (rewrite ?app_length, ?run_ones_app; cbn [len]; lia). rewrite run_ones_app. f_equal. lia.
Qed.

Lemma mask19 a b : len a = 19%nat -> len b = 13%nat -> Z.land (val_of (a ++ b)) 0xFFFFE000 = val_of (a ++ repeat false 13).
Proof.
  intros A B. assert (L := val_of_range (a ++ b)). rewrite app_length, A, B in L. change (2 ^ Z.of_nat (19 + 13)) with (2 ^ 32) in L.
  replace 0xFFFFE000 with (Z.shiftl (Z.ones 19) 13) by reflexivity.
  assert (E : Z.land (val_of (a ++ b)) (Z.shiftl (Z.ones 19) 13) = Z.shiftl (Z.shiftr (val_of (a ++ b)) 13) 13).
  { apply Z.bits_inj'. intros n N. rewrite Z.land_spec, !Z.shiftl_spec by lia.
    destruct (Z.ltb_spec n 13) as [X|X].
    - rewrite (Z.testbit_neg_r _ (n - 13)) by lia. rewrite (Z.testbit_neg_r _ (n - 13)) by lia. apply andb_false_r.
    - rewrite Z.shiftr_spec by lia. replace (n - 13 + 13) with n by lia.
      destruct (Z.ltb_spec n 32) as [Y|Y].
      + rewrite Z.ones_spec_low by lia. apply andb_true_r.
      + rewrite Z.ones_spec_high by lia. rewrite andb_false_r. symmetry. destruct (Z.eq_dec (val_of (a ++ b)) 0) as [->|NZ]; [apply Z.bits_0|].
        apply Z.bits_above_log2; [lia|]. assert (Z.log2 (val_of (a ++ b)) < 32) by (apply Z.log2_lt_pow2; lia). lia. }
  rewrite E, Z.shiftr_div_pow2, Z.shiftl_mul_pow2 by lia. rewrite !val_of_app, B, repeat_length.
  change (Z.of_nat 13) with 13. assert (R := val_of_range b). rewrite B in R. change (Z.of_nat 13) with 13 in R.
  rewrite Z.div_add_l by lia. rewrite (Z.div_small (val_of b)) by lia. replace (val_of (repeat false 13)) with 0 by reflexivity. ring.
Qed.

(** The walk, looking only at the code word itself. *)
Fixpoint walkc (fuel : nat) (cw : list bool) (lead len_end : Z) : option (Z * Z) :=
  match fuel with
  | O => None
  | S f =>
    match get_byte idx_tab lead with
    | None => None
    | Some e =>
      let off := Z.land (Z.shiftr e 20) 255 in
      match get_byte hscf (off + 1) with
      | None => None
      | Some h =>
        let l := Z.land h 31 in
        if (l =? 0) || (Z.of_nat (len cw) <? l) then None
        else
          let c := Z.land e 0xfffff in
          let loc1 := val_of (firstn (Z.to_nat l) cw) in
          if c <? loc1 then let le := len_end + Z.land (Z.shiftr e 28) 15 in walkc f cw le le
          else match get_byte hscf (off - (c - loc1) + 1) with None => None | Some h => Some (Z.shiftr h 5, l) end
      end
    end
  end.
Lemma walkc_walk cw x : len (cw ++ x) = 32%nat -> forall f lead le r, walkc f cw lead le = Some r -> walk f (val_of (cw ++ x)) lead le = Done r.
Proof.
  intros L. induction f as [|f IH]; intros lead le r H; [discriminate|]. cbn [walkc] in H. cbn [walk]. unfold oget.
  destruct (get_byte idx_tab lead) as [e|]; [|discriminate]. cbn [obind].
  destruct (get_byte hscf (Z.land (Z.shiftr e 20) 255 + 1)) as [h|]; [|discriminate]. cbn [obind]. cbv zeta in H.
  set (l := Z.land h 31) in *. assert (0 <= l) by (unfold l; apply Z.land_nonneg; lia).
  destruct (Z.eqb_spec l 0) as [|L0]; [discriminate|]. destruct (Z.ltb_spec (Z.of_nat (len cw)) l) as [|L1]; [discriminate|]. cbn [orb] in H.
  assert (LX : (len cw <= 32)%nat) by (rewrite app_length in L; lia).
  assert (E : Z.shiftr (val_of (cw ++ x)) (32 - l) = val_of (firstn (Z.to_nat l) cw)).
  { rewrite Z.shiftr_div_pow2 by lia. replace (firstn (Z.to_nat l) cw) with (firstn (Z.to_nat l) (cw ++ x)).
    - rewrite val_of_firstn by lia. rewrite L. do 2 f_equal. lia.
    - rewrite firstn_app. replace (Z.to_nat l - len cw)%nat with 0%nat by lia. cbn. apply app_nil_r. }
  rewrite E. set (c := Z.land e 0xfffff) in *. destruct (c <? val_of (firstn (Z.to_nat l) cw)).
  - apply IH, H.
  - destruct (get_byte hscf _) as [h2|]; [|discriminate]. cbn [obind]. injection H as <-. reflexivity.
Qed.

Definition has_zero (l : list bool) : bool := existsb negb l.
Definition word_ok (i : Z) (cw : list bool) : bool :=
  (has_zero cw || (Nat.eqb (len cw) 19)) && (Nat.leb (len cw) 19) &&
  match walkc 8 cw (Z.of_nat (run_ones cw)) 19 with Some (j, l) => (j =? i) && (l =? Z.of_nat (len cw)) | None => false end.
Fixpoint all_ok (i : Z) (bk : list string) : bool := match bk with [] => true | w :: r => word_ok i (word w) && all_ok (i + 1) r end.
Lemma book_ok : all_ok 0 book_scf = true. Proof. vm_compute. reflexivity. Qed.
Lemma all_ok_nth bk : forall i k, all_ok i bk = true -> (k < len bk)%nat -> word_ok (i + Z.of_nat k) (word (nth k bk EmptyString)) = true.
Proof.
  induction bk as [|w bk IH]; intros i k H K; [cbn in K; lia|]. cbn [all_ok] in H. apply andb_true_iff in H. destruct H as [H1 H2].
  destruct k as [|k]; cbn [nth]; [replace (i + Z.of_nat 0) with i by lia; exact H1|].
  replace (i + Z.of_nat (S k)) with (i + 1 + Z.of_nat k) by lia. apply IH; auto. cbn in K. lia.
Qed.
Definition scf_word (i : Z) : list bool := word (nth (Z.to_nat i) book_scf EmptyString).
Lemma run_zero cw x : has_zero cw = true -> run_ones (cw ++ x) = run_ones cw.
Proof. induction cw as [|[] cw IH]; cbn; intros H; try discriminate; auto. Qed.
Lemma run_le l : (run_ones l <= len l)%nat.
Proof. induction l as [|[] l IH]; cbn; lia. Qed.
Lemma run_zeros n : run_ones (repeat false n) = 0%nat.
Proof. destruct n; reflexivity. Qed.
Lemma run_full l n : run_ones (l ++ repeat false n) = run_ones l.
Proof. induction l as [|[] l IH]; cbn; [apply run_zeros|auto|auto]. Qed.

Lemma huffman_word i x : 0 <= i < 121 -> len (scf_word i ++ x) = 32%nat ->
  huffman (val_of (scf_word i ++ x)) = Done (i, Z.of_nat (len (scf_word i))).
Proof.
  intros I L. assert (K : word_ok i (scf_word i) = true).
  { assert (Q := all_ok_nth book_scf 0 (Z.to_nat i) book_ok). replace (0 + Z.of_nat (Z.to_nat i)) with i in Q by lia. apply Q. change (len book_scf) with 121%nat. lia. }
  unfold word_ok in K. set (cw := scf_word i) in *. apply andb_true_iff in K. destruct K as [K W]. apply andb_true_iff in K. destruct K as [K1 K2].
  apply Nat.leb_le in K2. destruct (walkc 8 cw (Z.of_nat (run_ones cw)) 19) as [[j l]|] eqn:E; [|discriminate].
  apply andb_true_iff in W. destruct W as [W1 W2]. apply Z.eqb_eq in W1, W2. subst j l.
  rewrite app_length in L. unfold huffman. cbv zeta.
  assert (M : Z.land (val_of (cw ++ x)) 0xFFFFE000 = val_of (cw ++ firstn (19 - len cw) x ++ repeat false 13)).
  { rewrite <- (firstn_skipn (19 - len cw) x) at 1. rewrite !app_assoc. apply mask19; rewrite ?app_length, ?firstn_length, ?skipn_length; lia. }
  rewrite M. set (x' := firstn (19 - len cw) x ++ repeat false 13) in *.
  assert (LX : len (cw ++ x') = 32%nat) by (unfold x'; rewrite !app_length, firstn_length, repeat_length; lia).
  assert (R : run_ones (cw ++ x') = run_ones cw).
  { apply orb_true_iff in K1. destruct K1 as [K1|K1]; [apply run_zero, K1|]. apply Nat.eqb_eq in K1.
    unfold x'. replace (19 - len cw)%nat with 0%nat by lia. cbn [firstn app]. apply run_full. }
  rewrite lead_list; [|exact LX|rewrite R; assert (Q := run_le cw); lia]. cbn [obind]. rewrite R. rewrite Z.add_0_l. apply walkc_walk; assumption.
Qed.

(** Every 19 bits start with a code word. *)
Definition beqb (a b : list bool) : bool := if list_eq_dec bool_dec a b then true else false.
Fixpoint find_w (i : Z) (bk : list string) (p : list bool) : option Z :=
  match bk with [] => None | w :: r => if beqb (word w) p then Some i else find_w (i + 1) r p end.
Fixpoint complete (fuel : nat) (p : list bool) : bool :=
  match find_w 0 book_scf p with
  | Some _ => true
  | None => match fuel with O => false | S f => complete f (p ++ [false]) && complete f (p ++ [true]) end
  end.
Lemma complete_all : complete 19 [] = true. Proof. vm_compute. reflexivity. Qed.
Lemma find_w_in bk : forall i p j, find_w i bk p = Some j -> i <= j < i + Z.of_nat (len bk) /\ word (nth (Z.to_nat (j - i)) bk EmptyString) = p.
Proof.
  induction bk as [|w bk IH]; intros i p j H; [discriminate|]. cbn [find_w] in H. unfold beqb in H. destruct (list_eq_dec bool_dec (word w) p) as [E|E].
  - injection H as <-. cbn [len]. split; [lia|]. rewrite Z.sub_diag. exact E.
  - destruct (IH _ _ _ H) as [A B]. cbn [len]. split; [lia|]. replace (Z.to_nat (j - i)) with (S (Z.to_nat (j - (i + 1)))) by lia. exact B.
Qed.
Lemma complete_word : forall f p l, complete f p = true -> (f <= len l)%nat -> exists i x, 0 <= i < 121 /\ p ++ l = scf_word i ++ x.
Proof.
  induction f as [|f IH]; intros p l H L; cbn [complete] in H.
  - destruct (find_w 0 book_scf p) as [j|] eqn:E; [|discriminate]. apply find_w_in in E. destruct E as [A B]. exists j, l.
    rewrite Z.sub_0_r in B. change (Z.of_nat (len book_scf)) with 121 in A. split; [lia|]. unfold scf_word. rewrite B. reflexivity.
  - destruct (find_w 0 book_scf p) as [j|] eqn:E.
    + apply find_w_in in E. destruct E as [A B]. exists j, l. rewrite Z.sub_0_r in B. change (Z.of_nat (len book_scf)) with 121 in A. split; [lia|]. unfold scf_word. rewrite B. reflexivity.
    + apply andb_true_iff in H. destruct H as [H0 H1]. destruct l as [|b l]; [cbn in L; lia|]. cbn in L.
      replace (p ++ b :: l) with ((p ++ [b]) ++ l) by (rewrite <- app_assoc; reflexivity). destruct b; [apply (IH _ _ H1)|apply (IH _ _ H0)]; lia.
Qed.
Lemma any_word l : (19 <= len l)%nat -> exists i x, 0 <= i < 121 /\ l = scf_word i ++ x.
Proof. exact (complete_word 19 [] l complete_all). Qed.
Lemma word_len i : 0 <= i < 121 -> (1 <= len (scf_word i) <= 19)%nat.
Proof.
  intros I. assert (K : word_ok i (scf_word i) = true).
  { assert (Q := all_ok_nth book_scf 0 (Z.to_nat i) book_ok). replace (0 + Z.of_nat (Z.to_nat i)) with i in Q by lia. apply Q. change (len book_scf) with 121%nat. lia. }
  unfold word_ok in K. apply andb_true_iff in K. destruct K as [K _]. apply andb_true_iff in K. destruct K as [K1 K2]. apply Nat.leb_le in K2. split; [|exact K2].
  apply orb_true_iff in K1. destruct (scf_word i); cbn in *; [destruct K1; discriminate|lia].
Qed.

(** ** The window
    It holds the 32 bits from byte [P] on, zeros after the end of the buffer; [k] is the
    number of bytes it really holds. *)
Definition W32 (d : list Z) (P : nat) : list bool := firstn 32 (skipn (8 * P) (bytes_bits d) ++ repeat false 32).
Lemma W32_len d P : len (W32 d P) = 32%nat.
Proof. unfold W32. rewrite firstn_length, app_length, repeat_length. lia. Qed.
Definition Win (d : list Z) (k P : nat) (bp w : Z) : Prop :=
  (P + k <= len d)%nat /\ (k <= 4)%nat /\ (k = 4 \/ P + k = len d)%nat /\ w = val_of (W32 d P) /\ 0 <= bp /\ (bp < 8 \/ (P + k = len d)%nat).

Lemma byte_step d P : are_bytes d -> (P + 4 < len d)%nat ->
  exists v, get_byte d (Z.of_nat (P + 4)) = Some v /\ 0 <= v < 256 /\ Z.lor (u32 (val_of (W32 d P) * 2 ^ 8)) v = val_of (W32 d (S P)).
Proof.
  intros B L. destruct (get_byte_in d (Z.of_nat (P + 4)) ltac:(lia)) as (v & G & I). exists v. split; [exact G|].
  assert (V : is_byte v) by (unfold are_bytes in B; rewrite Forall_forall in B; auto). unfold is_byte in V. split; [exact V|].
  apply get_byte_split in G. destruct G as [_ G]. rewrite Nat2Z.id in G.
  assert (BL := bytes_bits_length d).
  set (B0 := skipn (8 * P) (bytes_bits d)).
  assert (LB : (40 <= len B0)%nat) by (unfold B0; rewrite skipn_length; lia).
  assert (E4 : skipn 32 B0 = bits_of 8 v ++ bytes_bits (skipn (S (P + 4)) d)).
  { unfold B0. rewrite skipn_skipn_add. replace (8 * P + 32)%nat with (8 * (P + 4))%nat by lia.
    rewrite bytes_bits_skipn, G. replace (Z.to_nat (Z.of_nat (P + 4) + 1)) with (S (P + 4)) by lia. reflexivity. }
  assert (X1 : W32 d P = firstn 8 B0 ++ firstn 24 (skipn 8 B0)).
  { unfold W32. fold B0. rewrite firstn_app. replace (32 - len B0)%nat with 0%nat by lia. rewrite app_nil_r.
    rewrite <- (firstn_skipn 8 (firstn 32 B0)). rewrite firstn_firstn.
    replace (skipn 8 (firstn 32 B0)) with (firstn 24 (skipn 8 B0)) by (rewrite firstn_skipn_comm; reflexivity). reflexivity. }
  assert (X2 : W32 d (S P) = firstn 24 (skipn 8 B0) ++ bits_of 8 v).
  { unfold W32. replace (8 * S P)%nat with (8 * P + 8)%nat by lia. rewrite <- skipn_skipn_add. fold B0.
    rewrite firstn_app, skipn_length. replace (32 - (len B0 - 8))%nat with 0%nat by lia. rewrite app_nil_r.
    rewrite <- (firstn_skipn 24 (firstn 32 (skipn 8 B0))) . rewrite firstn_firstn. f_equal.
    replace (skipn 24 (firstn 32 (skipn 8 B0))) with (firstn 8 (skipn 24 (skipn 8 B0))) by (rewrite firstn_skipn_comm; reflexivity).
    rewrite skipn_skipn_add. change (8 + 24)%nat with 32%nat. rewrite E4. apply firstn_bits_app. }
  rewrite X1, X2, !val_of_app, bits_of_length, val_bits_of by exact V.
  assert (L24 : len (firstn 24 (skipn 8 B0)) = 24%nat) by (rewrite firstn_length, skipn_length; lia). rewrite L24.
  assert (R := val_of_range (firstn 24 (skipn 8 B0))). rewrite L24 in R. change (Z.of_nat 24) with 24 in *. change (Z.of_nat 8) with 8.
  set (t := val_of (firstn 24 (skipn 8 B0))) in *. set (a := val_of (firstn 8 B0)).
  replace (u32 ((a * 2 ^ 24 + t) * 2 ^ 8)) with (Z.shiftl t 8).
  - apply lor_low; lia.
  - unfold u32, to_u. replace ((a * 2 ^ 24 + t) * 2 ^ 8) with (t * 2 ^ 8 + a * 2 ^ 32) by ring. rewrite Z.mod_add by lia. rewrite Z.mod_small by lia.
    apply Z.shiftl_mul_pow2. lia.
Qed.

Lemma corr_win d k : are_bytes d -> (k <= 4)%nat -> forall f P used tmp w,
  (P + k <= len d)%nat -> (k = 4 \/ P + k = len d)%nat -> w = val_of (W32 d P) -> 0 <= used -> 0 <= tmp -> (tmp = 0 \/ (P + k = len d)%nat) -> used / 8 <= Z.of_nat f ->
  exists P' bp' w', corr_loop f d (Z.of_nat (P + k)) used tmp w = Done (Z.of_nat (P' + k), bp', w') /\ Win d k P' bp' w' /\
    8 * Z.of_nat P' + bp' = 8 * Z.of_nat P + used + tmp.
Proof.
  intros B K4. induction f as [|f IH]; intros P used tmp w L K E U T ST F; cbn [corr_loop].
  - destruct (Z.ltb_spec used 8) as [X|X]; [|assert (8 / 8 <= used / 8) by (apply Z.div_le_mono; lia); change (8 / 8) with 1 in *; lia].
    exists P, (used + tmp), w. split; [reflexivity|]. split; [|lia]. unfold Win. sp; auto; lia.
  - destruct (Z.ltb_spec used 8) as [X|X].
    + exists P, (used + tmp), w. split; [reflexivity|]. split; [|lia]. unfold Win. sp; auto; lia.
    + assert (F' : (used - 8) / 8 <= Z.of_nat f).
      { replace (used - 8) with (used + (-1) * 8) by lia. rewrite Z.div_add by lia. lia. }
      destruct (Z.ltb_spec (Z.of_nat (len d) - 1) (Z.of_nat (P + k))) as [Y|Y].
      * destruct (IH P (used - 8) (tmp + 8) w) as (P' & bp' & w' & X1 & X2 & X3); try lia; auto. exists P', bp', w'. sp; auto. lia.
      * assert (k = 4)%nat by lia. subst k. destruct (byte_step d P B ltac:(lia)) as (v & G & V & Q). unfold oget. rewrite G. cbn [obind]. rewrite E, Q.
        replace (Z.of_nat (P + 4) + 1) with (Z.of_nat (S P + 4)) by lia.
        destruct (IH (S P) (used - 8) tmp (val_of (W32 d (S P)))) as (P' & bp' & w' & X1 & X2 & X3); try lia; auto. exists P', bp', w'. sp; auto. lia.
Qed.

Lemma window_bits d k P bp w i rest : Win d k P bp w -> 0 <= i < 121 ->
  skipn (8 * P + Z.to_nat bp) (bytes_bits d) = scf_word i ++ rest ->
  bp < 32 /\ exists x, len (scf_word i ++ x) = 32%nat /\ u32 (w * 2 ^ bp) = val_of (scf_word i ++ x).
Proof.
  intros (L & K & K4 & E & B0 & B) I R. assert (WL := word_len i I).
  set (b := Z.to_nat bp) in *. assert (EB : bp = Z.of_nat b) by lia. assert (BL := bytes_bits_length d).
  assert (RL : (8 * P + b + len (scf_word i) <= 8 * len d)%nat).
  { assert (Q := f_equal (@len bool) R). rewrite skipn_length, app_length in Q. lia. }
  assert (B32 : (b + len (scf_word i) <= 32)%nat) by lia.
  split; [lia|].
  assert (X : skipn b (W32 d P) = scf_word i ++ firstn (32 - b - len (scf_word i)) (rest ++ repeat false 32)).
  { unfold W32. replace (firstn 32 (skipn (8 * P) (bytes_bits d) ++ repeat false 32)) with (firstn (b + (32 - b)) (skipn (8 * P) (bytes_bits d) ++ repeat false 32)) by (f_equal; lia).
    rewrite <- firstn_skipn_comm. rewrite skipn_app, skipn_skipn_add, R. rewrite skipn_length.
    replace (b - (len (bytes_bits d) - 8 * P))%nat with 0%nat by lia. cbn [skipn].
    rewrite <- app_assoc, firstn_app. rewrite (firstn_all2 (scf_word i)) by lia. reflexivity. }
  exists (firstn (32 - b - len (scf_word i)) (rest ++ repeat false 32) ++ repeat false b). split.
  - rewrite !app_length, firstn_length, app_length, !repeat_length. lia.
  - rewrite app_assoc, <- X. rewrite val_of_app, repeat_length. replace (val_of (repeat false b)) with 0.
    + rewrite val_of_skipn by (rewrite W32_len; lia). rewrite W32_len. rewrite E, EB. unfold u32, to_u. rewrite Z.add_0_r.
      replace 32 with (Z.of_nat (32 - b) + Z.of_nat b) at 1 by lia. rewrite Z.pow_add_r by lia. rewrite Z.mul_mod_distr_r; [reflexivity| |]; apply Z.pow_nonzero; lia.
    + clear. induction b; cbn; [reflexivity|]. rewrite <- IHb. reflexivity.
Qed.

Lemma code_step d k P bp w i rest : are_bytes d -> Win d k P bp w -> 0 <= i < 121 ->
  skipn (8 * P + Z.to_nat bp) (bytes_bits d) = scf_word i ++ rest ->
  exists P' bp' w', one_code d (Z.of_nat (P + k), bp, w) = Done (i - 60, (Z.of_nat (P' + k), bp', w')) /\ Win d k P' bp' w' /\
    skipn (8 * P' + Z.to_nat bp') (bytes_bits d) = rest /\ 8 * Z.of_nat P' + bp' = 8 * Z.of_nat P + bp + Z.of_nat (len (scf_word i)).
Proof.
  intros B V I R. destruct (window_bits _ _ _ _ _ _ _ V I R) as (B32 & x & LX & E).
  destruct V as (L & K & K4 & EW & B0 & BB). assert (WL := word_len i I).
  unfold one_code. replace (32 <=? bp) with false by (symmetry; apply Z.leb_gt; lia). rewrite E, huffman_word by assumption. cbn [obind fst snd].
  destruct (corr_win d k B K (Z.to_nat ((bp + Z.of_nat (len (scf_word i))) / 8)) P (bp + Z.of_nat (len (scf_word i))) 0 w L K4 EW ltac:(lia) ltac:(lia) ltac:(auto)) as (P' & bp' & w' & X1 & X2 & X3).
  { assert (0 <= (bp + Z.of_nat (len (scf_word i))) / 8) by (apply Z.div_pos; lia). lia. }
  unfold corr. rewrite X1. cbn [obind]. exists P', bp', w'. sp; auto; [|lia].
  destruct X2 as (_ & _ & _ & _ & Y & _).
  replace (8 * P' + Z.to_nat bp')%nat with (8 * P + Z.to_nat bp + len (scf_word i))%nat by lia. rewrite <- skipn_skipn_add, R.
  rewrite skipn_app, skipn_all, Nat.sub_diag. reflexivity.
Qed.
