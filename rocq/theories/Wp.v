(** * Wp: lemmas and tactics for reasoning about parsing programs *)

From Coq Require Import ZArith List Lia Bool.
From Verif Require Import Bits BitBuf Prog Asi.
Import ListNotations.
Open Scope Z_scope.

Lemma wp_rd n (Q : Z -> Prop) : 0 <= n <= 24 -> (forall v, 0 <= v < 2 ^ n -> Q v) -> wp (rd n) Q.
Proof. intros Hn HQ. split; auto. Qed.

Lemma wp_skip n (Q : unit -> Prop) : 0 <= n -> Q tt -> wp (skip n) Q.
Proof. intros Hn HQ. split; auto. Qed.

Lemma wp_avail (Q : Z -> Prop) : (forall c, 0 <= c -> Q c) -> wp avail Q.
Proof. intros HQ c Hc. apply HQ, Hc. Qed.

Lemma wp_ret {A} (a : A) (Q : A -> Prop) : Q a -> wp (Ret a) Q.
Proof. auto. Qed.

Lemma wp_bindi {A B} (p : prog A) (f : A -> prog B) (Q : B -> Prop) :
  wp p (fun a => wp (f a) Q) -> wp (bind p f) Q.
Proof. apply wp_bind. Qed.

Lemma wp_chk i n (Q : unit -> Prop) : 0 <= i < n -> Q tt -> wp (chk i n) Q.
Proof.
  intros Hi HQ. unfold chk.
  replace ((0 <=? i) && (i <? n)) with true
    by (symmetry; apply andb_true_intro; split; [apply Z.leb_le|apply Z.ltb_lt]; lia).
  exact HQ.
Qed.

Lemma wp_ifnz b p (Q : unit -> Prop) : Q tt -> wp p Q -> wp (ifnz b p) Q.
Proof. intros H1 H2. unfold ifnz. destruct (b =? 0); auto. Qed.

(** A loop that only guards and reads: the postcondition does not depend on it. *)
Lemma wp_for_unit (body : nat -> unit -> prog unit) (Q : unit -> Prop) n i :
  (forall j, (i <= j < i + n)%nat -> wp (body j tt) (fun _ => True)) -> Q tt ->
  wp (forP n i body tt) Q.
Proof.
  intros HB HQ. apply (wp_for (fun _ _ => True)); auto.
  - intros j [] Hj _. apply HB, Hj.
  - intros [] _. exact HQ.
Qed.

Lemma wp_forR_unit (body : nat -> unit -> prog (res unit)) (Q : res unit -> Prop) n i :
  (forall j, (i <= j < i + n)%nat -> wp (body j tt) (fun _ => True)) -> (forall r, Q r) ->
  wp (forR n i body tt) Q.
Proof.
  intros HB HQ. apply (wp_forR (fun _ _ => True) (fun _ => True)); auto.
  intros j [] Hj _. eapply wp_mono; [|apply HB, Hj]. intros [?|?] _; exact I.
Qed.

Lemma wp_framed {A} len (p : prog (res A)) (Q : res A -> Prop) : wp p Q -> wp (framed len p) Q.
Proof.
  intros H. unfold framed. apply wp_bindi, wp_avail. intros c0 _.
  apply wp_bindi. eapply wp_mono; [|exact H]. intros [a|e] HQ; [|exact HQ].
  apply wp_bindi, wp_avail. intros c1 _. apply wp_bindi.
  destruct (Z.ltb_spec (c0 - c1) (len * 8)).
  - apply wp_skip; [lia|]. exact HQ.
  - exact HQ.
Qed.

Ltac wp1 :=
  lazymatch goal with
  | |- wp (bind _ _) _ => apply wp_bindi
  | |- wp (rd ?n) _ =>
      apply wp_rd; [try lia|];
      let v := fresh "v" in let H := fresh "Hv" in
      intros v H; try (let t := eval vm_compute in (2 ^ n) in change (2 ^ n) with t in H);
      cbv beta
  | |- wp (Ret _) _ => apply wp_ret; cbv beta iota
  | |- wp (chk _ _) _ => apply wp_chk; [try lia|]; cbv beta
  | |- wp (ifnz _ _) _ => apply wp_ifnz; cbv beta
  | |- wp avail _ => apply wp_avail; let c := fresh "c" in intros c ?; cbv beta
  | |- wp (Throw _) _ => exact I
  | |- wp (if ?c then _ else _) _ => let E := fresh "E" in destruct c eqn:E
  | |- wp (match ?x with _ => _ end) _ => destruct x
  | |- wp (let _ := _ in _) _ => cbv zeta
  end.
Ltac wps := repeat wp1.

(** ** Running on encoded bits *)
Lemma runA_rdb {A} (n : Z) (m : nat) v (k : Z -> prog A) rest :
  n = Z.of_nat m -> (m <= 24)%nat -> 0 <= v < 2 ^ n ->
  runA (bind (rd n) k) (bits_of m v ++ rest) = runA (k v) rest.
Proof. intros -> Hm Hv. unfold rd. cbn [bind]. apply runA_rd; auto. Qed.

Lemma runA_rd_nobind (n : Z) (m : nat) v rest :
  n = Z.of_nat m -> (m <= 24)%nat -> 0 <= v < 2 ^ n ->
  runA (rd n) (bits_of m v ++ rest) = Done (v, rest).
Proof. intros -> Hm Hv. unfold rd. rewrite runA_rd by auto. reflexivity. Qed.

Ltac rd1 :=
  lazymatch goal with
  | |- context [runA (bind (rd ?n) ?k) (bits_of ?m ?v ++ ?r)] =>
      rewrite (runA_rdb n m v k r) by (first [reflexivity | lia])
  end.

Lemma runA_aget {A B} (l : list A) i x (k : A -> prog B) bs :
  0 <= i -> nth_error l (Z.to_nat i) = Some x ->
  runA (bind (aget l i) k) bs = runA (k x) bs.
Proof.
  intros Hi E. unfold aget. replace (0 <=? i) with true by (symmetry; apply Z.leb_le; lia).
  rewrite E. reflexivity.
Qed.

Lemma runA_aset {A B} (l : list A) i x (k : list A -> prog B) bs :
  0 <= i < Z.of_nat (length l) ->
  runA (bind (aset l i x) k) bs
  = runA (k (firstn (Z.to_nat i) l ++ x :: skipn (S (Z.to_nat i)) l)) bs.
Proof.
  intros Hi. unfold aset.
  replace ((0 <=? i) && (i <? Z.of_nat (length l))) with true
    by (symmetry; apply andb_true_intro; split; [apply Z.leb_le|apply Z.ltb_lt]; lia).
  reflexivity.
Qed.

Lemma runA_chk {B} i n (k : unit -> prog B) bs :
  0 <= i < n -> runA (bind (chk i n) k) bs = runA (k tt) bs.
Proof.
  intros Hi. unfold chk.
  replace ((0 <=? i) && (i <? n)) with true
    by (symmetry; apply andb_true_intro; split; [apply Z.leb_le|apply Z.ltb_lt]; lia).
  reflexivity.
Qed.

Lemma bind_assoc {A B C} (p : prog A) (f : A -> prog B) (g : B -> prog C) l :
  runA (bind (bind p f) g) l = runA (bind p (fun a => bind (f a) g)) l.
Proof.
  rewrite !runA_bind. destruct (runA p l) as [[a l']| |]; auto. rewrite runA_bind. reflexivity.
Qed.

(** ** Array facts *)
Lemma firstn_aset {A} (l : list A) i v :
  (i < length l)%nat -> firstn (S i) (firstn i l ++ v :: skipn (S i) l) = firstn i l ++ [v].
Proof.
  intros H. rewrite firstn_app, firstn_length, Nat.min_l by lia.
  rewrite firstn_firstn, Nat.min_r by lia. replace (S i - i)%nat with 1%nat by lia. reflexivity.
Qed.

Lemma firstn_aset_below {A} (l : list A) i v n :
  (n <= i)%nat -> (i < length l)%nat -> firstn n (firstn i l ++ v :: skipn (S i) l) = firstn n l.
Proof.
  intros H1 H2. rewrite firstn_app, firstn_length, Nat.min_l by lia.
  rewrite firstn_firstn, Nat.min_l by lia. replace (n - i)%nat with 0%nat by lia.
  cbn [firstn]. apply app_nil_r.
Qed.

Lemma skipn_aset {A} (l : list A) i v :
  (i < length l)%nat -> skipn (S i) (firstn i l ++ v :: skipn (S i) l) = skipn (S i) l.
Proof.
  intros H. rewrite skipn_app, firstn_length, Nat.min_l by lia.
  rewrite skipn_all2 by (rewrite firstn_length; lia).
  replace (S i - i)%nat with 1%nat by lia. reflexivity.
Qed.

Lemma nth_aset_eq {A} (l : list A) i v :
  (i < length l)%nat -> nth_error (firstn i l ++ v :: skipn (S i) l) i = Some v.
Proof.
  intros H. rewrite nth_error_app2 by (rewrite firstn_length; lia).
  rewrite firstn_length, Nat.min_l by lia. rewrite Nat.sub_diag. reflexivity.
Qed.

Lemma aset_len {A} (l : list A) i v :
  (i < length l)%nat -> length (firstn i l ++ v :: skipn (S i) l) = length l.
Proof. intros H. rewrite app_length, firstn_length. cbn [length]. rewrite skipn_length. lia. Qed.

Lemma nth_error_Some_ex {A} (l : list A) i : (i < length l)%nat -> exists x, nth_error l i = Some x.
Proof.
  intros H. destruct (nth_error l i) eqn:E; [eauto|]. apply nth_error_None in E. lia.
Qed.

Lemma existsb_false_notin {A} (f : A -> Z) v l :
  existsb (fun x => f x =? v) l = false <-> ~ In v (map f l).
Proof.
  induction l as [|a l IH]; cbn; [tauto|].
  rewrite orb_false_iff, IH, Z.eqb_neq. tauto.
Qed.

Lemma NoDup_snoc {A} (l : list A) x : NoDup l -> ~ In x l -> NoDup (l ++ [x]).
Proof.
  intros HN HI.
  induction l as [|a l IH]; cbn; [repeat constructor; auto|].
  inversion HN; subst. constructor.
  - rewrite in_app_iff. intros [?|[->|[]]]; auto. apply HI. left; reflexivity.
  - apply IH; auto. intros ?; apply HI; right; auto.
Qed.
