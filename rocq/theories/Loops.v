(** * Loops: running table-filling loops on encoded sequences *)

From Coq Require Import ZArith List Lia Bool.
From Verif Require Import Bits BitBuf Prog Asi Wp.
Import ListNotations.
Open Scope Z_scope.

(** Loops that append one decoded value per iteration. *)
Lemma forP_app {A B} (body : nat -> list B -> prog (list B)) (enc : A -> list bool)
      (view : A -> B) (ok : A -> Prop) bnd :
  (forall i acc x rest, (i < bnd)%nat -> ok x ->
     runA (body i acc) (enc x ++ rest) = Done (acc ++ [view x], rest)) ->
  forall xs i acc rest, (i + length xs <= bnd)%nat -> Forall ok xs ->
  runA (forP (length xs) i body acc) (concat (map enc xs) ++ rest) = Done (acc ++ map view xs, rest).
Proof.
  intros HB. induction xs as [|x xs IH]; intros i acc rest HL HF; cbn [length forP map concat].
  - cbn [runA app]. rewrite app_nil_r. reflexivity.
  - inversion HF; subst. cbn [length] in HL. rewrite <- app_assoc, runA_bind, HB by (auto; lia).
    rewrite IH by (auto; lia). rewrite <- app_assoc. reflexivity.
Qed.

Lemma forR_app {A B} (body : nat -> list B -> prog (res (list B))) (enc : A -> list bool)
      (view : A -> B) (ok : A -> Prop) bnd :
  (forall i acc x rest, (i < bnd)%nat -> ok x ->
     runA (body i acc) (enc x ++ rest) = Done (Ok (acc ++ [view x]), rest)) ->
  forall xs i acc rest, (i + length xs <= bnd)%nat -> Forall ok xs ->
  runA (forR (length xs) i body acc) (concat (map enc xs) ++ rest) = Done (Ok (acc ++ map view xs), rest).
Proof.
  intros HB. induction xs as [|x xs IH]; intros i acc rest HL HF; cbn [length forR map concat].
  - cbn [runA app]. rewrite app_nil_r. reflexivity.
  - inversion HF; subst. cbn [length] in HL. rewrite <- app_assoc, runA_bind, HB by (auto; lia).
    cbn [runA]. rewrite IH by (auto; lia). rewrite <- app_assoc. reflexivity.
Qed.

Lemma F2_length {A B} (R : A -> B -> Prop) xs ys : Forall2 R xs ys -> length xs = length ys.
Proof. induction 1; cbn [length]; congruence. Qed.

Lemma fill_step {C} (arr : list C) i c cs n :
  (i + S n <= length arr)%nat -> length cs = n ->
  firstn (S i) (firstn i arr ++ c :: skipn (S i) arr) ++ cs ++
    skipn (S i + n) (firstn i arr ++ c :: skipn (S i) arr)
  = firstn i arr ++ (c :: cs) ++ skipn (i + S n) arr.
Proof.
  intros HL Hc. rewrite firstn_aset by lia. rewrite <- app_assoc. cbn [app]. f_equal. f_equal. f_equal.
  rewrite skipn_app, firstn_length, Nat.min_l by lia.
  rewrite skipn_all2 by (rewrite firstn_length; lia). cbn [app].
  replace (S i + n - i)%nat with (S n) by lia. rewrite skipn_cons, skipn_skipn_add. f_equal. lia.
Qed.

(** Loops that store entry [i] of a table at iteration [i]. *)
Lemma forP_tab {C X} (body : nat -> list C -> prog (list C)) (enc : X -> list bool)
      (R : X -> C -> Prop) (pre : X -> C -> Prop) N :
  (forall i arr x rest old, nth_error arr i = Some old -> length arr = N -> pre x old ->
     exists c, R x c /\
       runA (body i arr) (enc x ++ rest) = Done (firstn i arr ++ c :: skipn (S i) arr, rest)) ->
  forall xs i arr rest, (i + length xs <= N)%nat -> length arr = N ->
    (forall j x old, nth_error xs j = Some x -> nth_error arr (i + j) = Some old -> pre x old) ->
    exists cs, Forall2 R xs cs /\
      runA (forP (length xs) i body arr) (concat (map enc xs) ++ rest)
      = Done (firstn i arr ++ cs ++ skipn (i + length xs) arr, rest).
Proof.
  intros HB. induction xs as [|x xs IH]; intros i arr rest HL HN HP; cbn [length forP map concat].
  - exists []. split; [constructor|]. cbn [runA app]. rewrite Nat.add_0_r, firstn_skipn. reflexivity.
  - cbn [length] in HL. destruct (nth_error_Some_ex arr i ltac:(lia)) as [old Ho].
    destruct (HB i arr x (concat (map enc xs) ++ rest) old Ho HN) as (c & Hc & E).
    { apply (HP 0%nat x old eq_refl). rewrite Nat.add_0_r. exact Ho. }
    destruct (IH (S i) (firstn i arr ++ c :: skipn (S i) arr) rest) as (cs & F & E2).
    + lia.
    + rewrite aset_len; lia.
    + intros j y o Hy Hz. apply (HP (S j) y o Hy).
      rewrite nth_error_app2 in Hz by (rewrite firstn_length; lia).
      rewrite firstn_length, Nat.min_l in Hz by lia.
      replace (S i + j - i)%nat with (S j) in Hz by lia. cbn [nth_error] in Hz.
      rewrite <- Hz. clear. revert i. induction arr as [|a arr IH]; intros i.
      * rewrite skipn_nil. destruct (i + S j)%nat, j; reflexivity.
      * destruct i; [reflexivity|]. rewrite skipn_cons. cbn [nth_error Nat.add]. apply IH.
    + exists (c :: cs). split; [constructor; assumption|].
      rewrite <- app_assoc, runA_bind, E, E2. f_equal. f_equal.
      apply fill_step; [lia|]. symmetry. eapply F2_length; exact F.
Qed.

Lemma forP_fill {C X} (body : nat -> list C -> prog (list C)) (enc : X -> list bool)
      (view : X -> C) (ok : X -> Prop) N :
  (forall i arr x rest, (i < length arr)%nat -> length arr = N -> ok x ->
     runA (body i arr) (enc x ++ rest) = Done (firstn i arr ++ view x :: skipn (S i) arr, rest)) ->
  forall xs i arr rest, (i + length xs <= N)%nat -> length arr = N -> Forall ok xs ->
    runA (forP (length xs) i body arr) (concat (map enc xs) ++ rest)
    = Done (firstn i arr ++ map view xs ++ skipn (i + length xs) arr, rest).
Proof.
  intros HB. induction xs as [|x xs IH]; intros i arr rest HL HN HF; cbn [length forP map concat].
  - cbn [runA app]. rewrite Nat.add_0_r, firstn_skipn. reflexivity.
  - cbn [length] in HL. inversion HF; subst.
    rewrite <- app_assoc, runA_bind, HB by (auto; lia).
    rewrite IH; [|lia|rewrite aset_len; lia|assumption]. f_equal. f_equal.
    apply fill_step; [lia|apply map_length].
Qed.
