(** * Frame: facts about length-framed payloads and transport to the concrete reader *)

From Coq Require Import ZArith List Lia Bool.
From Verif Require Import Bits BitBuf Prog Asi Wp.
Import ListNotations.
Open Scope Z_scope.

(** Bits packed into bytes, the last one padded with zeros (only used to build
    concrete inputs). *)
Definition pack (l : list bool) : list Z :=
  map (fun i => val_of (firstn 8 (skipn (8 * i) l ++ repeat false 8))) (seq 0 ((length l + 7) / 8)).

(** What is left is what was there minus the larger of the payload's own consumption and
    the announced length. *)
Lemma framed_consumes {A} len (p : prog (res A)) l a l' :
  runA (framed len p) l = Done (Ok a, l') ->
  exists lp, runA p l = Done (Ok a, lp) /\
    Z.of_nat (length l) - Z.of_nat (length l') =
    Z.max (Z.of_nat (length l) - Z.of_nat (length lp)) (8 * len).
Proof.
  unfold framed, avail. cbn [bind runA]. rewrite runA_bind.
  destruct (runA p l) as [[[b|e] lp]| |] eqn:E; try discriminate.
  cbn [bind runA]. rewrite runA_bind.
  destruct (Z.ltb_spec (Z.of_nat (length l) - Z.of_nat (length lp)) (len * 8)).
  - unfold skip. cbn [runA bind].
    set (w := len * 8 - _) in *.
    destruct (Z.ltb_spec w 0); [subst w; lia|].
    destruct (Z.ltb_spec (Z.of_nat (length lp)) w); [discriminate|].
    intros X; inversion X; subst. exists lp. split; [reflexivity|].
    rewrite skipn_length. subst w. lia.
  - cbn [runA bind]. intros X; inversion X; subst. exists l'. split; [reflexivity|]. lia.
Qed.

(** A payload that fits its frame: the position is exactly [len] bytes further. *)
Lemma framed_fits {A} len (p : prog (res A)) l a lp :
  runA p l = Done (Ok a, lp) ->
  Z.of_nat (length l) - Z.of_nat (length lp) <= 8 * len -> 8 * len <= Z.of_nat (length l) ->
  runA (framed len p) l = Done (Ok a, skipn (Z.to_nat (8 * len)) l).
Proof.
  intros E H1 H2. unfold framed, avail. cbn [bind runA]. rewrite runA_bind, E.
  cbn [bind runA]. rewrite runA_bind.
  destruct (runA_suffix _ _ _ _ E) as [pre Ep].
  assert (Ll : length l = (length pre + length lp)%nat) by (rewrite Ep; apply app_length).
  assert (SK : skipn (Z.to_nat (8 * len)) l = skipn (Z.to_nat (8 * len) - length pre) lp).
  { rewrite Ep at 1. rewrite skipn_app. rewrite skipn_all2 by lia. reflexivity. }
  rewrite SK.
  destruct (Z.ltb_spec (Z.of_nat (length l) - Z.of_nat (length lp)) (len * 8)).
  - unfold skip. cbn [runA bind]. set (w := len * 8 - _) in *.
    destruct (Z.ltb_spec w 0); [subst w; lia|].
    destruct (Z.ltb_spec (Z.of_nat (length lp)) w); [subst w; lia|].
    replace (Z.to_nat (8 * len) - length pre)%nat with (Z.to_nat w) by (subst w; lia). reflexivity.
  - cbn [runA bind]. replace (Z.to_nat (8 * len) - length pre)%nat with 0%nat by lia. reflexivity.
Qed.

(** ** Transport *)
Lemma exec_of_runA {A} (p : prog A) d x bits rest Q :
  are_bytes d -> wp p Q -> bytes_bits d = bits ++ rest -> runA p (bits ++ rest) = Done (x, rest) ->
  exists s', exec p (fresh d) = Done (x, s') /\ wf s' /\ bitpos s' = Z.of_nat (length bits) /\ r_data s' = d.
Proof.
  intros Hd HW HB HR.
  assert (R := exec_refines p (fresh d) (wf_fresh _ Hd)).
  rewrite rest_fresh, HB, HR in R. destruct R as (s' & E & W & R').
  destruct (exec_const _ _ _ _ (wp_supported _ _ HW) (wf_fresh _ Hd) E) as [D1 D2].
  exists s'. split; [exact E|]. split; [exact W|]. split; [|exact D1].
  assert (L' := f_equal (@length bool) R'). assert (L2 := f_equal (@length bool) HB).
  rewrite rest_length in L' by exact W. rewrite bytes_bits_length, app_length in L2.
  assert (B0 : bitpos (fresh d) = 0) by reflexivity.
  assert (C0 : r_cnt (fresh d) = 8 * Z.of_nat (length d)) by reflexivity.
  destruct W as (_ & _ & _ & ? & _). lia.
Qed.

Lemma exec_done_runA {A} (p : prog A) s a s' Q :
  wp p Q -> wf s -> exec p s = Done (a, s') ->
  runA p (rest_bits s) = Done (a, rest_bits s') /\ wf s' /\
  r_data s' = r_data s /\
  bitpos s' - bitpos s = Z.of_nat (length (rest_bits s)) - Z.of_nat (length (rest_bits s')).
Proof.
  intros HW W E. assert (R := exec_refines p s W). assert (R2 := wp_runA p Q HW (rest_bits s)).
  destruct (runA p (rest_bits s)) as [[x l]|c|r]; cbn [agrees] in R.
  - destruct R as (s2 & E2 & W2 & R'). rewrite E in E2. inversion E2; subst x s2.
    split; [rewrite R'; reflexivity|]. split; [exact W2|].
    destruct (exec_const _ _ _ _ (wp_supported _ _ HW) W E) as [D1 D2]. split; [exact D1|].
    rewrite (wf_len s W), (wf_len s' W2). lia.
  - congruence.
  - contradiction.
Qed.

(** Framing on the concrete reader. *)
Lemma exec_framed {A} len (p : prog (res A)) s a s' Q :
  wp p Q -> wf s -> exec (framed len p) s = Done (Ok a, s') ->
  exists sp, exec p s = Done (Ok a, sp) /\
    bitpos s' = bitpos s + Z.max (bitpos sp - bitpos s) (8 * len).
Proof.
  intros HW W E.
  destruct (exec_done_runA (framed len p) s (Ok a) s' Q (wp_framed _ _ _ HW) W E) as (R & W' & D & B).
  apply framed_consumes in R as (lp & R & L).
  assert (RR := exec_refines p s W). rewrite R in RR. destruct RR as (sp & E2 & W2 & R2).
  exists sp. split; [exact E2|].
  destruct (exec_done_runA p s (Ok a) sp Q HW W E2) as (_ & _ & _ & B2).
  rewrite R2 in B2. lia.
Qed.
