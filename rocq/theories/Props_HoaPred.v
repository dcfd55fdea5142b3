(** * Props_HoaPred: the prediction of directional signals in HOA frames (C123) *)

From Coq Require Import ZArith List Lia Bool.
From Verif Require Import Bits BitBuf Prog Wp Frame Asi Hoa Lem_Hoa Lem_ConfigProps HoaFrm Spec_HoaFrm Lem_HoaFrm Props_HoaFrm Props_HoaVec Spec_HoaPred Lem_HoaPred.
Import ListNotations.
Open Scope Z_scope.

(** C123, sent prediction: in a frame with directional signals, when the used entries come before
    the unused ones, the decoder predicts exactly as was sent, whatever it predicted before, and
    reads nothing more. *)
Theorem C123_prediction_partial : forall h0 h sc sc' nd dirs bynum P p b rest,
  0 <= h_ntc h0 -> wf sc -> exec (fill_config h0) sc = Done (Ok h, sc') -> h_single h = 1 ->
  1 <= nd <= 49 -> length dirs = 49%nat -> (forall k, 1 <= k <= nd -> 0 < nth (Z.to_nat (k - 1)) dirs 0) ->
  pstate_ok p -> pred_ok h nd bynum P -> used_first P ->
  wf b -> rest_bits b = pred_bits h nd bynum P ++ rest ->
  exists p' b', exec (hoa_pred h nd dirs p) b = Done (p', b') /\ wf b' /\ rest_bits b' = rest /\ pstate_ok p' /\
    use_pred h p' = pred_wanted dirs P.
Proof.
  intros h0 h sc sc' nd dirs bynum P p b rest Hn Wc Ec Hs Hnd Ld Hpos Hp Hok Hu W Eb.
  destruct (pred_run h nd dirs bynum P p rest (accepted_pred h0 sc h sc' Hn Wc Ec Hs) Hp Hnd Ld Hpos Hok Hu) as (p' & E & Hp' & U).
  pose proof (exec_refines (hoa_pred h nd dirs p) b W) as A. rewrite Eb, E in A.
  destruct A as (b' & E' & W' & R'). exists p', b'. auto.
Qed.
Print Assumptions C123_prediction_partial.

(** C123, no prediction: a frame with directional signals that sends the flag 0 is decoded
    without prediction. *)
Theorem C123_off_partial : forall h nd dirs p b rest,
  h_single h = 1 -> 1 <= nd -> pstate_ok p -> wf b -> rest_bits b = false :: rest ->
  exists p' b', exec (hoa_pred h nd dirs p) b = Done (p', b') /\ wf b' /\ rest_bits b' = rest /\ pstate_ok p' /\
    use_pred h p' = repeat None (Z.to_nat (h_coef h)).
Proof.
  intros h nd dirs p b rest Hs Hnd Hp W Eb.
  assert (E : runA (hoa_pred h nd dirs p) (false :: rest) = Done (mkHp 0 (p_active p) (p_ids p) (p_gains p), rest)).
  { unfold hoa_pred. rewrite Hs. destruct (Z.ltb_spec 0 nd); [|lia]. change (1 =? 1) with true. cbn [andb]. rewrite rb1. reflexivity. }
  pose proof (exec_refines (hoa_pred h nd dirs p) b W) as A. rewrite Eb, E in A.
  destruct A as (b' & E' & W' & R'). eexists. exists b'. split; [exact E'|]. split; [exact W'|]. split; [exact R'|]. split; [exact Hp|]. reflexivity.
Qed.
Print Assumptions C123_off_partial.

Definition hp0 : hpred := mkHp 0 (repeat 0 49) (repeat 0 512) (repeat 0 512).
Lemma hp0_ok : pstate_ok hp0.
Proof. repeat split. Qed.
(** Two directional signals, in channels 1 and 3. *)
Definition dirs2 : list Z := [1; 3] ++ repeat 0 47.
Definition PF : pred := [None; Some [(2, 300); (1, 7)]; Some [(1, 5); (0, 0)]; None].
Definition PN : pred := [None; None; Some [(2, 9); (0, 0)]; None].

(** The hypotheses are met by order 1: two of the four coefficients named by flags, or one by its number. *)
Example C123_case : (exists sc', exec (fill_config (hoa_in 3)) (fresh (pack (conf1_bits ++ repeat false 16))) = Done (Ok conf1, sc')) /\
  h_single conf1 = 1 /\ length dirs2 = 49%nat /\ (forall k, 1 <= k <= 2 -> 0 < nth (Z.to_nat (k - 1)) dirs2 0) /\ pstate_ok hp0 /\
  pred_ok conf1 2 false PF /\ pred_ok conf1 2 true PN /\ used_first PF /\ used_first PN /\
  pred_wanted dirs2 PF = [None; Some [(3, 300); (1, 7)]; Some [(1, 5); (0, 0)]; None].
Proof.
  split; [exact conf1_accepted|]. split; [vm_compute; reflexivity|]. split; [reflexivity|]. split.
  { intros k Hk. assert (K : k = 1 \/ k = 2) by lia. destruct K; subst; reflexivity. }
  split; [exact hp0_ok|].
  unfold pred_ok. change (h_coef conf1) with 4. change (h_pds conf1) with 2. change (h_bps conf1) with 9. change (h_napb conf1) with 0.
  split; [|split; [|split; [|split; [|reflexivity]]]].
  - split; [reflexivity|]. split.
    + intros l Hl. destruct Hl as [X|[X|[X|[X|[]]]]]; try discriminate X; injection X as <-; reflexivity.
    + split; [discriminate|]. intros k g Hg. destruct Hg as [X|[X|[X|[X|[]]]]]; injection X as <- <-; cbn; lia.
  - split; [reflexivity|]. split.
    + intros l Hl. destruct Hl as [X|[X|[X|[X|[]]]]]; try discriminate X; injection X as <-; reflexivity.
    + split; [cbn; lia|]. intros k g Hg. destruct Hg as [X|[X|[]]]; injection X as <- <-; cbn; lia.
  - exists [(2, 300); (1, 7); (1, 5)], [(0, 0)]. split; [reflexivity|]. split; intros e He.
    + destruct He as [<-|[<-|[<-|[]]]]; discriminate.
    + destruct He as [<-|[]]; reflexivity.
  - exists [(2, 9)], [(0, 0)]. split; [reflexivity|]. split; intros e He.
    + destruct He as [<-|[]]; discriminate.
    + destruct He as [<-|[]]; reflexivity.
Qed.

(** C123 refuted when an unused entry comes before a used one: with one used entry for each of two
    coefficients the second gain is not read, the decoder predicts with an old one, and what
    follows in the frame is read from the wrong place. *)
Definition PG : pred := [Some [(1, 5); (0, 0)]; Some [(2, 6); (0, 0)]; None; None].
Theorem C123_gain_lost_refuted : exists h0 h sc sc' nd dirs P p b p' b' rest,
  wf sc /\ exec (fill_config h0) sc = Done (Ok h, sc') /\ h_single h = 1 /\ pstate_ok p /\ pred_ok h nd false P /\
  wf b /\ rest_bits b = pred_bits h nd false P ++ rest /\ exec (hoa_pred h nd dirs p) b = Done (p', b') /\
  length (rest_bits b') <> length rest /\
  pred_wanted dirs P = [Some [(1, 5); (0, 0)]; Some [(3, 6); (0, 0)]; None; None] /\
  use_pred h p' = [Some [(1, 5); (0, 0)]; Some [(3, 0); (0, 0)]; None; None].
Proof.
  destruct conf1_accepted as (sc' & E).
  exists (hoa_in 3), conf1, (fresh (pack (conf1_bits ++ repeat false 16))), sc', 2, dirs2, PG, hp0, (fresh (pack (pred_bits conf1 2 false PG ++ repeat false 16))).
  do 2 eexists. exists (repeat false 16 ++ repeat false ((8 - length (pred_bits conf1 2 false PG ++ repeat false 16) mod 8) mod 8)).
  split; [apply wf_pack|]. split; [exact E|]. split; [vm_compute; reflexivity|]. split; [exact hp0_ok|]. split.
  { unfold pred_ok. change (h_coef conf1) with 4. change (h_pds conf1) with 2. change (h_bps conf1) with 9.
    split; [reflexivity|]. split.
    - intros l Hl. destruct Hl as [X|[X|[X|[X|[]]]]]; try discriminate X; injection X as <-; reflexivity.
    - split; [discriminate|]. intros k g Hg. destruct Hg as [X|[X|[X|[X|[]]]]]; injection X as <- <-; cbn; lia. }
  split; [apply wf_pack|]. split; [vm_compute; reflexivity|]. split; [vm_compute; reflexivity|]. split; [vm_compute; discriminate|].
  split; reflexivity.
Qed.
Print Assumptions C123_gain_lost_refuted.

(** C123 refuted for a frame without directional signals: nothing is sent about prediction, and
    the decoder goes on predicting as in the frame before. *)
Theorem C123_stale_refuted : exists h0 h sc sc' dirs P p b p' b' p'' b'',
  wf sc /\ exec (fill_config h0) sc = Done (Ok h, sc') /\ pstate_ok p /\ wf b /\
  (exists rest, rest_bits b = pred_bits h 2 true P ++ rest) /\ exec (hoa_pred h 2 dirs p) b = Done (p', b') /\
  exec (hoa_pred h 0 dirs p') b' = Done (p'', b'') /\ rest_bits b'' = rest_bits b' /\
  use_pred h p'' = [None; None; Some [(3, 9); (0, 0)]; None].
Proof.
  destruct conf1_accepted as (sc' & E).
  exists (hoa_in 3), conf1, (fresh (pack (conf1_bits ++ repeat false 16))), sc', dirs2, PN, hp0, (fresh (pack (pred_bits conf1 2 true PN ++ repeat false 16))).
  do 4 eexists. split; [apply wf_pack|]. split; [exact E|]. split; [exact hp0_ok|]. split; [apply wf_pack|]. split.
  { exists (repeat false 16 ++ repeat false ((8 - length (pred_bits conf1 2 true PN ++ repeat false 16) mod 8) mod 8)). vm_compute. reflexivity. }
  split; [vm_compute; reflexivity|]. split; [vm_compute; reflexivity|]. split; reflexivity.
Qed.
Print Assumptions C123_stale_refuted.

(** Memory safety of this part is refuted: at order 6 the number of a coefficient has 6 bits, and
    a number above 48 is written past the end of the array of 49 flags. *)
Theorem C123_memory_refuted : exists h0 h sc sc' nd dirs p b,
  wf sc /\ exec (fill_config h0) sc = Done (Ok h, sc') /\ h_single h = 1 /\ pstate_ok p /\ wf b /\
  exec (hoa_pred h nd dirs p) b = UB UOob.
Proof.
  exists (hoa_in 2), (conf6 2), (fresh (pack (conf6_bits ++ repeat false 16))). eexists.
  exists 1, dirs2, hp0, (fresh (pack ([true; true] ++ bits_of 3 0 ++ bits_of 6 49 ++ repeat false 16))).
  split; [apply wf_pack|]. split; [vm_compute; reflexivity|]. split; [vm_compute; reflexivity|]. split; [exact hp0_ok|]. split; [apply wf_pack|].
  vm_compute. reflexivity.
Qed.
Print Assumptions C123_memory_refuted.
