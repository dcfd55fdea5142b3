(** * Props_HoaGain: the gains of an HOA rendering matrix (C125) *)

From Coq Require Import ZArith List Lia Bool.
From Verif Require Import Bits BitBuf Prog BitWrite Escape Wp Frame Asi Cicp Hoa Spec_Config Lem_HoaMat Lem_ConfigProps Props_HoaFrm Props_Config Spec_HoaSym Lem_HoaSym Props_HoaSym Spec_HoaGain Lem_HoaGain.
Import ListNotations.
Open Scope Z_scope.

(** C125: for every order up to 6, every layout, every legal header, every choice of gains and signs
    the header allows, and whatever was held before, the decoder reads the whole matrix, stops right
    behind it, and holds for every coefficient and loudspeaker the gain and the sign that were sent,
    or those of the mirrored loudspeaker, or zero. *)
Theorem C125_matrix_gains : forall m k lay h E b rest,
  hm_ok m -> 1 <= k <= 7 -> 0 <= lay <= 20 -> head_legal k (layout_spk lay) h ->
  (forall i j, (i < Z.to_nat (k * k))%nat -> (j < length (layout_spk lay))%nat -> cell_ok (layout_spk lay) h E i j) ->
  wf b -> rest_bits b = head_bits k (layout_spk lay) h ++ gains_bits (layout_spk lay) h E k ++ rest ->
  exists m' b', exec (rendering_matrix m (k * k) (layout_spk lay)) b = Done (Ok m', b') /\ rest_bits b' = rest /\
    head_held k (layout_spk lay) h m' /\ gains_held k (layout_spk lay) h E m'.
Proof.
  intros m k lay h E b rest Hm Hk Hl Hh Hok W Eb. destruct (layout_pairs lay (hd_lfer h) Hl) as (P1 & P2 & P3).
  assert (EF := eq_trans (surjective_pairing (find_symmetric (layout_spk lay) (Z.b2z (hd_lfer h)))) (f_equal (pair _) P1)).
  destruct (ren_gain m k (layout_spk lay) _ h E rest Hm Hk Hh EF P2 P3 (layout_partner lay (hd_lfer h) Hl) Hok) as (m' & ER & HG).
  pose proof (exec_refines (rendering_matrix m (k * k) (layout_spk lay)) b W) as A. rewrite Eb, ER in A. cbn [agrees] in A.
  destruct A as (b' & A1 & A2 & A3). exists m', b'.
  destruct (ren_gen m k (layout_spk lay) _ h _ _ _ Hm Hk Hh EF P2 P3 ER) as (m2 & X & HH). injection X as <-.
  split; [exact A1|]. split; [first [exact A2|exact A3]|]. split; [exact HH|exact HG].
Qed.
Print Assumptions C125_matrix_gains.

(** Four loudspeakers in two pairs, order 1: the front pair shares its signs, the rear pair its
    values; the second coefficient (degree -1) changes its sign from left to right. *)
Definition gains2 : choice := fun i j =>
  match i, j with
  | 0%nat, 0%nat => Some (4, true) | 0%nat, 1%nat => Some (7, true) | 0%nat, 3%nat => Some (21, true)
  | 1%nat, 0%nat => Some (0, true) | 1%nat, 1%nat => Some (5, false) | 1%nat, 3%nat => Some (115, true)
  | 2%nat, 1%nat => Some (9, true) | 3%nat, 3%nat => Some (2, false)
  | _, _ => None
  end.
Definition mat2 (o : outcome (res hmat * rbuf)) :=
  match o with Done (Ok m, b) => Some (firstn 16 (m_mat m), firstn 16 (m_sgn m), length (rest_bits b)) | _ => None end.
Example C125_case : (forall i j, (i < 4)%nat -> (j < 4)%nat -> cell_ok (layout_spk 10) head2 gains2 i j) /\
  mat2 (exec (rendering_matrix hmat_zero 4 (layout_spk 10))
    (fresh (pack (head_bits 2 (layout_spk 10) head2 ++ gains_bits (layout_spk 10) head2 gains2 2 ++ repeat false 8)))) =
    Some ([GdB (-4) 1; GdB (-7) 1; GZ; GZ; GdB (-6) 1; GdB (-11) 1; GZ; GZ; GZ; GdB (-15) 1; GZ; GZ; GZ; GZ; GdB (-8) 1; GdB (-8) 1],
      [1; 1; 1; 1; 1; -1; -1; 1; 1; 1; 1; 1; 1; 1; -1; -1], 9%nat).
Proof.
  split; [|vm_compute; reflexivity].
  intros i j Hi Hj. do 4 (destruct i as [|i]; [do 4 (destruct j as [|j]; [vm_compute; try reflexivity; try (intros _; split; discriminate); try discriminate|]); lia|]). lia.
Qed.
