(** * Props_HoaSym: the settings of an HOA rendering matrix (C124) *)

From Coq Require Import ZArith List Lia Bool.
From Verif Require Import Bits BitBuf Prog BitWrite Escape Wp Frame Asi Cicp Hoa Spec_Config Lem_HoaMat Lem_ConfigProps Props_HoaFrm Props_Config Spec_HoaSym Lem_HoaSym.
Import ListNotations.
Open Scope Z_scope.

(** C124: for every order up to 6, every layout, every legal header and whatever was held before,
    a matrix whose bits begin with that header is never refused: unless the input ends too early
    the decoder holds the settings that were sent, and for every loudspeaker the symmetry of its pair. *)
Theorem C124_matrix_head : forall m k lay h b tail,
  hm_ok m -> 1 <= k <= 7 -> 0 <= lay <= 20 -> head_legal k (layout_spk lay) h ->
  wf b -> rest_bits b = head_bits k (layout_spk lay) h ++ tail ->
  match exec (rendering_matrix m (k * k) (layout_spk lay)) b with
  | Done (r, _) => exists m', r = Ok m' /\ head_held k (layout_spk lay) h m'
  | Jmp _ => True
  | UB _ => False
  end.
Proof.
  intros m k lay h b tail Hm Hk Hl Hh W Eb. destruct (layout_pairs lay (hd_lfer h) Hl) as (P1 & P2 & P3).
  assert (S := wp_runA _ _ (wp_rendering_matrix m k (layout_spk lay) ltac:(lia) P2 Hm) (rest_bits b)).
  pose proof (exec_refines (rendering_matrix m (k * k) (layout_spk lay)) b W) as A. rewrite Eb in A, S.
  destruct (runA (rendering_matrix m (k * k) (layout_spk lay)) (head_bits k (layout_spk lay) h ++ tail)) as [(r, l)|c|u] eqn:E; cbn [agrees] in A.
  - destruct A as (b' & -> & _ & _).
    exact (ren_gen m k (layout_spk lay) (fst (find_symmetric (layout_spk lay) (Z.b2z (hd_lfer h)))) h tail r l Hm Hk Hh
      (eq_trans (surjective_pairing _) (f_equal (pair _) P1)) P2 P3 E).
  - rewrite A. exact I.
  - contradiction.
Qed.
Print Assumptions C124_matrix_head.

(** Four loudspeakers in two pairs, order 1, limits for each order, flags for zero gains from order 1 on. *)
Definition head2 : mhead := mkHead 1 true (PerOrder [(0, -10); (-3, -60)]) (Some 1) false true ValuesAndSigns [SSign; SValue] true.
Definition held2 (o : outcome (res hmat * rbuf)) :=
  match o with Done (Ok m, _) => Some (m_prec m, firstn 2 (m_max m), firstn 2 (m_min m), firstn 4 (m_sparse m), firstn 4 (m_isv m), firstn 4 (m_iss m)) | _ => None end.
Example C124_case : hm_ok hmat_zero /\ head_legal 2 (layout_spk 10) head2 /\
  held2 (exec (rendering_matrix hmat_zero 4 (layout_spk 10)) (fresh (pack (head_bits 2 (layout_spk 10) head2 ++ repeat false 64)))) =
    Some (1, [0; -3], [-10; -60], [0; 1; 1; 1], [0; 0; 1; 0], [1; 0; 0; 0]).
Proof.
  split; [exact C60_case|]. split; [|vm_compute; reflexivity].
  unfold head_legal, head2. cbn [hd_prec hd_lim hd_dense hd_lfer hd_syms hd_how fits]. split; [lia|]. split.
  { split; [reflexivity|]. repeat constructor; cbn; lia. }
  split; [lia|]. split; [discriminate|]. split; [vm_compute; reflexivity|exact I].
Qed.
