(** * DrcCurve: from gain nodes to the gain of every sample
    Modelled: impd_drc_gain_dec.c (interpolation for linear curves, advancing the buffer,
    joining the segments, the loop over channel groups and bands), the initialisation of the
    buffers in impd_drc_init.c and the choice of the gain in impd_drc_apply_gains_and_add of
    impd_drc_process.c.  Not modelled: the conversion of a gain in dB into a factor
    (impd_drc_conv_gain_db_to_linear_domain), which stays symbolic, the filter banks and the
    frequency domain variant. *)
From Coq Require Import ZArith List Lia Bool.
From Verif Require Import Bits BitBuf Prog Asi Loud DrcCfg DrcGain.
Import ListNotations.
Open Scope Z_scope.

(** The content of one float of lpcm_gains, as the expression it was computed from: the
    initial 1.0; the factor of a gain in dB; the value between two of them, [k] samples
    after the first, [d] samples apart (impd_drc_gain_dec.c:289-298). *)
Inductive cell := Unit | Lin (g : Z) | Mix (g1 g2 k d : Z).

(** ia_drc_interp_buf_struct, impd_drc_gain_dec.h:41-47: last node, node before (gain,
    time), lpcm_gains.  Slopes are 0 with linear interpolation. *)
Record cbuf := mkCB { cb_node : Z * Z; cb_prev : Z * Z; cb_buf : list cell }.

(** A write into lpcm_gains. *)
Definition cput (l : list cell) (i : Z) (c : cell) : outcome (list cell) :=
  if (0 <=? i) && (i <? Z.of_nat (length l)) then Done (firstn (Z.to_nat i) l ++ c :: skipn (S (Z.to_nat i)) l)
  else UB UOob.

Definition obind {A B} (x : outcome A) (f : A -> outcome B) : outcome B :=
  match x with Done a => f a | Jmp c => Jmp c | UB r => UB r end.

(** The loop of the linear branch, 294-298, from sample [k] on. *)
Fixpoint fill (n : nat) (base k g1 g2 d : Z) (l : list cell) : outcome (list cell) :=
  match n with
  | O => Done l
  | S n => obind (cput l (base + k) (Mix g1 g2 k d)) (fill n base (k + 1) g1 g2 d)
  end.

(** impd_drc_interpolate_drc_gain, 158-300, linear branch 289-298.  [base] is the index of
    interp_out[0]. *)
Definition interpolate (base g1 g2 d : Z) (l : list cell) : outcome (Z * list cell) :=
  if d <=? 0 then Done (E_DRC_UNEXPECTED, l) else
  obind (cput l base (Lin g1)) (fun l =>
  obind (cput l (base + d) (Lin g2)) (fun l =>
  obind (fill (Z.to_nat (d - 1)) base 1 g1 g2 d l) (fun l => Done (0, l)))).

(** impd_drc_advance_buf for one buffer, 316-326: memmove of frame_size + MAX_SIGNAL_DELAY
    floats. *)
Definition advance (F D : Z) (b : cbuf) : cbuf :=
  mkCB (cb_node b) (fst (cb_node b), snd (cb_node b) - F)
    (firstn (Z.to_nat (F + D)) (skipn (Z.to_nat F) (cb_buf b)) ++ skipn (Z.to_nat (F + D)) (cb_buf b)).

(** The loop of impd_drc_concatenate_segments, 354-373, over nodes (gain, time); [pg], [pt]
    are prev_gain_db and time_prev, [lg] is loc_gain_db. *)
Fixpoint segments (F D : Z) (ns : list (Z * Z)) (lg pg pt : Z) (l : list cell) : outcome (Z * (Z * Z) * list cell) :=
  match ns with
  | [] => Done (0, (lg, pt), l)
  | (g, t) :: r =>
    obind (interpolate (D + F + pt) pg g (t - pt) l) (fun x =>
    let '(e, l) := x in
    if negb (e =? 0) then Done (e, (g, pt), l) else segments F D r g g t l)
  end.

(** The nodes of a band; no_of_nodes is at most 32 there. *)
Definition node_list (nd : nodes) : list (Z * Z) :=
  combine (firstn (Z.to_nat (nd_n nd)) (nd_g nd)) (firstn (Z.to_nat (nd_n nd)) (nd_t nd)).

(** impd_drc_concatenate_segments, 340-380: str_node is set only on success. *)
Definition concatenate (F D : Z) (nd : nodes) (b : cbuf) : outcome (Z * cbuf) :=
  obind (segments F D (node_list nd) 0 (fst (cb_prev b)) (snd (cb_prev b)) (cb_buf b)) (fun x =>
  let '(e, n, l) := x in
  if negb (e =? 0) then Done (e, mkCB (cb_node b) (cb_prev b) l) else Done (0, mkCB n (cb_prev b) l)).

(** An array element of a structure. *)
Definition oget {A} (l : list A) (i : Z) : outcome A :=
  if i <? 0 then UB UOob else match nth_error l (Z.to_nat i) with Some a => Done a | None => UB UOob end.
Definition oset {A} (l : list A) (i : Z) (a : A) : list A := firstn (Z.to_nat i) l ++ a :: skipn (S (Z.to_nat i)) l.

(** The inner loop of impd_drc_get_gain, 466-477, from band [band] on; [idx] is
    gain_element_idx. *)
Fixpoint bands_loop (F D : Z) (st : list gseq) (gs : Z) (n : nat) (band idx : Z) (els : list cbuf)
  : outcome (Z * Z * list cbuf) :=
  match n with
  | O => Done (0, idx, els)
  | S n =>
    obind (oget st gs) (fun sq =>
    obind (oget (sq_nodes sq) band) (fun nd =>
    obind (oget els idx) (fun b =>
    obind (concatenate F D nd b) (fun x =>
    let '(e, b) := x in
    let els := oset els idx b in
    if negb (e =? 0) then Done (e, idx, els) else bands_loop F D st gs n (band + 1) (idx + 1) els))))
  end.

(** The outer loop, 451-478, over channel groups (gain set, number of bands). *)
Fixpoint groups_loop (F D : Z) (st : list gseq) (grps : list (Z * Z)) (idx : Z) (els : list cbuf)
  : outcome (Z * list cbuf) :=
  match grps with
  | [] => Done (0, els)
  | (gs, n) :: r =>
    obind (bands_loop F D st gs (Z.to_nat n) 0 idx els) (fun x =>
    let '(e, idx, els) := x in
    if negb (e =? 0) then Done (e, els) else groups_loop F D st r idx els)
  end.

(** impd_drc_get_gain, 395-482, for a selected DRC set: all buffers advance, then the
    segments are joined. *)
Definition get_gain (F D : Z) (grps : list (Z * Z)) (st : list gseq) (els : list cbuf) : outcome (Z * list cbuf) :=
  groups_loop F D st grps 0 (map (advance F D) els).

(** The buffers after impd_drc_init_decode_post_config, impd_drc_init.c:684-710;
    prev_node.loc_gain_db is not set there and not used before it is written. *)
Definition fresh_el (F D : Z) : cbuf := mkCB (0, 0) (0, -1) (repeat Unit (Z.to_nat (2 * F + D))).

(** gain_idx_grp of impd_drc_apply_gains_and_add, impd_drc_process.c:101-108. *)
Fixpoint gain_idx (grps : list (Z * Z)) (g : nat) : Z :=
  match g, grps with
  | S g, (_, n) :: r => n + gain_idx r g
  | _, _ => 0
  end.

(** The gain sample [i] of the frame is multiplied with, for a channel of group [g] and its
    band [b], impd_drc_process.c:131-180; [gd] is gain_delay_samples, [low] delay_mode. *)
Definition applied (F D gd : Z) (low : bool) (grps : list (Z * Z)) (els : list cbuf) (g b : nat) (i : Z) : outcome cell :=
  obind (oget els (gain_idx grps g + Z.of_nat b)) (fun el =>
  oget (cb_buf el) (D - gd + (if low then F else 0) + i)).
