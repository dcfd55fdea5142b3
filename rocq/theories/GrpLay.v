(** * GrpLay: the loudspeakers at the input of the format converter

    Models the loop over the signal groups of impeghd_format_conv_init,
    /repo/decoder/ia_core_coder_decode_main.c:566-598, and the default of the group info,
    ia_core_coder_headerdecode.c:108-115.  The reading of the groups is Config.signals. *)

From Coq Require Import ZArith List Bool.
From Verif Require Import BitBuf Cicp Config.
Import ListNotations.
Open Scope Z_scope.

(** headerdecode.c:108-115 (the priorities, 112, are left out). *)
Definition group_default (g : sigs) : sigs :=
  if negb (q_info g =? 1)
  then s_q_fixed g (repeat 1 (Z.to_nat (q_num g)) ++ skipn (Z.to_nat (q_num g)) (q_fixed g))
  else g.

(** The copy of 592-596: impgehd_cicp_get_num_ls names of ia_cicp_idx_ls_set_map_tbl after the
    [length acc] that are there; format_in_chan has FC_MAX_CHANNELS * MAX_NUM_SIGNALGROUPS =
    24 * 16 entries (ia_core_coder_struct_def.h:112, ia_core_coder_config.h:53; 24 * 28 when
    built for level 4). *)
Definition add_names (acc : list Z) (cicp : Z) : outcome (list Z) :=
  match nth_error num_ls_tbl (Z.to_nat cicp), nth_error ls_set_tbl (Z.to_nat cicp) with
  | Some n, Some l =>
      if (Z.of_nat (length l) <? n) || (384 <? Z.of_nat (length acc) + n) then UB UOob
      else Done (acc ++ firstn (Z.to_nat n) l)
  | _, _ => UB UOob
  end.

(** 567-598: [ref] is the cicp_spk_layout_idx of the reference layout. *)
Fixpoint inputs (k i : nat) (g : sigs) (ref : Z) (acc : list Z) : outcome (Z * list Z) :=
  match k with
  | O => Done (0, acc)
  | S k =>
    match nth_error (q_fixed g) i, nth_error (q_lay g) i, nth_error (q_differs g) i with
    | Some f, Some l, Some d =>
      if f =? 1 then
        if d =? 1 then
          match add_names acc (l_idx l) with Done acc => inputs k (S i) g ref acc | Jmp c => Jmp c | UB r => UB r end
        else if (ref =? 0) || (ref =? 8) || (20 <? ref) then Done (E_CICP_SPKR, acc)
        else match add_names acc ref with Done acc => inputs k (S i) g ref acc | Jmp c => Jmp c | UB r => UB r end
      else inputs k (S i) g ref acc
    | _, _, _ => UB UOob
    end
  end.
(** The whole of it, after a configuration was read. *)
Definition converter_inputs (u : ucfg) : outcome (Z * list Z) :=
  let g := group_default (u_sig u) in
  inputs (Z.to_nat (q_num g)) 0 g (l_idx (u_ref u)) [].
