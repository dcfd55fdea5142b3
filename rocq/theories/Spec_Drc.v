(** * Spec_Drc: what the DRC configuration theorems say *)

From Coq Require Import ZArith List Lia Bool.
From Verif Require Import Bits BitBuf Prog DrcCfg.
Import ListNotations.
Open Scope Z_scope.

(** ** Capacity: every count of an accepted configuration fits its table. *)
Definition set_within (g : gset) : Prop :=
  0 <= gs_count g <= 4 /\ gs_interp g = 1 /\ gs_tflag g = 0 /\
  (gs_prof g = 3 -> gs_count g = 1) /\
  (gs_prof g <> 3 -> Z.of_nat (length (gs_bands g)) = gs_count g /\
                     forall b, In b (gs_bands g) -> 0 <= fst b < 24).

Definition coef_within (c : coef) : Prop :=
  Z.of_nat (length (co_sets c)) <= 24 /\ forall g, In g (co_sets c) -> set_within g.

(** The instruction refers to an existing coefficient block and to existing gain sets in
    it, and its lists fit. *)
Definition instr_within (cs : list coef) (i : instr) : Prop :=
  0 <= in_set i < 32 /\
  (1 <= length (in_dmx i) <= 8)%nat /\
  (length (in_gsi i) <= 16)%nat /\
  (forall k, In k (in_gsi i) -> -1 <= k < 24) /\
  (length (in_sets i) <= 16)%nat /\
  (exists c, In c cs /\ co_loc c = in_loc i /\
     forall k, In k (in_sets i) -> 0 <= k < Z.of_nat (length (co_sets c))) /\
  length (in_der i) = length (in_sets i) /\
  (hd 0 (in_dmx i) <> 0 -> length (in_sets i) = 1%nat).

Definition within (c : drccfg) : Prop :=
  (length (dc_coefs c) <= 4)%nat /\
  (forall co, In co (dc_coefs c) -> coef_within co) /\
  (length (dc_instr c) + length (dc_off c) <= 32)%nat /\
  (forall i, In i (dc_instr c) -> instr_within (dc_coefs c) i).

(** ** Channel groups: the channels in use are partitioned by their key, groups are
    numbered in the order of their first channel, channels not in use have group -1. *)
Definition partitioned {A B} (key : A -> B) (used : A -> Prop)
    (chs : list A) (groups : list B) (cg : list Z) : Prop :=
  NoDup groups /\
  length cg = length chs /\
  (forall ch x, nth_error chs ch = Some x -> ~ used x -> nth_error cg ch = Some (-1)) /\
  (forall ch x, nth_error chs ch = Some x -> used x ->
     exists g, nth_error cg ch = Some (Z.of_nat g) /\ nth_error groups g = Some (key x)) /\
  (forall g b, nth_error groups g = Some b ->
     exists ch x, nth_error chs ch = Some x /\ used x /\ key x = b /\
       nth_error cg ch = Some (Z.of_nat g) /\
       forall ch' h, nth_error cg ch' = Some (Z.of_nat h) -> (g < h)%nat -> (ch < ch')%nat).

(** The number of channels an instruction block describes: all channels of the base layout
    for ducking and for sets applied before downmix, the channels of the target layout for
    a set applied after one particular downmix, otherwise one value for all channels. *)
Definition spec_channels (dmxs : list (Z * Z)) (base : Z) (i : instr) : option Z :=
  if Z.testbit (in_effect i) 10 || Z.testbit (in_effect i) 11 then Some base
  else match in_dmx i with
       | [d] => if d =? 0 then Some base
                else if d =? 127 then Some 1
                else option_map snd (find (fun x => fst x =? d) dmxs)
       | _ => Some 1
       end.

(** The channel groups of an instruction block, by effect: *)
Definition groups_right (i : instr) : Prop :=
  let duck_other := Z.testbit (in_effect i) 10 in
  let duck_self := Z.testbit (in_effect i) 11 in
  (* no ducking: channels with the same gain set form a group *)
  (duck_other = false -> duck_self = false ->
     match in_dmx i with
     | [d] => d <> 127 ->
         partitioned (fun k => k) (fun k => 0 <= k) (in_gsi i) (in_sets i) (in_cg i)
     | _ => in_sets i = filter (Z.leb 0) (in_gsi i)
     end) /\
  (* self ducking: channels with the same gain set and the same scaling form a group *)
  (duck_other = false -> duck_self = true ->
     partitioned (fun x => x) (fun x => 0 <= fst x) (combine (in_gsi i) (in_duck i))
                 (combine (in_sets i) (in_scal i)) (in_cg i) /\
     length (in_sets i) = length (in_scal i) /\ length (in_duck i) = length (in_gsi i)) /\
  (* ducking others: the channels without gain set are ducked, grouped by scaling, all by
     the gain set of one of the other channels; the others have the same one, or 0 *)
  (duck_other = true -> duck_self = false ->
     partitioned (fun x => snd x) (fun x => fst x < 0) (combine (in_gsi i) (in_duck i))
                 (in_scal i) (in_cg i) /\
     length (in_duck i) = length (in_gsi i) /\
     exists k, In k (in_gsi i) /\ 0 <= k /\ in_sets i = map (fun _ => k) (in_scal i) /\
       forall j, In j (in_gsi i) -> 0 <= j -> j = k \/ j = 0) /\
  (* both: accepted only when no channel has a gain set *)
  (duck_other = true -> duck_self = true -> in_sets i = []).
