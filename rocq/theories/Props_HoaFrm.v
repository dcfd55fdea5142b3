(** * Props_HoaFrm: the side information of HOA frames (C121, C122) *)

From Coq Require Import ZArith List Lia Bool.
From Verif Require Import Bits BitBuf Prog Wp Frame Asi Hoa Lem_Hoa Lem_ConfigProps HoaFrm Spec_HoaFrm Lem_HoaFrm.
Import ListNotations.
Open Scope Z_scope.

(** C121 (without the contents of the vectors): for every configuration the decoder accepts and
    every state it may be in, the channel roles and gains of a legal frame are read back, with
    the lists of vector and directional signals and the marks for changing vectors and
    coefficients; nothing behind them is consumed. *)
Theorem C121_side_partial : forall h0 h sc sc' s ind cs rs b rest,
  0 <= h_ntc h0 <= 49 -> wf sc -> exec (fill_config h0) sc = Done (Ok h, sc') ->
  state_ok s -> frame_ok h ind s cs rs -> (forall c, In c cs -> low48 h (c_role c)) ->
  wf b -> rest_bits b = frame_bits h ind cs rs ++ rest ->
  exists s' b', exec (hoa_side h s) b = Done (Ok (Z.b2z ind, s'), b') /\ wf b' /\ rest_bits b' = rest /\
    state_ok s' /\ frame_held h ind s cs rs s'.
Proof.
  intros h0 h sc sc' s ind cs rs b rest Hn Wc Ec Hs Hf Hl W Eb.
  pose proof (accepted_conf h0 h Hn (fill_config_exec h0 sc h sc' (proj1 Hn) Wc Ec)) as Hc.
  destruct (side_run h ind s cs rs rest Hc Hs Hf Hl) as (s' & E & Hs' & Hh).
  pose proof (exec_refines (hoa_side h s) b W) as A. rewrite Eb, E in A.
  destruct A as (b' & E' & W' & R'). exists s', b'. auto.
Qed.
Print Assumptions C121_side_partial.

Lemma wf_pack l : wf (fresh (pack l)).
Proof.
  apply wf_fresh. unfold pack. apply Forall_forall. intros x Hx. apply in_map_iff in Hx. destruct Hx as (i & <- & _).
  unfold is_byte. pose proof (val_of_range (firstn 8 (skipn (8 * i) l ++ repeat false 8))) as B.
  assert (length (firstn 8 (skipn (8 * i) l ++ repeat false 8)) <= 8)%nat by (rewrite firstn_length; lia).
  assert (2 ^ Z.of_nat (length (firstn 8 (skipn (8 * i) l ++ repeat false 8))) <= 2 ^ 8) by (apply Z.pow_le_mono_r; lia).
  change (2 ^ 8) with 256 in *. lia.
Qed.

(** An accepted configuration of order 6 with shortened vectors, [n] transport channels. *)
Definition conf6 (n : Z) : hoac := 
  match runA (fill_config (hoa_in n))
    (bits_of 3 6 ++ [false; false] ++ bits_of 3 1 ++ [true] ++ bits_of 3 0 ++ [false] ++ bits_of 2 1 ++ bits_of 3 0 ++
     bits_of 2 0 ++ bits_of 3 6 ++ bits_of 3 2 ++ bits_of 2 2 ++ bits_of 4 8 ++ bits_of 2 0 ++ bits_of 2 0)
  with Done (Ok h, _) => h | _ => hoa_in n end.
Definition conf6_bits : list bool :=
    (bits_of 3 6 ++ [false; false] ++ bits_of 3 1 ++ [true] ++ bits_of 3 0 ++ [false] ++ bits_of 2 1 ++ bits_of 3 0 ++
     bits_of 2 0 ++ bits_of 3 6 ++ bits_of 3 2 ++ bits_of 2 2 ++ bits_of 4 8 ++ bits_of 2 0 ++ bits_of 2 0).
Definition q0 := mkQ 0 0 0 0 0.
Definition hfs0 : hfs := mkHf (repeat (mkHc 0 0 0 q0 0 0 0 0) 49) (repeat 0 49) (repeat q0 49) (repeat 0 49) (repeat 0 49) (repeat 0 50) [] [].
Definition chans3 := [mkChan (RDir 5) (-7) 3 true; mkChan (RVec true (Some (MBook 2 3))) 0 1 false; mkChan (RAmb 1 7) (-2) 65 false].

Example C121_case : (exists sc', exec (fill_config (hoa_in 4)) (fresh (pack (conf6_bits ++ repeat false 16))) = Done (Ok (conf6 4), sc')) /\
  state_ok hfs0 /\ frame_ok (conf6 4) true hfs0 chans3 [mkChan RNone 0 80 true] /\
  (forall c, In c chans3 -> low48 (conf6 4) (c_role c)).
Proof.
  split; [|split; [|split]].
  - eexists. vm_compute. reflexivity.
  - repeat split.
  - split; [reflexivity|]. split; [reflexivity|]. split.
    + intros [|[|[|[|i]]]] c o E1 E2; try discriminate E1; injection E1 as <-; unfold amp_ok; cbn [c_role c_amp c_gain role_legal mode_ok];
        change (h_nvv (conf6 4)) with 2; change (h_gcb (conf6 4)) with 3; change (amp_off (conf6 4)) with 7;
        change (h_minco (conf6 4)) with 1; change (h_maxadd (conf6 4)) with 48; cbn; lia.
    + intros c [<-|[]]. unfold amp_ok. cbn [c_amp c_gain]. change (h_gcb (conf6 4)) with 3. change (amp_off (conf6 4)) with 7. cbn. lia.
  - intros c [<-|[<-|[<-|[]]]]; cbn; lia.
Qed.

(** C121 is false for the last coefficient of order 6: a legal frame that lets coefficient 49
    fade in makes the decoder write outside of its table. *)
Theorem C121_last_coefficient_refuted : exists h0 h sc sc' s cs rs b,
  0 <= h_ntc h0 <= 49 /\ wf sc /\ exec (fill_config h0) sc = Done (Ok h, sc') /\
  state_ok s /\ frame_ok h true s cs rs /\ wf b /\ (exists rest, rest_bits b = frame_bits h true cs rs ++ rest) /\
  exec (hoa_side h s) b = UB UOob.
Proof.
  exists (hoa_in 2), (conf6 2), (fresh (pack (conf6_bits ++ repeat false 16))). eexists.
  exists hfs0, [mkChan (RAmb 1 49) 0 1 false], [mkChan RNone 0 1 false],
    (fresh (pack (frame_bits (conf6 2) true [mkChan (RAmb 1 49) 0 1 false] [mkChan RNone 0 1 false] ++ repeat false 16))).
  split; [cbn; lia|]. split; [apply wf_pack|]. split; [vm_compute; reflexivity|]. split; [repeat split|]. split; [|split; [apply wf_pack|split]].
  - split; [reflexivity|]. split; [reflexivity|]. split.
    + intros [|[|i]] c o E1 E2; try discriminate E1; injection E1 as <-. unfold amp_ok. cbn [c_role c_amp c_gain role_legal].
      change (h_gcb (conf6 2)) with 3. change (amp_off (conf6 2)) with 7. change (h_minco (conf6 2)) with 1. change (h_maxadd (conf6 2)) with 48. cbn. lia.
    + intros c [<-|[]]. unfold amp_ok. cbn [c_amp c_gain]. change (h_gcb (conf6 2)) with 3. change (amp_off (conf6 2)) with 7. cbn. lia.
  - eexists. vm_compute. reflexivity.
  - vm_compute. reflexivity.
Qed.
Print Assumptions C121_last_coefficient_refuted.
