(** * Properties of the dynamic range control configuration *)
From Coq Require Import ZArith List Lia Bool.
From Verif Require Import Bits BitBuf Prog Asi Leaf Loud DrcCfg Spec_Asi Spec_Drc Spec_DrcCfg Lem_DrcCfg Lem_DrcGrp Lem_DrcRTI.
Import ListNotations.
Open Scope Z_scope.

Definition cfg_of (o : outcome (res drccfg * rbuf)) : option drccfg :=
  match o with Done (Ok c, _) => Some c | _ => None end.

(** ** C44: the DRC configuration parser stays inside its tables *)

(** Every count and every reference of an accepted configuration is within the capacity of
    the table it is used with, for every bit stream, every list of downmixes and every
    default time resolution. *)
Theorem C44_config_accepted : forall dmxs tdef s c s', wf s ->
  exec (parse_config false dmxs tdef) s = Done (Ok c, s') -> within c.
Proof. intros dmxs tdef s c s' W H. exact (proj2 (config_accepted dmxs tdef s c s' W H)). Qed.
Print Assumptions C44_config_accepted.

(** Full statement: no stream makes the parser write outside a table.  False (below).  With
    the two missing tests added it is true of every stream, and the tests refuse only
    streams the real parser does not accept either. *)
Theorem C44_config_safe_partial : forall dmxs tdef s, wf s ->
  (forall r, exec (parse_config true dmxs tdef) s <> UB r) /\
  (exec (parse_config false dmxs tdef) s = exec (parse_config true dmxs tdef) s \/
   (exists s', exec (parse_config true dmxs tdef) s = Done (Er E_DRC_FIX, s')) /\
   (forall c s', exec (parse_config false dmxs tdef) s <> Done (Ok c, s'))).
Proof. exact config_safe. Qed.
Print Assumptions C44_config_safe_partial.

(** 25 gain sets: the 25th is written behind the table of 24. *)
Definition w_sets : list Z := [32; 1; 19; 60; 113; 199; 28; 113; 199; 28; 113; 199; 28; 113; 199; 28; 113; 199; 28; 113; 199; 28; 0; 0; 0].
(** 31 instruction blocks: the parser appends two blocks of its own, the second one behind
    the table of 32. *)
Definition w_instr : list Z := [47; 129; 16; 60; 1; 16; 0; 0; 16; 4; 1; 16; 0; 0; 16; 4; 1; 16; 0; 0; 16; 4; 1; 16; 0; 0; 16; 4; 1; 16; 0; 0; 16; 4; 1; 16; 0; 0; 16; 4; 1; 16; 0; 0; 16; 4; 1; 16; 0; 0; 16; 4; 1; 16; 0; 0; 16; 4; 1; 16; 0; 0; 16; 4; 1; 16; 0; 0; 16; 4; 1; 16; 0; 0; 16; 4; 1; 16; 0; 0; 16; 4; 1; 16; 0; 0; 16; 4; 1; 16; 0; 0; 16; 4; 1; 16; 0; 0; 16; 4; 1; 16; 0; 0; 16; 4; 1; 16; 0; 0; 16; 4; 1; 16; 0; 0; 16; 4; 1; 16; 0; 0; 16; 4; 1; 16; 0; 0; 16; 4; 1; 16; 0; 0; 16; 4; 1; 16; 0; 0; 16; 4; 1; 16; 0; 0; 16; 4; 1; 16; 0; 0; 16; 4; 1; 16; 0; 0; 16; 4; 1; 16; 0; 0; 16; 4; 1; 16; 0; 0; 16; 4; 1; 16; 0; 0; 16; 4; 1; 16; 0; 0; 16; 4; 1; 16; 0; 0; 16; 4; 0; 0; 0].
Theorem C44_gain_sets_refuted : are_bytes w_sets /\ forall tdef dmxs,
  exec (parse_config false dmxs tdef) (fresh w_sets) = UB UOob.
Proof. split; [repeat constructor; lia|]. intros; vm_compute; reflexivity. Qed.
Print Assumptions C44_gain_sets_refuted.
Theorem C44_instructions_refuted : are_bytes w_instr /\
  exec (parse_config false [] 32) (fresh w_instr) = UB UOob.
Proof. split; [repeat constructor; lia|]. vm_compute; reflexivity. Qed.
Print Assumptions C44_instructions_refuted.

(** One gain set and one instruction block less are accepted. *)
Definition w_sets_ok : list Z := [32; 1; 19; 28; 113; 199; 28; 113; 199; 28; 113; 199; 28; 113; 199; 28; 113; 199; 28; 113; 199; 0; 0; 0].
Definition w_instr_ok : list Z := [47; 1; 16; 60; 1; 16; 0; 0; 16; 4; 1; 16; 0; 0; 16; 4; 1; 16; 0; 0; 16; 4; 1; 16; 0; 0; 16; 4; 1; 16; 0; 0; 16; 4; 1; 16; 0; 0; 16; 4; 1; 16; 0; 0; 16; 4; 1; 16; 0; 0; 16; 4; 1; 16; 0; 0; 16; 4; 1; 16; 0; 0; 16; 4; 1; 16; 0; 0; 16; 4; 1; 16; 0; 0; 16; 4; 1; 16; 0; 0; 16; 4; 1; 16; 0; 0; 16; 4; 1; 16; 0; 0; 16; 4; 1; 16; 0; 0; 16; 4; 1; 16; 0; 0; 16; 4; 1; 16; 0; 0; 16; 4; 1; 16; 0; 0; 16; 4; 1; 16; 0; 0; 16; 4; 1; 16; 0; 0; 16; 4; 1; 16; 0; 0; 16; 4; 1; 16; 0; 0; 16; 4; 1; 16; 0; 0; 16; 4; 1; 16; 0; 0; 16; 4; 1; 16; 0; 0; 16; 4; 1; 16; 0; 0; 16; 4; 1; 16; 0; 0; 16; 4; 1; 16; 0; 0; 16; 4; 1; 16; 0; 0; 16; 4; 0; 0; 0].
Example C44_case :
  option_map (fun c => map (fun x => length (co_sets x)) (dc_coefs c))
    (cfg_of (exec (parse_config false [] 32) (fresh w_sets_ok))) = Some [24%nat] /\
  option_map (fun c => length (dc_instr c))
    (cfg_of (exec (parse_config false [] 32) (fresh w_instr_ok))) = Some 30%nat.
Proof. split; vm_compute; reflexivity. Qed.

(** ** C93: channels are grouped by the gain they are to receive *)

(** Full statement: in every accepted configuration each instruction block describes the
    right number of channels, and the channel groups are exactly the classes of channels
    with the same gain set (and scaling, with ducking).  Missing: when the block ducks
    other channels, only one gain set should be named; set 0 may be named beside it
    (below). *)
Theorem C93_groups_partial : forall dmxs tdef s c s',
  exec (parse_config false dmxs tdef) s = Done (Ok c, s') ->
  forall i, In i (dc_instr c) ->
    groups_right i /\ spec_channels dmxs (dc_base c) i = Some (Z.of_nat (length (in_gsi i))).
Proof. intros dmxs tdef s c s' H. exact (exec_leaf _ _ _ _ _ (parse_config_leaf false dmxs tdef) H). Qed.
Print Assumptions C93_groups_partial.

(** Five channels with gain sets 0, 2, 0, none, 2: two groups. *)
Definition w_groups : list Z := [32; 133; 16; 124; 113; 192; 17; 0; 0; 1; 0; 65; 129; 0; 12; 0; 0; 0].
Example C93_case : option_map (fun c => map (fun i => (in_gsi i, in_cg i, in_sets i)) (dc_instr c))
  (cfg_of (exec (parse_config false [] 32) (fresh w_groups))) =
  Some [([0; 2; 0; -1; 2], [0; 1; 0; -1; 1], [0; 2])].
Proof. vm_compute; reflexivity. Qed.

(** Ducking with two different gain sets is refused only when the first one met is not gain
    set 0: here the channels carry the sets 0 and 3, the block is accepted and set 3 is
    used; in the other order it is refused. *)
Definition w_duck : list Z := [32; 132; 16; 156; 113; 199; 0; 68; 0; 16; 0; 2; 8; 1; 160; 0; 0; 0].
Definition w_duck_swapped : list Z := [32; 132; 16; 156; 113; 199; 0; 68; 0; 16; 0; 8; 2; 1; 160; 0; 0; 0].
Theorem C93_ducking_refuted :
  option_map (fun c => map (fun i => (in_effect i, in_gsi i, in_sets i)) (dc_instr c))
    (cfg_of (exec (parse_config false [] 32) (fresh w_duck))) =
    Some [(0x400, [0; 3; -1; -1], [3; 3])] /\
  exists s', exec (parse_config false [] 32) (fresh w_duck_swapped) = Done (Er E_DRC_DUCKING, s').
Proof. split; [vm_compute; reflexivity|]. eexists. vm_compute; reflexivity. Qed.
Print Assumptions C93_ducking_refuted.

(** ** C94: the configuration is understood as it was meant *)

(** Full statement: every valid configuration is stored as written.  True when the band
    borders are below 128; configurations with several coefficient blocks for one location
    are left out (false, below). *)
Theorem C94_config_partial : forall dmxs tdef m, valid_cfg dmxs m -> narrow_cfg m ->
  forall s rest, wf s -> rest_bits s = enc_cfg m ++ rest ->
  exists c s', exec (parse_config false dmxs tdef) s = Done (Ok c, s') /\ rest_bits s' = rest /\
    stored_cfg (fun b => b) tdef m c.
Proof.
  intros dmxs tdef m V N s rest W R. destruct (config_exec dmxs tdef m V s rest W R) as (c & s' & E & R' & S).
  exists c, s'. split; [exact E|]. split; [exact R'|]. exact (narrow_stored tdef m c dmxs V N S).
Qed.
Print Assumptions C94_config_partial.

(** Other borders lose their high bits, without an error. *)
Theorem C94_borders_refuted : forall dmxs tdef m, valid_cfg dmxs m ->
  forall s rest, wf s -> rest_bits s = enc_cfg m ++ rest ->
  exists c s', exec (parse_config false dmxs tdef) s = Done (Ok c, s') /\ rest_bits s' = rest /\
    stored_cfg (fun b => (b + 128) mod 256 - 128) tdef m c.
Proof. exact config_exec. Qed.
Print Assumptions C94_borders_refuted.

Definition ex_sets : list m_set :=
  [{| ms_prof := 1; ms_full := true; ms_align := false; ms_chars := [5; 9]; ms_xover := false; ms_borders := [100] |};
   {| ms_prof := 3; ms_full := false; ms_align := true; ms_chars := []; ms_xover := false; ms_borders := [] |}].
Definition ex_plain : m_instr := {| mi_scope := OfGroup 17; mi_set := 3; mi_loc := 1; mi_dmx := [0]; mi_effect := 5;
  mi_lim := Some 40; mi_range := Some (-20, Some (-31)); mi_dep := None; mi_noind := true;
  mi_body := Plain [(Some 1, Some 0); (None, None); (Some 0, None)]
    [{| mm_scale := Some (3, 12); mm_off := Some (true, 7) |}; {| mm_scale := None; mm_off := None |}] |}.
Definition ex_duck : m_instr := {| mi_scope := EverySet; mi_set := 4; mi_loc := 1; mi_dmx := [0]; mi_effect := 0x400;
  mi_lim := None; mi_range := None; mi_dep := None; mi_noind := false;
  mi_body := Duck [((Some 1, None), None); ((None, Some (true, 2)), Some 1)] |}.
Definition ex_cfg : m_cfg := {| mf_base := 4; mf_coefs := [{| mc_loc := 1; mc_sets := ex_sets |}];
  mf_instr := [ex_plain; ex_duck]; mf_ext := Some (2, 0, [true; false; true]) |}.
Ltac fitsall := repeat (split || constructor); cbn; unfold fits; cbn; try lia; auto.
Example C94_case : valid_cfg [] ex_cfg /\ narrow_cfg ex_cfg /\ length (enc_cfg ex_cfg) = 264%nat.
Proof.
  split; [|split; [unfold narrow_cfg, narrow_set; cbn; repeat constructor|reflexivity]].
  unfold valid_cfg. cbn [ex_cfg mf_base mf_coefs mf_instr mf_ext length].
  split; [lia|]. split; [lia|]. split; [lia|].
  split; [fitsall|]. split; [repeat constructor; cbn; intuition lia|]. split; [|fitsall].
  constructor; [|constructor; [|constructor]].
  - unfold valid_instr, ex_plain. cbn [mi_scope mi_set mi_loc mi_dmx mi_effect mi_lim mi_range mi_dep mi_noind mi_body].
    do 10 (split; [fitsall; discriminate|]).
    exists {| mc_loc := 1; mc_sets := ex_sets |}. split; [left; reflexivity|]. split; [reflexivity|].
    split; [reflexivity|]. split; [fitsall|]. split; [reflexivity|]. split; [apply Nat.leb_le; reflexivity|]. split; [fitsall|].
    split; [reflexivity|]. intros H; elim H; reflexivity.
  - unfold valid_instr, ex_duck. cbn [mi_scope mi_set mi_loc mi_dmx mi_effect mi_lim mi_range mi_dep mi_noind mi_body].
    do 10 (split; [fitsall|]).
    exists {| mc_loc := 1; mc_sets := ex_sets |}. split; [left; reflexivity|]. split; [reflexivity|].
    split; [reflexivity|]. split; [fitsall|]. split.
    + unfold valid_duck. cbn. exists 1. split; [exists (Some 1, None); auto|].
      intros c j [<-|[<-|[<-|[<-|[]]]]]; cbn; congruence.
    + split; [reflexivity|]. intros H; elim H; reflexivity.
Qed.

(** A band border of 200 is stored as -56. *)
Definition w_border : list Z := [32; 1; 16; 36; 16; 40; 99; 32; 0; 0].
Theorem C94_border_refuted :
  option_map (fun c => map (fun x => map gs_edges (co_sets x)) (dc_coefs c))
    (cfg_of (exec (parse_config false [] 32) (fresh w_border))) = Some [[[-56]]].
Proof. vm_compute; reflexivity. Qed.
Print Assumptions C94_border_refuted.

(** Two coefficient blocks for one location: the gain modifiers are read for one band, as
    in the last block, and applied to two, as in the first. *)
Definition w_two : list Z := [64; 129; 16; 36; 16; 40; 97; 144; 64; 240; 4; 64; 0; 0; 64; 16; 0; 0; 0].
Theorem C94_two_blocks_refuted :
  option_map (fun c => map (fun i => (map gm_bands (in_mods i), map gd_bands (in_der i))) (dc_instr c))
    (cfg_of (exec (parse_config false [] 32) (fresh w_two))) = Some [([1], [2])].
Proof. vm_compute; reflexivity. Qed.
Print Assumptions C94_two_blocks_refuted.
