(** * Spec_Mdp: what groups, switch groups and presets promise

    Independent of the functions of Mdp.v: whether a group is on is read off the list of
    groups beside the list of statuses. *)

From Coq Require Import ZArith List Lia Bool.
From Verif Require Import Asi Ei Mdp.
Import ListNotations.
Open Scope Z_scope.

(** The group with this id is on. *)
Definition onb (a : asi) (st : list Z) (id : Z) : bool :=
  existsb (fun '(g, v) => (g_id g =? id) && (v =? 1)) (combine (groups a) st).

(** A scene whose groups have different ids. *)
Definition scene_ok (a : asi) : Prop :=
  0 <= a_ng a <= 16 /\ length (a_groups a) = 16%nat /\ NoDup (map g_id (groups a)) /\
  length (a_switch a) = 8%nat /\ 0 <= a_ns a <= 8.

(** Switch groups: different ids, known and different members, the default one of them, and
    no group in two of them. *)
Definition switch_ok (a : asi) : Prop :=
  NoDup (map s_id (switches a)) /\
  NoDup (concat (map members (switches a))) /\
  Forall (fun s => In (s_dgrp s) (members s) /\
                   forall m, In m (members s) -> In m (map g_id (groups a))) (switches a).

(** The member of a switch group that is to be on, given those that were asked for. *)
Definition decided (s : sdef) (asked : list Z) : list Z :=
  match asked with
  | [] => if s_onoff s =? 1 then [] else [s_dgrp s]
  | [m] => [m]
  | _ => [s_dgrp s]
  end.

(** At most one member of each switch group is on, and one is if it cannot be off. *)
Definition exclusive (a : asi) (st : list Z) : Prop :=
  forall s, In s (switches a) ->
    (forall m m', In m (members s) -> In m' (members s) -> onb a st m = true -> onb a st m' = true -> m = m') /\
    (s_onoff s <> 1 -> exists m, In m (members s) /\ onb a st m = true).

(** In no switch group. *)
Definition free (a : asi) (id : Z) : Prop := ~ In id (concat (map members (switches a))).

(** The condition of a preset for a group, if it has one. *)
Definition cond_of (p : pdef) (id : Z) : option Z :=
  option_map c_on (find (fun c => c_ref c =? id) (conds p)).

(** A group outside the switch groups: the preset decides, then the user where the scene
    allows it, then the default. *)
Definition status (p : pdef) (wish : option Z) (g : gdef) : Z :=
  match cond_of p (g_id g) with
  | Some c => c
  | None => match wish with
            | Some w => if g_onoff g =? 1 then w else g_def g
            | None => g_def g
            end
  end.

(** No downmix extensions and no switch group conditions. *)
Definition plain_ext (x : xext) : Prop :=
  xe_num x = repeat 0 8 /\ length (xe_sgc x) = 8%nat /\ Forall (fun l => l = repeat 0 16) (xe_sgc x).

(** The presets: their ids and conditions. *)
Definition presets_ok (a : asi) : Prop :=
  0 <= a_np a <= 8 /\ length (a_presets a) = 8%nat /\
  Forall (fun p => 0 <= p_id p < 32 /\ 0 <= p_num p <= 16 /\ length (p_conds p) = 16%nat /\
                   Forall (fun c => c_on c = 0 \/ c_on c = 1) (p_conds p)) (a_presets a).

(** ** Which channels are heard *)

(** A channel is heard when a group that is on has it. *)
Definition audible (gs : list gdef) (on : gdef -> bool) (c : nat) : bool :=
  existsb (fun g => on g && existsb (Z.eqb (Z.of_nat c)) (g_members g)) gs.
Definition mix {A} (z : A) (ins : list A) (aud : nat -> bool) : list A :=
  map (fun '(c, v) => if aud c then v else z) (combine (seq 0 (length ins)) ins).
Definition in_range {A} (ins : list A) (g : gdef) : Prop :=
  forall m, In m (g_members g) -> 0 <= m < Z.of_nat (length ins).

(** ** Limits, as the decoder reads the fields of the scene (in decibels and in the units of
    the offsets) *)
Definition min_gain (g : gdef) : Z := Z.max (g_mingain g - 64) (-63).
Definition max_gain (g : gdef) : Z := g_maxgain g.
(** The gain asked for, in half decibels. *)
Definition asked_gain (off : Z) (dis : bool) (user : Z) : Z :=
  off + (if dis then 0 else 2 * Z.min (Z.max (user - 64) (-63)) 31).
(** Fields as the scene parser delivers them. *)
Definition gain_fields (g : gdef) : Prop := 0 <= g_mingain g < 64 /\ 0 <= g_maxgain g < 32.
Definition pos_fields (g : gdef) : Prop :=
  g_minaz g <= g_maxaz g /\ g_minel g <= g_maxel g /\ g_mindist g <= g_maxdist g.
Definition within (g : gdef) (az el di : Z) : Prop :=
  g_minaz g <= az <= g_maxaz g /\ g_minel g <= el <= g_maxel g /\ g_mindist g <= di <= g_maxdist g.

(** ** The preset in force *)

(** The first preset with its id. *)
Definition is_preset (a : asi) (p : pdef) : Prop := find (fun q => p_id q =? p_id p) (presets a) = Some p.
Definition least (a : asi) (id : Z) : Prop := In id (map p_id (presets a)) /\ forall p, In p (presets a) -> id <= p_id p.
(** The user's choice counts in a packet that selects a preset. *)
Definition chooses (e : ei) : bool := negb (ei_present e =? 0) && negb (ei_mode e =? 0).
(** The preset the user chose, otherwise the one in force before unless a packet without a
    preset arrived, otherwise the one with the least id. *)
Definition in_force (a : asi) (e : ei) (sel id : Z) : Prop :=
  if chooses e then id = ei_preset e
  else if (ei_present e =? 0) && (0 <=? sel) then id = sel
  else least a id.

(** ** What a preset asks for *)
(** Its gain for a group, in half decibels: 255 stands for 32 dB, one step is half a decibel. *)
Definition preset_halves (c : pcond) : Z := if c_gainflag c =? 1 then 2 * 32 - (255 - c_gain c) else 0.
(** The user's wish in half decibels: 64 stands for 0 dB, from -63 dB to 31 dB. *)
Definition user_halves (user : Z) : Z := 2 * Z.min (Z.max (user - 64) (-63)) 31.
(** A position asked for, shifted by the offsets of a preset. *)
Definition shifted (b : Z * Z * Z) (c : xcond) : Z * Z * Z :=
  let '(az, el, di) := b in (az + x_az c, el + x_el c, di * x_dist c).
(** The user's position, unless the preset disables it. *)
Definition user_pos (c : xcond) (user : Z * Z * Z) : Z * Z * Z := if x_dispos c =? 0 then user else (0, 0, 1).
Definition within3 (g : gdef) (t : Z * Z * Z) : Prop := let '(az, el, di) := t in within g az el di.
(** The downmix in force has the first extension of preset number [k], with the only
    condition [c]. *)
Definition only_cond (x : xext) (k dmx : Z) (c : xcond) : Prop :=
  ext_of x k dmx = Some 0 /\ ix2 (xe_ncond x) k 0 = Some 1 /\ ix3 (xe_cond x) k 0 0 = Some c.
