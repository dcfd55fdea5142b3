(** * Spec_Asi: what an audio scene is, and how ISO/IEC 23008-3 writes it

    Independent of the parser: a scene as a value, validity, and the bit layout of
    mae_AudioSceneInfo() (groups, switch groups, presets). *)

From Coq Require Import ZArith List Lia Bool.
From Verif Require Import Bits Asi.
Import ListNotations.
Open Scope Z_scope.

Definition b2z (b : bool) : Z := if b then 1 else 0.
Definition flag (b : bool) : list bool := bits_of 1 (b2z b).

(** Members of a group: a contiguous range of ids, or a list of ids. *)
Inductive members := Range (first count : Z) | Listed (ids : list Z).

Definition member_count (m : members) : Z :=
  match m with Range _ c => c | Listed l => Z.of_nat (length l) end.

Record group := {
  gr_id : Z; gr_onoff : bool; gr_default : bool;
  gr_pos : option (Z * Z * Z * Z * Z * Z);   (* min/max azimuth, elevation, distance *)
  gr_gain : option (Z * Z);                  (* min/max gain *)
  gr_members : members }.

Definition enc_opt {A} (e : A -> list bool) (o : option A) : list bool :=
  match o with None => flag false | Some a => flag true ++ e a end.

Definition enc_group (g : group) : list bool :=
  bits_of 7 (gr_id g) ++ flag (gr_onoff g) ++ flag (gr_default g) ++
  enc_opt (fun '(a1, a2, e1, e2, d1, d2) =>
     bits_of 7 a1 ++ bits_of 7 a2 ++ bits_of 5 e1 ++ bits_of 5 e2 ++ bits_of 4 d1 ++ bits_of 4 d2)
    (gr_pos g) ++
  enc_opt (fun '(m1, m2) => bits_of 6 m1 ++ bits_of 5 m2) (gr_gain g) ++
  bits_of 7 (member_count (gr_members g) - 1) ++
  match gr_members g with
  | Range s _ => flag true ++ bits_of 7 s
  | Listed l => flag false ++ concat (map (bits_of 7) l)
  end.

Definition fits (n v : Z) : Prop := 0 <= v < 2 ^ n.

Definition valid_group (g : group) : Prop :=
  fits 7 (gr_id g) /\
  match gr_pos g with
  | None => True
  | Some (a1, a2, e1, e2, d1, d2) =>
    fits 7 a1 /\ fits 7 a2 /\ fits 5 e1 /\ fits 5 e2 /\ fits 4 d1 /\ fits 4 d2
  end /\
  match gr_gain g with None => True | Some (m1, m2) => fits 6 m1 /\ fits 5 m2 end /\
  1 <= member_count (gr_members g) <= 128 /\
  match gr_members g with Range s _ => fits 7 s | Listed l => Forall (fits 7) l end.

(** A switch group: default on/off only present when switchable. *)
Record switchgroup := {
  sg_id : Z; sg_onoff : option bool; sg_members : list Z; sg_default : Z }.

Definition enc_switch (s : switchgroup) : list bool :=
  bits_of 5 (sg_id s) ++ enc_opt flag (sg_onoff s) ++
  bits_of 5 (Z.of_nat (length (sg_members s)) - 1) ++
  concat (map (bits_of 7) (sg_members s)) ++ bits_of 7 (sg_default s).

Definition valid_switch (s : switchgroup) : Prop :=
  fits 5 (sg_id s) /\ 1 <= Z.of_nat (length (sg_members s)) <= 32 /\
  Forall (fits 7) (sg_members s) /\ fits 7 (sg_default s).

(** A preset: conditions on groups; an active condition may set a gain and a position. *)
Record action := {
  ac_lock_gain : bool; ac_gain : option Z;
  ac_lock_pos : bool; ac_pos : option (Z * Z * Z) }.
Record condition := { co_ref : Z; co_on : option action }.
Record preset := { pr_id : Z; pr_kind : Z; pr_conds : list condition }.

Definition enc_action (a : action) : list bool :=
  flag (ac_lock_gain a) ++ enc_opt (bits_of 8) (ac_gain a) ++
  flag (ac_lock_pos a) ++
  enc_opt (fun '(az, el, d) => bits_of 8 az ++ bits_of 6 el ++ bits_of 4 d) (ac_pos a).
Definition enc_cond (c : condition) : list bool :=
  bits_of 7 (co_ref c) ++ enc_opt enc_action (co_on c).
Definition enc_preset (p : preset) : list bool :=
  bits_of 5 (pr_id p) ++ bits_of 5 (pr_kind p) ++
  bits_of 4 (Z.of_nat (length (pr_conds p)) - 1) ++ concat (map enc_cond (pr_conds p)).

Definition valid_cond (c : condition) : Prop :=
  fits 7 (co_ref c) /\
  match co_on c with
  | None => True
  | Some a =>
    match ac_gain a with None => True | Some g => fits 8 g end /\
    match ac_pos a with None => True | Some (az, el, d) => fits 8 az /\ fits 6 el /\ fits 4 d end
  end.
Definition valid_preset (p : preset) : Prop :=
  fits 5 (pr_id p) /\ fits 5 (pr_kind p) /\
  1 <= Z.of_nat (length (pr_conds p)) <= 16 /\ Forall valid_cond (pr_conds p).

(** Data blocks of types this decoder does not know: type and payload bytes. *)
Definition enc_block (b : Z * list Z) : list bool :=
  bits_of 4 (fst b) ++ bits_of 16 (Z.of_nat (length (snd b))) ++ concat (map (bits_of 8) (snd b)).
Definition valid_block (b : Z * list Z) : Prop :=
  10 <= fst b < 16 /\ Z.of_nat (length (snd b)) < 65536 /\ Forall (fits 8) (snd b).

(** A main-stream audio scene. *)
Record scene := {
  sc_id : option Z;
  sc_groups : list group; sc_switch : list switchgroup; sc_presets : list preset;
  sc_blocks : list (Z * list Z); sc_max : Z }.

Definition enc_scene (s : scene) : list bool :=
  flag true ++ enc_opt (bits_of 8) (sc_id s) ++
  bits_of 7 (Z.of_nat (length (sc_groups s))) ++ concat (map enc_group (sc_groups s)) ++
  bits_of 5 (Z.of_nat (length (sc_switch s))) ++ concat (map enc_switch (sc_switch s)) ++
  bits_of 5 (Z.of_nat (length (sc_presets s))) ++ concat (map enc_preset (sc_presets s)) ++
  bits_of 4 (Z.of_nat (length (sc_blocks s))) ++ concat (map enc_block (sc_blocks s)) ++
  bits_of 7 (sc_max s).

Definition valid_scene (s : scene) : Prop :=
  match sc_id s with None => True | Some i => fits 8 i end /\
  (length (sc_groups s) <= 16)%nat /\ Forall valid_group (sc_groups s) /\
  NoDup (map gr_id (sc_groups s)) /\
  (length (sc_switch s) <= 8)%nat /\ Forall valid_switch (sc_switch s) /\
  NoDup (map sg_id (sc_switch s)) /\
  (length (sc_presets s) <= 8)%nat /\ Forall valid_preset (sc_presets s) /\
  NoDup (map pr_id (sc_presets s)) /\
  (length (sc_blocks s) <= 15)%nat /\ Forall valid_block (sc_blocks s) /\ fits 7 (sc_max s).

(** ** Reading the stored C structures back as values *)
Definition z2b (z : Z) : bool := negb (z =? 0).

Definition view_group (g : gdef) : group := {|
  gr_id := g_id g; gr_onoff := z2b (g_onoff g); gr_default := z2b (g_def g);
  gr_pos := if z2b (g_pos g)
            then Some (g_minaz g, g_maxaz g, g_minel g, g_maxel g, g_mindist g, g_maxdist g)
            else None;
  gr_gain := if z2b (g_gain g) then Some (g_mingain g, g_maxgain g) else None;
  gr_members := if z2b (g_conj g) then Range (g_start g) (g_num g)
                else Listed (firstn (Z.to_nat (g_num g)) (g_mem g)) |}.

Definition view_switch (s : sdef) : switchgroup := {|
  sg_id := s_id s; sg_onoff := if z2b (s_onoff s) then Some (z2b (s_def s)) else None;
  sg_members := firstn (Z.to_nat (s_num s)) (s_mem s); sg_default := s_dgrp s |}.

(** The azimuth offset is stored as a signed byte. *)
Definition view_cond (c : pcond) : condition := {|
  co_ref := c_ref c;
  co_on := if z2b (c_on c) then Some {|
      ac_lock_gain := z2b (c_disgain c);
      ac_gain := if z2b (c_gainflag c) then Some (c_gain c) else None;
      ac_lock_pos := z2b (c_dispos c);
      ac_pos := if z2b (c_posflag c) then Some (c_az c mod 256, c_el c, c_dist c) else None |}
    else None |}.
Definition view_preset (p : pdef) : preset := {|
  pr_id := p_id p; pr_kind := p_kind p;
  pr_conds := map view_cond (firstn (Z.to_nat (p_num p)) (p_conds p)) |}.

(** The declared shape of the C structures (mhas_parse.h): 16 groups of up to 128
    members, 8 switch groups of 32, 8 presets of 16 conditions. *)
Definition shape (a : asi) : Prop :=
  length (a_groups a) = 16%nat /\ Forall (fun g => length (g_mem g) = 128%nat) (a_groups a) /\
  length (a_switch a) = 8%nat /\ Forall (fun g => length (s_mem g) = 32%nat) (a_switch a) /\
  length (a_presets a) = 8%nat /\ Forall (fun p => length (p_conds p) = 16%nat) (a_presets a).

(** An all-zero structure. *)
Definition g_zero := mkG 0 0 0 0 0 0 0 0 0 0 0 0 0 0 0 0 (repeat 0 128).
Definition s_zero := mkS 0 0 0 0 (repeat 0 32) 0.
Definition c_zero := mkC 0 0 0 0 0 0 0 0 0 0.
Definition p_zero := mkP 0 0 0 (repeat c_zero 16).
Definition asi_zero := mkA 0 0 0 0 (repeat g_zero 16) 0 (repeat s_zero 8) 0 (repeat p_zero 8) [] 0 0.

(** What is in force after a parse. *)
Definition active_groups (a : asi) : list gdef := firstn (Z.to_nat (a_ng a)) (a_groups a).
Definition active_switch (a : asi) : list sdef := firstn (Z.to_nat (a_ns a)) (a_switch a).
Definition active_presets (a : asi) : list pdef := firstn (Z.to_nat (a_np a)) (a_presets a).
