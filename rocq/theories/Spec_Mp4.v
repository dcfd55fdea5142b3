(** * Spec_Mp4: how MP4 boxes write an audio scene
    The same groups, switch groups and presets as in Spec_Asi, with the fields on byte
    borders.  A group entry also has a content kind and may have a language. *)
From Coq Require Import ZArith List Lia Bool.
From Verif Require Import Bits Asi Mp4 Spec_Asi.
Import ListNotations.
Open Scope Z_scope.

Definition pad (n : nat) : list bool := bits_of n 0.
Definition present {A} (o : option A) : bool := match o with Some _ => true | None => false end.
Definition body {A} (e : A -> list bool) (o : option A) : list bool := match o with Some a => e a | None => [] end.

(** ** Groups *)
Record bgroup := { bg_group : group; bg_kind : Z; bg_lang : option Z }.

Definition box_group (b : bgroup) : list bool :=
  let g := bg_group b in
  pad 1 ++ bits_of 7 (gr_id g) ++
  pad 3 ++ flag (gr_onoff g) ++ flag (gr_default g) ++ flag (present (gr_pos g)) ++ flag (present (gr_gain g)) ++
  flag (present (bg_lang b)) ++ bits_of 8 (bg_kind b) ++
  body (fun '(a1, a2, e1, e2, d1, d2) =>
     pad 1 ++ bits_of 7 a1 ++ pad 1 ++ bits_of 7 a2 ++ pad 3 ++ bits_of 5 e1 ++ pad 3 ++ bits_of 5 e2 ++ bits_of 4 d1 ++ bits_of 4 d2)
    (gr_pos g) ++
  body (fun '(m1, m2) => pad 2 ++ bits_of 6 m1 ++ pad 3 ++ bits_of 5 m2) (gr_gain g) ++
  body (bits_of 8) (bg_lang b).

Definition box_groups (id : Z) (l : list bgroup) : list bool :=
  bits_of 8 id ++ pad 1 ++ bits_of 7 (Z.of_nat (length l)) ++ flat_map box_group l.

(** The members are not part of the box. *)
Definition valid_bgroup (b : bgroup) : Prop :=
  let g := bg_group b in
  fits 7 (gr_id g) /\
  match gr_pos g with
  | None => True
  | Some (a1, a2, e1, e2, d1, d2) => fits 7 a1 /\ fits 7 a2 /\ fits 5 e1 /\ fits 5 e2 /\ fits 4 d1 /\ fits 4 d2
  end /\
  match gr_gain g with None => True | Some (m1, m2) => fits 6 m1 /\ fits 5 m2 end /\
  fits 8 (bg_kind b) /\ match bg_lang b with None => True | Some l => fits 8 l end.

(** Alike in everything but the members. *)
Definition same_group (a b : group) : Prop :=
  gr_id a = gr_id b /\ gr_onoff a = gr_onoff b /\ gr_default a = gr_default b /\ gr_pos a = gr_pos b /\ gr_gain a = gr_gain b.

(** ** Switch groups: always on, at most 31 members *)
Definition box_switch (s : switchgroup) : list bool :=
  pad 3 ++ bits_of 5 (sg_id s) ++ pad 3 ++ bits_of 5 (Z.of_nat (length (sg_members s))) ++
  flat_map (fun m => pad 1 ++ bits_of 7 m) (sg_members s) ++ pad 1 ++ bits_of 7 (sg_default s).

Definition box_switches (l : list switchgroup) : list bool :=
  pad 1 ++ bits_of 7 (Z.of_nat (length l)) ++ flat_map box_switch l.

Definition valid_bswitch (s : switchgroup) : Prop :=
  fits 5 (sg_id s) /\ sg_onoff s = None /\ Z.of_nat (length (sg_members s)) <= 31 /\
  Forall (fits 7) (sg_members s) /\ fits 7 (sg_default s).

(** ** Presets *)
Definition box_action (a : action) : list bool :=
  pad 4 ++ flag (ac_lock_gain a) ++ flag (present (ac_gain a)) ++ flag (ac_lock_pos a) ++ flag (present (ac_pos a)) ++
  body (bits_of 8) (ac_gain a) ++
  body (fun '(az, el, d) => bits_of 8 az ++ bits_of 8 el ++ bits_of 8 d) (ac_pos a).
Definition box_cond (c : condition) : list bool :=
  bits_of 7 (co_ref c) ++ flag (present (co_on c)) ++ body box_action (co_on c).
Definition box_preset (p : preset) : list bool :=
  pad 3 ++ bits_of 5 (pr_id p) ++ pad 3 ++ bits_of 5 (pr_kind p) ++ bits_of 8 (Z.of_nat (length (pr_conds p))) ++
  flat_map box_cond (pr_conds p).
Definition box_presets (l : list preset) : list bool :=
  pad 1 ++ bits_of 7 (Z.of_nat (length l)) ++ flat_map box_preset l.

(** A preset of the box may have any number of conditions up to 255. *)
Definition valid_bpreset (p : preset) : Prop :=
  fits 5 (pr_id p) /\ fits 5 (pr_kind p) /\ Z.of_nat (length (pr_conds p)) <= 255 /\ Forall valid_cond (pr_conds p).

(** ** Shapes *)
Definition groups_shape (l : list gdef) : Prop := length l = 16%nat /\ Forall (fun g => length (g_mem g) = 128%nat) l.
Definition switches_shape (l : list sdef) : Prop := length l = 8%nat /\ Forall (fun s => length (s_mem s) = 32%nat) l.
Definition presets_shape (l : list pdef) : Prop := length l = 8%nat /\ Forall (fun p => length (p_conds p) = 16%nat) l.
Definition desc_shape (d : desc) : Prop := length (ds_len d) = 128%nat /\ length (ds_id d) = 128%nat /\ Forall (fun n => -128 <= n <= 127) (ds_len d).

(** ** Positions *)
(** The value of [n] bits at bit [i] of a box. *)
Definition field_at (l : list bool) (i n : nat) : Z := val_of (firstn n (skipn i l)).

(** The members of the group at place [k] of the box: two, from 0 for the first group and
    from 2 for the second; the others keep their start. *)
Definition start_of (k : nat) (old : Z) : Z := match k with O => 0 | 1%nat => 2 | _ => old end.
