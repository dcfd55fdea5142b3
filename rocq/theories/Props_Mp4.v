(** * Properties of the scene boxes of MP4 files *)
From Coq Require Import ZArith List Lia Bool.
From Verif Require Import Bits BitBuf Prog Asi Mp4 Spec_Asi Spec_Mp4 Spec_Mp4Desc Lem_Mp4 Lem_Mp4Safe Lem_Mp4Desc.
Import ListNotations.
Open Scope Z_scope.

(** ** C45: scene boxes *)

(** Up to 16 groups written in a box are read back, whatever was in the tables before: all
    that the box says about a group is in the entry at its place.  The members do not come
    from the box. *)
Theorem C45_groups : forall id l arr s rest, fits 8 id -> (length l <= 16)%nat -> Forall valid_bgroup l -> groups_shape arr ->
  wf s -> rest_bits s = box_groups id l ++ rest ->
  exists arr' s', exec (maeg false arr) s = Done (Ok (id, Z.of_nat (length l), arr'), s') /\ rest_bits s' = rest /\ groups_shape arr' /\
    forall k b, nth_error l k = Some b -> exists old c, nth_error arr k = Some old /\ nth_error arr' k = Some c /\
      same_group (view_group c) (bg_group b) /\ gr_members (view_group c) = Range (start_of k (g_start old)) 2.
Proof. exact groups_exec. Qed.
Print Assumptions C45_groups.

(** Up to 8 switch groups of up to 31 members are read back. *)
Theorem C45_switches : forall l arr s rest, (length l <= 8)%nat -> Forall valid_bswitch l -> switches_shape arr ->
  wf s -> rest_bits s = box_switches l ++ rest ->
  exists arr' s', exec (maes false arr) s = Done (Ok (Z.of_nat (length l), arr'), s') /\ rest_bits s' = rest /\ switches_shape arr' /\
    map view_switch (firstn (length l) arr') = l.
Proof. exact switches_exec. Qed.
Print Assumptions C45_switches.

(** Up to 8 presets of up to 16 conditions are read back. *)
Theorem C45_presets : forall l arr s rest, (length l <= 8)%nat ->
  Forall (fun p => valid_bpreset p /\ (length (pr_conds p) <= 16)%nat) l -> presets_shape arr ->
  wf s -> rest_bits s = box_presets l ++ rest ->
  exists arr' s', exec (maep false arr) s = Done (Ok (Z.of_nat (length l), arr'), s') /\ rest_bits s' = rest /\ presets_shape arr' /\
    map view_preset (firstn (length l) arr') = l.
Proof. exact presets_exec. Qed.
Print Assumptions C45_presets.

Definition ex_bg : bgroup := {| bg_group := {| gr_id := 5; gr_onoff := true; gr_default := false; gr_pos := Some (10, 20, 1, 2, 3, 4);
  gr_gain := Some (20, 9); gr_members := Listed [7; 9] |}; bg_kind := 2; bg_lang := Some 17 |}.
Definition ex_bs : switchgroup := {| sg_id := 3; sg_onoff := None; sg_members := [5; 6]; sg_default := 6 |}.
Definition ex_bp : preset := {| pr_id := 1; pr_kind := 2; pr_conds := [
  {| co_ref := 5; co_on := Some {| ac_lock_gain := true; ac_gain := Some 77; ac_lock_pos := false; ac_pos := Some (200, 3, 4) |} |};
  {| co_ref := 6; co_on := None |}] |}.
Example C45_case : Forall valid_bgroup [ex_bg; ex_bg] /\ Forall valid_bswitch [ex_bs] /\
  Forall (fun p => valid_bpreset p /\ (length (pr_conds p) <= 16)%nat) [ex_bp] /\
  groups_shape (repeat (mkG 0 0 0 0 0 0 0 0 0 0 0 0 0 0 0 0 (repeat 0 128)) 16) /\
  switches_shape (repeat (mkS 0 0 0 0 (repeat 0 32) 0) 8) /\
  presets_shape (repeat (mkP 0 0 0 (repeat (mkC 0 0 0 0 0 0 0 0 0 0) 16)) 8).
Proof.
  assert (R : forall A (P : A -> Prop) a n, P a -> Forall P (repeat a n)) by (intros; apply Forall_forall; intros y Hy; apply repeat_spec in Hy; subst; assumption).
  repeat split; try apply R; try reflexivity;
    repeat (first [apply Forall_nil | apply Forall_cons | split]); cbv -[Z.le Z.lt Nat.le]; try lia; repeat split; try lia; auto.
Qed.

(** Descriptions in the form the decoder expects, with one bit of text each, are read back
    when there is at least one of each kind, at most 127 of groups, and no more than one more
    of switch groups than of groups.  Texts of whole characters are missing: see
    C45_texts_refuted. *)
Theorem C45_descriptions_partial : forall langs code gs ss ps g d p s rest, fits 4 (langs - 1) -> fits 24 code ->
  (1 <= length gs <= 127)%nat -> (1 <= length ss <= 32)%nat -> (1 <= length ps <= 32)%nat -> (length ss <= length gs + 1)%nat ->
  Forall (valid_descr 7) gs -> Forall (valid_descr 5) ss -> Forall (valid_descr 5) ps -> desc_shape g -> desc_shape d -> desc_shape p ->
  wf s -> rest_bits s = box_descrs langs code gs ss ps ++ rest ->
  exists g' d' p' s', exec (mael false g d p) s = Done (Ok (g', d', p'), s') /\ rest_bits s' = rest /\
    holds_descrs gs g' /\ holds_descrs ss d' /\ holds_descrs ps p' /\ desc_shape g' /\ desc_shape d' /\ desc_shape p'.
Proof. exact descriptions_exec. Qed.
Print Assumptions C45_descriptions_partial.

Definition no_desc : desc := mkDs (repeat 0 128) (repeat 0 128).
Definition ex_d (i : Z) : descr := {| d_id := i; d_len := 3; d_bit := 1 |}.
Example C45_descriptions_case :
  Forall (valid_descr 7) [ex_d 100; ex_d 7] /\ Forall (valid_descr 5) [ex_d 30; ex_d 2; ex_d 3] /\ Forall (valid_descr 5) [ex_d 1] /\ desc_shape no_desc /\
  match runA (mael false no_desc no_desc no_desc) (box_descrs 2 77 [ex_d 100; ex_d 7] [ex_d 30; ex_d 2; ex_d 3] [ex_d 1]) with
  | Done (Ok (g, d, p), []) => firstn 3 (ds_id g) = [100; 7; 0] /\ firstn 3 (ds_id d) = [30; 2; 3] /\ firstn 1 (ds_id p) = [1]
  | _ => False end.
Proof.
  assert (R : forall A (P : A -> Prop) a n, P a -> Forall P (repeat a n)) by (intros; apply Forall_forall; intros y Hy; apply repeat_spec in Hy; subst; assumption).
  split; [|split; [|split; [|split]]].
  1-3: repeat (constructor; [split; [|split]; unfold fits; cbn; lia|]); constructor.
  - split; [reflexivity|]. split; [reflexivity|]. apply R. lia.
  - vm_compute. repeat split.
Qed.

(** With texts of whole characters the number of the second group is not the one sent: it
    is made of the last six bits of the first text, whatever was sent. *)
Theorem C45_texts_refuted : forall langs code id1 c1 id2 c2 g d p s rest, fits 4 (langs - 1) -> fits 24 code -> fits 7 id1 -> fits 7 id2 -> fits 8 c1 ->
  desc_shape g -> desc_shape d -> desc_shape p -> wf s ->
  rest_bits s = pad 4 ++ bits_of 4 (langs - 1) ++ bits_of 24 code ++ pad 1 ++ bits_of 7 1 ++ lettered id1 c1 ++ lettered id2 c2 ++ rest ->
  match exec (mael false g d p) s with
  | Done (Ok (g', d', p'), s') => firstn 2 (ds_id g') = [id1; 2 * (c1 mod 64)]
  | Done (Er _, _) => False | Jmp _ => True | UB _ => False end.
Proof. exact letters_exec. Qed.
Print Assumptions C45_texts_refuted.

(** Groups 5 and 6 with the texts A and B: the second is held as group 2. *)
Example C45_texts_case :
  match runA (mael false no_desc no_desc no_desc)
    (pad 4 ++ bits_of 4 0 ++ bits_of 24 77 ++ pad 1 ++ bits_of 7 1 ++ lettered 5 65 ++ lettered 6 66 ++ repeat false 60) with
  | Done (Ok (g, d, p), _) => firstn 2 (ds_id g) = [5; 2]
  | _ => False end.
Proof. vm_compute. reflexivity. Qed.

(** A box with 17 to 127 groups, with 9 to 127 switch groups, with 9 to 127 presets, or with
    a preset of 17 to 127 conditions makes the decoder write outside the tables.  No count
    is tested. *)
Theorem C45_groups_refuted : forall id l arr s rest, fits 8 id -> (16 < length l <= 127)%nat -> Forall valid_bgroup l -> groups_shape arr ->
  wf s -> rest_bits s = box_groups id l ++ rest -> exec (maeg false arr) s = UB UOob.
Proof. exact groups_over. Qed.
Print Assumptions C45_groups_refuted.

Theorem C45_switches_refuted : forall l arr s rest, (8 < length l <= 127)%nat -> Forall valid_bswitch l -> switches_shape arr ->
  wf s -> rest_bits s = box_switches l ++ rest -> exec (maes false arr) s = UB UOob.
Proof. exact switches_over. Qed.
Print Assumptions C45_switches_refuted.

Theorem C45_presets_refuted : forall l arr s rest, (length l <= 127)%nat ->
  Forall (fun x => valid_bpreset x /\ (length (pr_conds x) <= 127)%nat) l ->
  ((8 < length l)%nat \/ Exists (fun x => (16 < length (pr_conds x))%nat) l) -> presets_shape arr ->
  wf s -> rest_bits s = box_presets l ++ rest -> exec (maep false arr) s = UB UOob.
Proof. exact presets_over. Qed.
Print Assumptions C45_presets_refuted.

(** A box with 128 group descriptions, whatever they are, makes the decoder write a row 128
    of tables with 128 rows. *)
Theorem C45_descriptions_refuted : forall hd tl g d p s, length hd = 33%nat -> (17 * 128 <= length tl)%nat -> desc_shape g ->
  wf s -> rest_bits s = hd ++ bits_of 7 127 ++ tl -> exec (mael false g d p) s = UB UOob.
Proof. exact descriptions_over. Qed.
Print Assumptions C45_descriptions_refuted.

(** Buffers with such boxes exist: 17 times the same group, and zeros with the count 127. *)
Example C45_refuted_case :
  (exists d, are_bytes d /\ bytes_bits d = box_groups 1 (repeat ex_bg 17) ++ [] /\ wf (fresh d)) /\
  (exists d, are_bytes d /\ bytes_bits d = repeat false 33 ++ bits_of 7 127 ++ repeat false (17 * 128) /\ wf (fresh d)).
Proof.
  split.
  - exists (1 :: 17 :: flat_map (fun _ => [5; 23; 2; 10; 20; 1; 2; 52; 20; 9; 17]) (seq 0 17)). cut (forall d, are_bytes d -> bytes_bits d = box_groups 1 (repeat ex_bg 17) ++ [] -> are_bytes d /\ bytes_bits d = box_groups 1 (repeat ex_bg 17) ++ [] /\ wf (fresh d)).
    + intro H. apply H; [|reflexivity]. unfold are_bytes. cbn [flat_map seq app]. repeat (apply Forall_cons; [unfold is_byte; lia|]). apply Forall_nil.
    + intros d H1 H2. split; [exact H1|]. split; [exact H2|apply wf_fresh, H1].
  - exists (0 :: 0 :: 0 :: 0 :: 127 :: repeat 0 272). cut (are_bytes (0 :: 0 :: 0 :: 0 :: 127 :: repeat 0 272)).
    + intro H. split; [exact H|]. split; [reflexivity|apply wf_fresh, H].
    + unfold are_bytes. do 5 (apply Forall_cons; [unfold is_byte; lia|]). apply Forall_forall. intros x Hx. apply repeat_spec in Hx. subst. unfold is_byte. lia.
Qed.

(** A preset of 128 to 255 conditions does not leave the tables, but its count becomes
    negative, it is left without conditions, and what follows in the box is read from the
    middle of it. *)
Theorem C45_conditions_refuted : forall x arr s rest, valid_bpreset x -> (128 <= length (pr_conds x))%nat -> presets_shape arr ->
  wf s -> rest_bits s = box_presets [x] ++ rest ->
  exists arr' c s', exec (maep false arr) s = Done (Ok (1, arr'), s') /\ rest_bits s' = flat_map box_cond (pr_conds x) ++ rest /\
    nth_error arr' 0 = Some c /\ p_num c < 0 /\ pr_conds (view_preset c) = [].
Proof. exact conditions_lost. Qed.
Print Assumptions C45_conditions_refuted.

(** For every content of the boxes with counts in range, the decoder stays in the tables: it
    returns, or stops for want of bits. *)
Theorem C45_groups_safe_partial : forall arr s, wf s -> groups_shape arr -> field_at (rest_bits s) 9 7 <= 16 ->
  match exec (maeg false arr) s with Done (Ok (_, _, a), s') => groups_shape a /\ wf s' | Done (Er _, _) => False | Jmp _ => True | UB _ => False end.
Proof. exact groups_safe. Qed.
Print Assumptions C45_groups_safe_partial.

Theorem C45_switches_safe_partial : forall arr s, wf s -> switches_shape arr -> field_at (rest_bits s) 1 7 <= 8 ->
  match exec (maes false arr) s with Done (Ok (_, a), s') => switches_shape a /\ wf s' | Done (Er _, _) => False | Jmp _ => True | UB _ => False end.
Proof. exact switches_safe. Qed.
Print Assumptions C45_switches_safe_partial.

Theorem C45_descriptions_safe_partial : forall g d p s, wf s -> desc_shape g -> desc_shape d -> desc_shape p ->
  field_at (rest_bits s) 33 7 < 127 ->
  match exec (mael false g d p) s with
  | Done (Ok (g', d', p'), s') => desc_shape g' /\ desc_shape d' /\ desc_shape p' /\ wf s'
  | Done (Er _, _) => False | Jmp _ => True | UB _ => False end.
Proof. exact descriptions_safe. Qed.
Print Assumptions C45_descriptions_safe_partial.

(** For presets: the reader with tests of both counts refuses, or it does what the decoder
    does and this stays in the tables. *)
Theorem C45_presets_safe_partial : forall arr s, wf s -> presets_shape arr ->
  (exists s', exec (maep true arr) s = Done (Er E_MAE, s')) \/
  (exec (maep true arr) s = exec (maep false arr) s /\
   match exec (maep false arr) s with Done (Ok (_, a), s') => presets_shape a /\ wf s' | Done (Er _, _) => False | Jmp _ => True | UB _ => False end).
Proof. exact presets_safe. Qed.
Print Assumptions C45_presets_safe_partial.

(** A box of three bytes with no group at all; a box with one preset that is accepted. *)
Example C45_safe_case : field_at (bytes_bits [3; 0; 9]) 9 7 <= 16 /\
  exists a s', exec (maep true (repeat (mkP 0 0 0 (repeat (mkC 0 0 0 0 0 0 0 0 0 0) 16)) 8)) (fresh [1; 1; 2; 1; 10]) = Done (Ok (1, a), s').
Proof. split; [vm_compute; discriminate|]. eexists _, _. vm_compute. reflexivity. Qed.
