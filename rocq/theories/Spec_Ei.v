(** * Spec_Ei: interaction, scene displacement and local setup packets as values

    Independent of the parser: what an application asks for, and the bits it writes
    (ISO/IEC 23008-3, mpegh3daElementInteraction, mpegh3daSceneDisplacementData and
    LocalSetupInformation). *)

From Coq Require Import ZArith List Lia Bool.
From Verif Require Import Bits Spec_Asi Spec_Mhas Ei Config.
Import ListNotations.
Open Scope Z_scope.

(** The wish for one group.  [ch_play = None]: off; [Some (position, gain)]: on, with an
    optional position offset (azimuth, elevation, distance) and an optional gain. *)
Record choice := {
  ch_id : Z; ch_wire : option Z;
  ch_play : option (option (Z * Z * Z) * option Z) }.

(** The packet: signature (type and bytes), preset when one is chosen, one choice per
    group, zoom area. *)
Record wish := {
  wi_sign : option (Z * list Z);
  wi_preset : option Z;
  wi_groups : list choice;
  wi_zoom : option (Z * Z * Z * Z) }.

Definition enc_choice (c : choice) : list bool :=
  bits_of 7 (ch_id c) ++
  flag (match ch_play c with None => false | Some _ => true end) ++
  enc_opt (bits_of 16) (ch_wire c) ++
  match ch_play c with
  | None => []
  | Some (pos, gain) =>
    enc_opt (fun '(a, e, d) => bits_of 8 a ++ bits_of 6 e ++ bits_of 4 d) pos ++
    enc_opt (bits_of 7) gain
  end.

Definition enc_wish (w : wish) : list bool :=
  match wi_sign w with
  | None => bits_of 8 0
  | Some (t, bs) => bits_of 8 (Z.of_nat (length bs)) ++ bits_of 8 t ++ concat (map (bits_of 8) bs)
  end ++
  flag (match wi_preset w with None => false | Some _ => true end) ++
  bits_of 7 (Z.of_nat (length (wi_groups w))) ++
  match wi_preset w with None => [] | Some p => bits_of 5 p end ++
  concat (map enc_choice (wi_groups w)) ++
  enc_opt (fun '(a, b, c, d) => bits_of 10 a ++ bits_of 10 b ++ bits_of 9 c ++ bits_of 10 d) (wi_zoom w).

Definition valid_choice (c : choice) : Prop :=
  fits 7 (ch_id c) /\
  match ch_wire c with None => True | Some w => fits 16 w end /\
  match ch_play c with
  | None => True
  | Some (pos, gain) =>
    match pos with None => True | Some (a, e, d) => fits 8 a /\ fits 6 e /\ fits 4 d end /\
    match gain with None => True | Some g => fits 7 g end
  end.

Definition valid_wish (w : wish) : Prop :=
  match wi_sign w with
  | None => True
  | Some (t, bs) => fits 8 t /\ 1 <= Z.of_nat (length bs) <= 255 /\ Forall (fits 8) bs
  end /\
  match wi_preset w with None => True | Some p => fits 5 p end /\
  Z.of_nat (length (wi_groups w)) <= 127 /\ Forall valid_choice (wi_groups w) /\
  match wi_zoom w with
  | None => True | Some (a, b, c, d) => fits 10 a /\ fits 10 b /\ fits 9 c /\ fits 10 d
  end.

(** What the decoder stores as bytes: output wire ids and zoom values. *)
Definition narrow_choice (c : choice) : Prop := match ch_wire c with None => True | Some w => w < 256 end.
Definition narrow (w : wish) : Prop :=
  Forall narrow_choice (wi_groups w) /\
  match wi_zoom w with None => True | Some (a, b, c, d) => a < 256 /\ b < 256 /\ c < 256 /\ d < 256 end.

(** The same wish with those values reduced to a byte. *)
Definition byte_choice (c : choice) : choice :=
  {| ch_id := ch_id c; ch_wire := option_map (fun w => w mod 256) (ch_wire c); ch_play := ch_play c |}.
Definition bytewise (w : wish) : wish := {|
  wi_sign := wi_sign w; wi_preset := wi_preset w; wi_groups := map byte_choice (wi_groups w);
  wi_zoom := option_map (fun '(a, b, c, d) => (a mod 256, b mod 256, c mod 256, d mod 256)) (wi_zoom w) |}.

(** Reading the stored structure back. *)
Definition view_choice (g : eg) : choice := {|
  ch_id := eg_id g;
  ch_wire := if z2b (eg_wire g) then Some (eg_wireid g) else None;
  ch_play := if z2b (eg_on g) then
      Some (if z2b (eg_chpos g) then Some (eg_az g, eg_el g, eg_dist g) else None,
            if z2b (eg_chgain g) then Some (eg_gain g) else None)
    else None |}.
Definition view_wish (e : ei) : wish := {|
  wi_sign := if 0 <? ei_signlen e
             then Some (ei_signtype e, firstn (Z.to_nat (ei_signlen e)) (ei_sign e)) else None;
  wi_preset := if z2b (ei_mode e) then Some (ei_preset e) else None;
  wi_groups := map view_choice (firstn (Z.to_nat (ei_num e)) (ei_groups e));
  wi_zoom := if z2b (ei_zoom e) then Some (fst (ei_zaz e), snd (ei_zaz e), fst (ei_zel e), snd (ei_zel e)) else None |}.

(** The arrays of the stored structure. *)
Definition ei_ok (e : ei) : Prop := length (ei_sign e) = 256%nat /\ length (ei_groups e) = 128%nat.

(** ** Scene displacement: yaw, pitch, roll, azimuth, elevation, radius. *)
Definition enc_disp (d : sdisp) : list bool :=
  bits_of 9 (sd_yaw d) ++ bits_of 9 (sd_pitch d) ++ bits_of 9 (sd_roll d) ++
  bits_of 8 (sd_az d) ++ bits_of 6 (sd_el d) ++ bits_of 4 (sd_rad d).
Definition valid_disp (d : sdisp) : Prop :=
  fits 9 (sd_yaw d) /\ fits 9 (sd_pitch d) /\ fits 9 (sd_roll d) /\
  fits 8 (sd_az d) /\ fits 6 (sd_el d) /\ fits 4 (sd_rad d).
(** The displacement in force at call [i] (from 0) when [ds] are supplied, [d0] before. *)
Definition disp_at (ds : list sdisp) (d0 : sdisp) (i : nat) : sdisp :=
  nth i ds (last ds d0).

(** ** Local setup *)
Definition lsetup_ok (u : lsetup) : Prop :=
  length (lu_ls u) = 24%nat /\ length (lu_wires u) = 128%nat /\
  length (l_spk (lu_spk u)) = 32%nat /\ length (l_flex (lu_spk u)) = 32%nat.

(** A loudspeaker setup given by a CICP layout index, with the measured position of some
    loudspeakers (azimuth 0..511, elevation 0..255 as transmitted) and no distances or
    calibration gains. *)
Definition enc_ls_pos (p : option (Z * Z)) : list bool :=
  enc_opt (fun '(a, e) => bits_of 9 a ++ bits_of 8 e) p.
Definition enc_setup (cicp : Z) (pos : list (option (Z * Z))) (track comp : bool) : list bool :=
  bits_of 1 0 ++                                   (* loudspeaker rendering *)
  bits_of 16 (Z.of_nat (length pos)) ++
  bits_of 2 0 ++ bits_of 6 cicp ++                 (* SpeakerConfig3d: CICP layout *)
  flag false ++ flag false ++ flag track ++
  concat (map enc_ls_pos pos) ++ flag comp ++
  bits_of 16 0 ++                                  (* no wire outputs *)
  flag false.                                      (* no screen *)
Definition valid_pos (p : option (Z * Z)) : Prop :=
  match p with None => True | Some (a, e) => fits 9 a /\ fits 8 e end.
(** The position meant by the transmitted numbers, in degrees. *)
Definition degrees (p : option (Z * Z)) : option (Z * Z) :=
  match p with
  | None => None
  | Some (a, e) => Some (Z.max (-180) (Z.min 180 (a - 256)), Z.max (-90) (Z.min 90 (e - 128)))
  end.
Definition view_pos (s : lspk) : option (Z * Z) :=
  if z2b (ls_known s) then Some (ls_azi s, ls_ele s) else None.

(** ** Agreement of a packet with the scene it is for, as the decoder checks it when the scene is known. *)
Definition asi_ok (a : Asi.asi) : Prop :=
  0 <= Asi.a_ng a <= 16 /\ length (Asi.a_groups a) = 16%nat /\
  0 <= Asi.a_np a <= 8 /\ length (Asi.a_presets a) = 8%nat.

(** The rules checked outside the group list. *)
Definition head_rules (a : Asi.asi) (w : wish) : Prop :=
  (Asi.a_np a <> 0 -> wi_preset w <> None) /\
  Z.of_nat (length (wi_groups w)) = Asi.a_ng a /\ Asi.a_ng a <= 8 /\
  match wi_preset w with
  | None => True
  | Some p => In p (map Asi.p_id (firstn (length (wi_groups w)) (Asi.a_presets a)))
  end.
(** A group that allows a change of position (gain) gets one when it is on. *)
Definition changes_given (a : Asi.asi) (w : wish) : Prop :=
  forall i c d, nth_error (wi_groups w) i = Some c -> nth_error (Asi.a_groups a) i = Some d ->
    match ch_play c with
    | None => True
    | Some (pos, gain) => (Asi.g_pos d = 1 -> pos <> None) /\ (Asi.g_gain d = 1 -> gain <> None)
    end.
Definition known_group (a : Asi.asi) (c : choice) : Prop :=
  In (ch_id c) (map Asi.g_id (firstn (Z.to_nat (Asi.a_ng a)) (Asi.a_groups a))).

Definition agrees_with (a : Asi.asi) (w : wish) : Prop :=
  head_rules a w /\ Forall (known_group a) (wi_groups w) /\ changes_given a w.

(** The same, where only the first choice need name a group of the scene. *)
Definition first_agrees (a : Asi.asi) (w : wish) : Prop :=
  head_rules a w /\ match wi_groups w with [] => True | c :: _ => known_group a c end /\ changes_given a w.

(** The ranges of the stored fields of a group. *)
Definition eg_fits (g : eg) : Prop :=
  fits 7 (eg_id g) /\ fits 1 (eg_on g) /\ fits 1 (eg_wire g) /\ -1 <= eg_wireid g <= 255 /\
  fits 1 (eg_chpos g) /\ fits 8 (eg_az g) /\ fits 6 (eg_el g) /\ fits 4 (eg_dist g) /\ fits 1 (eg_chgain g) /\ fits 7 (eg_gain g).

(** A known scene has arrays of the right size; so has the stored structure, whose fields are in range. *)
Definition sv_ok (sv : scene_view) : Prop := fst sv = true -> asi_ok (snd sv).
Definition gs_ok (gs : list eg) : Prop := length gs = 128%nat /\ Forall eg_fits gs.

(** What holds of an accepted packet when the scene [a] is known. *)
Definition checked (a : Asi.asi) (e : ei) : Prop :=
  ei_num e = Asi.a_ng a /\ (Asi.a_np a <> 0 -> ei_mode e = 1) /\
  (ei_mode e <> 0 -> In (ei_preset e) (map Asi.p_id (firstn (Z.to_nat (Asi.a_ng a)) (Asi.a_presets a)))).

(** A stored local setup: its arrays and its number of loudspeakers. *)
Definition lsu_inv (u : lsetup) : Prop := lsetup_ok u /\ 0 <= lu_num u <= 24.
