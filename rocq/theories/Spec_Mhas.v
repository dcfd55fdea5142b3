(** * Spec_Mhas: MHAS packets, earcons, PCM packets and loudness infos as values, and
    their bit layout in ISO/IEC 23008-3 / 23003-4.  Independent of the parsers. *)

From Coq Require Import ZArith List Lia Bool.
From Verif Require Import Bits BitWrite Asi Spec_Asi.
Import ListNotations.
Open Scope Z_scope.

(** ** Packet headers: escapedValue(3,8,8), escapedValue(2,8,32), escapedValue(11,24,24) *)
Definition enc_header (ty lb len : Z) : list bool :=
  esc_enc 3 8 8 ty ++ esc_enc 2 8 32 lb ++ esc_enc 11 24 24 len.

Definition max_type := 7 + 255 + 255.
Definition max_label := 3 + 255 + 4294967295.
Definition max_length := 2047 + 16777215 + 16777215.

Definition valid_header (ty lb len : Z) : Prop :=
  0 <= ty <= max_type /\ 0 <= lb <= max_label /\ 0 <= len <= max_length.

Definition enc_bytes (bs : list Z) : list bool := concat (map (bits_of 8) bs).

(** ** Earcons *)
Inductive earpos := AtSpeaker (k : Z) | AtPoint (az el dist : Z) | AtFront (ty : Z).
Record ear := {
  er_indep : bool; er_id : Z; er_type : Z; er_active : bool; er_pos : earpos;
  er_gain : option Z; er_text : option (list (Z * list Z)) }.

Definition enc_earpos (p : earpos) : list bool :=
  match p with
  | AtSpeaker k => bits_of 2 0 ++ bits_of 7 k
  | AtPoint a e d => bits_of 2 1 ++ bits_of 8 a ++ bits_of 6 e ++ bits_of 9 d
  | AtFront t => bits_of 2 t
  end.
Definition enc_eartext (t : Z * list Z) : list bool :=
  bits_of 24 (fst t) ++ bits_of 8 (Z.of_nat (length (snd t))) ++ enc_bytes (snd t).
Definition enc_ear (e : ear) : list bool :=
  flag (er_indep e) ++ bits_of 7 (er_id e) ++ bits_of 4 (er_type e) ++ flag (er_active e) ++
  enc_earpos (er_pos e) ++ enc_opt (bits_of 7) (er_gain e) ++
  enc_opt (fun ts => bits_of 4 (Z.of_nat (length ts)) ++ concat (map enc_eartext ts)) (er_text e).
Definition enc_ears (es : list ear) : list bool :=
  bits_of 7 (Z.of_nat (length es) - 1) ++ concat (map enc_ear es).

Definition valid_earpos (p : earpos) : Prop :=
  match p with
  | AtSpeaker k => fits 7 k
  | AtPoint a e d => fits 8 a /\ fits 6 e /\ fits 9 d
  | AtFront t => t = 2 \/ t = 3
  end.
Definition valid_ear (e : ear) : Prop :=
  fits 7 (er_id e) /\ fits 4 (er_type e) /\ valid_earpos (er_pos e) /\
  match er_gain e with None => True | Some g => fits 7 g end /\
  match er_text e with
  | None => True
  | Some ts => (length ts <= 15)%nat /\
      Forall (fun t => fits 24 (fst t) /\ (length (snd t) <= 255)%nat /\ Forall (fits 8) (snd t)) ts
  end.

(** ** PCM packets *)
Record pcmcfg := {
  pc_align : bool; pc_rate : Z + Z;   (* table index or explicit rate *)
  pc_bits : Z; pc_size : Z; pc_fix : Z; pc_ids : list Z; pc_loud : Z; pc_att : Z; pc_attg : Z }.

Definition enc_pcmcfg (c : pcmcfg) : list bool :=
  bits_of 7 (Z.of_nat (length (pc_ids c)) - 1) ++ flag (pc_align c) ++
  match pc_rate c with inl i => bits_of 5 i | inr r => bits_of 5 31 ++ bits_of 24 r end ++
  bits_of 3 (pc_bits c) ++ bits_of 3 (pc_size c) ++
  (if pc_size c =? 5 then bits_of 16 (pc_fix c) else []) ++
  concat (map (bits_of 7) (pc_ids c)) ++ bits_of 8 (pc_loud c) ++ bits_of 2 (pc_att c) ++
  (if pc_att c =? 1 then bits_of 8 (pc_attg c) else []).

Definition valid_pcmcfg (c : pcmcfg) : Prop :=
  (1 <= length (pc_ids c) <= 128)%nat /\ Forall (fits 7) (pc_ids c) /\
  match pc_rate c with inl i => 0 <= i < 31 | inr r => fits 24 r end /\
  0 <= pc_bits c <= 2 /\ fits 3 (pc_size c) /\ fits 16 (pc_fix c) /\
  fits 8 (pc_loud c) /\ fits 2 (pc_att c) /\ fits 8 (pc_attg c).

(** Samples in two's complement, [b] bits each, row by row. *)
Definition enc_sample (b : nat) (v : Z) : list bool := bits_of b (v mod 2 ^ Z.of_nat b).
Definition fits_signed (b : nat) (v : Z) : Prop := - 2 ^ (Z.of_nat b - 1) <= v < 2 ^ (Z.of_nat b - 1).
(** A data packet for a stream without per-packet gain and with fixed frame size. *)
Definition enc_pcmdata (b : nat) (ids : list Z) (rows : list (list Z)) : list bool :=
  bits_of 7 (Z.of_nat (length ids) - 1) ++ concat (map (bits_of 7) ids) ++
  concat (map (fun r => concat (map (enc_sample b) r)) rows).

(** ** Loudness infos *)
Record meas := { ms_method : Z; ms_code : Z; ms_sys : Z; ms_rel : Z }.
Definition code_bits (m : Z) : nat := if m =? 7 then 5%nat else if m =? 8 then 2%nat else 8%nat.
Definition enc_meas (m : meas) : list bool :=
  bits_of 4 (ms_method m) ++ bits_of (code_bits (ms_method m)) (ms_code m) ++
  bits_of 4 (ms_sys m) ++ bits_of 2 (ms_rel m).
Definition valid_meas (m : meas) : Prop :=
  0 <= ms_method m <= 9 /\ 0 <= ms_code m < 2 ^ Z.of_nat (code_bits (ms_method m)) /\
  0 <= ms_sys m <= 11 /\ fits 2 (ms_rel m).

(** What the info is about: everything, a group, a switch group's member, a preset. *)
Inductive lscope := LAll | LGroup (g : Z) | LGroup2 (g : Z) | LPreset (p : Z).
Record loud := {
  ld_scope : lscope; ld_set : Z; ld_dmx : Z;
  ld_peak : option Z; ld_true : option (Z * Z * Z); ld_meas : list meas }.

Definition enc_scope (s : lscope) : list bool :=
  match s with
  | LAll => bits_of 2 0
  | LGroup g => bits_of 2 1 ++ bits_of 7 g
  | LGroup2 g => bits_of 2 2 ++ bits_of 7 g
  | LPreset p => bits_of 2 3 ++ bits_of 5 p
  end.
Definition enc_loud (l : loud) : list bool :=
  bits_of 6 (ld_set l) ++ bits_of 7 (ld_dmx l) ++ enc_opt (bits_of 12) (ld_peak l) ++
  enc_opt (fun '(v, s, r) => bits_of 12 v ++ bits_of 4 s ++ bits_of 2 r) (ld_true l) ++
  bits_of 4 (Z.of_nat (length (ld_meas l))) ++ concat (map enc_meas (ld_meas l)).
Definition valid_scope (s : lscope) : Prop :=
  match s with LAll => True | LGroup g | LGroup2 g => fits 7 g | LPreset p => fits 5 p end.
Definition valid_loud (l : loud) : Prop :=
  valid_scope (ld_scope l) /\ fits 6 (ld_set l) /\ fits 7 (ld_dmx l) /\
  match ld_peak l with None => True | Some v => fits 12 v /\ v <> 0 end /\
  match ld_true l with None => True | Some (v, s, r) => fits 12 v /\ v <> 0 /\ fits 4 s /\ fits 2 r end /\
  (length (ld_meas l) <= 15)%nat /\ Forall valid_meas (ld_meas l).

Definition enc_louds (ls albums : list loud) : list bool :=
  bits_of 6 (Z.of_nat (length ls)) ++ concat (map (fun l => enc_scope (ld_scope l) ++ enc_loud l) ls) ++
  (match albums with
   | [] => flag false
   | _ => flag true ++ bits_of 6 (Z.of_nat (length albums)) ++ concat (map enc_loud albums)
   end) ++ flag false.

(** What the decoder has to store for a loudness info.  Levels in quarters of a dB:
    methods 1-5: -57.75 dB + code/4; 6: loudness range table of ISO/IEC 23003-4;
    7: 80 + code; 8: code; 9: -116 + code/2. *)
Definition spec_quarters (m code : Z) : Z :=
  match m with
  | 6 => if code <=? 128 then code else if code <=? 204 then 2 * code - 128 else 4 * code - 536
  | 7 => 4 * (80 + code)
  | 8 => 4 * code
  | 9 => 4 * (-116) + 2 * code
  | _ => code - 4 * 57 - 3
  end.

(** ** Streams of packets *)
Inductive pkt :=
| Filler (ty lb : Z) (payload : list Z)          (* a type this parser passes over *)
| Sync (lb : Z)
| User (lb : Z) (payload : list Z)               (* user interaction *)
| Scene (lb : Z) (sc : scene) (pad : list bool). (* audio scene, padded to bytes *)

Definition enc_pkt (p : pkt) : list bool :=
  match p with
  | Filler ty lb bs => enc_header ty lb (Z.of_nat (length bs)) ++ enc_bytes bs
  | Sync lb => enc_header 6 lb 1 ++ bits_of 8 0xA5
  | User lb bs => enc_header 12 lb (Z.of_nat (length bs)) ++ enc_bytes bs
  | Scene lb sc pad =>
    enc_header 3 lb (Z.of_nat (length (enc_scene sc ++ pad)) / 8) ++ enc_scene sc ++ pad
  end.

Definition passed_over (ty : Z) : Prop :=
  0 <= ty <= max_type /\ ~ In ty [1; 2; 3; 6; 12; 19; 20; 21; 22].

(** A preset only sets what the group with the same index allows. *)
Definition presets_allowed (s : scene) : Prop :=
  forall i p, nth_error (sc_presets s) i = Some p ->
    exists g, nth_error (sc_groups s) i = Some g /\
      Forall (fun c => match co_on c with None => True | Some a =>
         (ac_gain a <> None -> gr_gain g <> None) /\ (ac_pos a <> None -> gr_pos g <> None) end)
        (pr_conds p).

Definition label_ok (lb : Z) : Prop := 0 <= lb < 258.
Definition valid_pkt (p : pkt) : Prop :=
  match p with
  | Filler ty lb bs => passed_over ty /\ label_ok lb /\ Z.of_nat (length bs) <= max_length
  | Sync lb => label_ok lb
  | User lb bs => label_ok lb /\ Z.of_nat (length bs) <= max_length
  | Scene lb sc pad =>
    label_ok lb /\ valid_scene sc /\
    Forall (fun g => member_count (gr_members g) <= 127) (sc_groups sc) /\ presets_allowed sc /\
    Z.of_nat (length (enc_scene sc ++ pad)) mod 8 = 0 /\
    Z.of_nat (length (enc_scene sc ++ pad)) / 8 <= max_length
  end.

Fixpoint last_scene (ps : list pkt) : option scene :=
  match ps with
  | [] => None
  | p :: r => match last_scene r, p with
              | Some s, _ => Some s
              | None, Scene _ s _ => Some s
              | None, _ => None
              end
  end.
Definition has_user (ps : list pkt) : bool :=
  existsb (fun p => match p with User _ _ => true | _ => false end) ps.

(** The stored scene [a] is the scene [sc]. *)
Definition scene_held (sc : scene) (a : asi) : Prop :=
  a_main a = 1 /\ z2b (a_idp a) = (match sc_id sc with None => false | _ => true end) /\
  (forall i, sc_id sc = Some i -> a_id a = i) /\
  map view_group (active_groups a) = sc_groups sc /\
  map view_switch (active_switch a) = sc_switch sc /\
  map view_preset (active_presets a) = sc_presets sc /\
  a_types a = map fst (sc_blocks sc) /\ a_max a = sc_max sc.
