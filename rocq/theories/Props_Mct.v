(** * Properties of the multichannel coding tool *)
From Coq Require Import ZArith List Lia Bool.
From Verif Require Import Bits BitBuf BitWrite Prog Mct Spec_Mct Lem_MctHuff Lem_MctBand Lem_MctBox Lem_MctRT Lem_MctFrame Lem_MctSafe Lem_MctCut Lem_MctSeq.
Import ListNotations.
Open Scope Z_scope.

(** ** C102: the side information is read as it was written *)

(** A tool configured for the channels [mask] of the signals from [start] on, then any
    number of frames, each written against the one before, with anything behind them in
    their payloads: the decoder accepts every frame, and shows for each frame the number of
    pairs, prediction or rotation, and for each pair its channels, flags, windows, which
    bands are processed and the coefficient of each of those. *)
Theorem C102_stream : forall ety start mask fs ps d st sd, ety <> 2 -> unused st ->
  (start + length mask <= 24)%nat -> (2 <= length (picked mask))%nat -> wf d -> rest_bits d = mask ++ sd ->
  stream_ok (Z.of_nat (length (picked mask))) Prediction [] fs ->
  Forall2 (carries start mask) (combine fs (stream_bits (Z.of_nat (length (picked mask))) [] fs)) ps ->
  exists st' d' sts, exec (mc_init ety (Z.of_nat (length mask)) (Z.of_nat start) st) d = Done ((0, st'), d') /\ rest_bits d' = sd /\
    decode_frames ps st' = Done sts /\ Forall2 (fun f r => shows_frame f (fst r)) fs sts.
Proof. exact mct_stream. Qed.
Print Assumptions C102_stream.

(** One frame, from any state that agrees with what the frames before left. *)
Theorem C102_frame : forall pk hs f nch st sfb rest s, tracks pk hs st -> frame_ok nch pk hs f -> t_nch st = nch -> nch <= 24 ->
  Forall (window_is st sfb) (f_boxes f) -> wf s -> rest_bits s = frame_bits nch hs f ++ rest ->
  exists st' s', exec (mc_parse (z1 (f_indep f)) sfb st) s = Done ((0, st'), s') /\ rest_bits s' = rest /\
    shows_frame f st' /\ tracks (f_kind f) (map (leaves (f_kind f)) (f_boxes f)) st'.
Proof. exact mct_frame. Qed.
Print Assumptions C102_frame.

(** Three frames on five marked channels: rotations in masked bands of short windows, then
    full-band against the frame before, then predictions. *)
Example C102_case : stream_ok 5 Prediction [] ex_frames /\ picked ex_mask = [0; 1; 3; 4; 6]%nat /\
  map (@length bool) (stream_bits 5 [] ex_frames) = [143; 27; 98]%nat /\
  (exists ps, Forall2 (carries 0 ex_mask) (combine ex_frames (stream_bits 5 [] ex_frames)) ps).
Proof. exact ex_stream. Qed.

(** ** C103: any side information *)

(** Whatever the payloads of up to 550000 frames contain, reading them does nothing
    undefined.  If at least 19 bits are left in each payload, every angle is an index of
    the tables of sines and cosines and every pair names channels of the decoder. *)
Theorem C103_side_safe : forall ety start mask st sd d st' d' ps, ety <> 2 -> unused st ->
  Forall (fun c => 0 <= c <= 23) (t_cmap st) -> (start + length mask <= 24)%nat -> wf d -> rest_bits d = mask ++ sd ->
  exec (mc_init ety (Z.of_nat (length mask)) (Z.of_nat start) st) d = Done ((0, st'), d') ->
  Forall payload_ok ps -> Z.of_nat (length ps) <= 550000 ->
  (forall r, decode_frames ps st' <> UB r) /\
  (forall l, decode_frames ps st' = Done l -> Forall (fun r => (19 <= length (rest_bits (snd r)))%nat) l ->
     Forall (fun r => in_tables (fst r)) l).
Proof. exact mct_safe. Qed.
Print Assumptions C103_side_safe.

(** A payload that ends inside a codeword is accepted, with the angle -1: the sine and the
    cosine are then read in front of their tables. *)
Theorem C103_cut_refuted : exists st' d' l r s' b,
  exec (mc_init 3 2 0 mct0) (fresh [192]) = Done ((0, st'), d') /\ Forall payload_ok cut_stream /\
  decode_frames cut_stream st' = Done [l; (r, s')] /\ t_type r = 1 /\ t_np r = 1 /\
  nth_error (t_boxes r) 0 = Some b /\ x_nb b = 64 /\ nth_error (x_mask b) 0 = Some 1 /\ nth_error (x_coef b) 0 = Some (-1).
Proof. exact cut_accepted. Qed.
Print Assumptions C103_cut_refuted.

(** A configuration and a payload with bits to spare. *)
Example C103_case : exists st' d' l, exec (mc_init 3 2 0 mct0) (fresh [192]) = Done ((0, st'), d') /\
  decode_frames [(1, all_long, [66; 59; 192; 0; 0])] st' = Done l /\
  length l = 1%nat /\ Forall (fun r => (19 <= length (rest_bits (snd r)))%nat) l.
Proof. exact spare_case. Qed.

(** ** C104: the channels the tool applies to *)

(** On a structure not used before the tool applies to exactly the marked channels, in
    order; fewer than two are refused. *)
Theorem C104_channels_partial : forall ety start mask st sd d, ety <> 2 -> unused st -> (start + length mask <= 24)%nat -> wf d -> rest_bits d = mask ++ sd ->
  exists st' d', exec (mc_init ety (Z.of_nat (length mask)) (Z.of_nat start) st) d =
      Done ((if Z.of_nat (length (picked mask)) <? 2 then E_ENTRIES else 0, st'), d') /\ rest_bits d' = sd /\
    t_start st' = Z.of_nat start /\ t_nch st' = Z.of_nat (length (picked mask)) /\
    (forall i p, nth_error (picked mask) i = Some p -> nth_error (t_cmap st') (start + i) = Some (Z.of_nat (start + p))).
Proof. exact init_exec. Qed.
Print Assumptions C104_channels_partial.

Example C104_case : picked [true; false; true; true; false; true] = [0; 2; 3; 5]%nat /\ unused mct0.
Proof. split; [reflexivity|exact unused0]. Qed.

(** The count of channels is not reset: a second configuration appends to the first. *)
Theorem C104_again_refuted : exists st1 d1 st2 d2,
  exec (mc_init 3 4 0 mct0) (fresh [208]) = Done ((0, st1), d1) /\
  exec (mc_init 3 4 0 st1) (fresh [208]) = Done ((0, st2), d2) /\
  t_nch st1 = 3 /\ firstn 4 (t_cmap st1) = [0; 1; 3; 0] /\ t_nch st2 = 6 /\ firstn 6 (t_cmap st2) = [0; 1; 3; 0; 1; 3].
Proof. exact init_again. Qed.
Print Assumptions C104_again_refuted.

(** With 16 channels the second configuration writes outside the table. *)
Theorem C104_overrun_refuted : exists st1 d1, exec (mc_init 3 16 0 mct0) (fresh [255; 255]) = Done ((0, st1), d1) /\
  exec (mc_init 3 16 0 st1) (fresh [255; 255]) = UB UOob.
Proof. exact init_overrun. Qed.
Print Assumptions C104_overrun_refuted.
