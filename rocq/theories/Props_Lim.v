(** * Props_Lim: what a user relies on from the peak limiter

    C36, C37, C38.  The two smoothing coefficients (results of pow, decimal 0.1 to a power
    between 0 and 1) are parameters from 0 to 1; n is the attack time in samples, 240 in the
    library; fs is the sequence of frames handed to the limiter, of any sizes. *)

From Coq Require Import ZArith List SpecFloat.
From Verif Require Import F32 Limiter Spec_Lim Lem_Lim.
Import ListNotations.

(** C36.  Every output value lies within the limiter threshold, for every input signal
    whose delayed value is a finite number (the signal may hold infinities and NaN anywhere
    else), however the signal is cut into frames.  Missing for the full claim: see
    C36_nan_refuted. *)
Theorem C36_within_threshold_partial : forall n nch ac rc fs,
  (0 < n)%nat -> coefficient ac -> coefficient rc -> signal nch (concat fs) ->
  Forall2 (Forall2 (fun x y => finite x = true -> between (SFopp limit_level) limit_level y))
    (delayed n nch (concat fs)) (fst (lim_frames (lim_init n nch ac rc) fs)).
Proof. exact limiter_bounded. Qed.
Print Assumptions C36_within_threshold_partial.

(** C36.  Not for every input signal: a NaN in the signal comes out as NaN, it is not
    limited. *)
Theorem C36_nan_refuted : forall n nch ac rc,
  (0 < n)%nat -> (0 < nch)%nat -> coefficient ac -> coefficient rc ->
  exists xs, signal nch xs /\
    exists r, In r (fst (lim_frames (lim_init n nch ac rc) [xs])) /\ In S754_nan r.
Proof. exact limiter_nan. Qed.
Print Assumptions C36_nan_refuted.

(** C37.  A signal that never exceeds the threshold comes out unchanged, bit for bit,
    delayed by exactly the attack time, however it is cut into frames. *)
Theorem C37_transparent : forall n nch ac rc fs,
  (0 < n)%nat -> coefficient ac -> coefficient rc -> signal nch (concat fs) ->
  Forall (Forall (fun x => magnitude_le x limit_level)) (concat fs) ->
  fst (lim_frames (lim_init n nch ac rc) fs) = delayed n nch (concat fs).
Proof. exact limiter_transparent. Qed.
Print Assumptions C37_transparent.

(** C37.  The cut into frames never matters, for any signal and any state. *)
Theorem C37_frames_irrelevant : forall l fs gs,
  concat fs = concat gs -> lim_frames l fs = lim_frames l gs.
Proof. exact limiter_split. Qed.
Print Assumptions C37_frames_irrelevant.

(** C38.  After any signal, of any length and with any values (infinities and NaN
    included), the level the gain of the last sample was computed from is the largest
    magnitude of the last attack time + 1 samples over all channels. *)
Theorem C38_window_maximum : forall n nch ac rc fs,
  (0 < n)%nat -> coefficient ac -> coefficient rc -> signal nch (concat fs) ->
  let l := snd (lim_frames (lim_init n nch ac rc) fs) in
  largest_magnitude (window n nch (concat fs)) (ix (l_max l) (l_midx l)).
Proof. exact limiter_level. Qed.
Print Assumptions C38_window_maximum.

(** The hypotheses are met by a loud signal in two frames; the limiter reduces it. *)
Definition ac0 := S754_finite false 16000000 (-24).
Definition loud := of_int 65536.
Definition soft := of_int 1000.
Example C36_case :
  coefficient ac0 /\ signal 2 (concat [[[loud; soft]; [soft; soft]]; [[soft; soft]]]) /\
  map (map (fun y => f_le y limit_level)) (fst (lim_frames (lim_init 1 2 ac0 ac0) [[[loud; soft]; [soft; soft]]; [[soft; soft]]])) =
    [[true; true]; [true; true]; [true; true]] /\
  f_lt limit_level loud = true /\
  f_lt (nth 1 (nth 1 (fst (lim_frames (lim_init 1 2 ac0 ac0) [[[loud; soft]; [soft; soft]]; [[soft; soft]]])) []) S754_nan) soft = true.
Proof.
  split; [split; [|split]; vm_compute; reflexivity|]. split; [repeat constructor; vm_compute; reflexivity|].
  split; [vm_compute; reflexivity|]. split; vm_compute; reflexivity.
Qed.
Example C37_case : forall x, x = soft ->
  magnitude_le x limit_level /\
  fst (lim_frames (lim_init 2 1 ac0 ac0) [[[x]; [x]; [x]]]) = [[S754_zero false]; [S754_zero false]; [x]].
Proof. intros x ->. split; vm_compute; reflexivity. Qed.
Example C38_case : window 1 1 [[soft]; [loud]; [soft]] = [[loud]; [soft]] /\
  (let l := snd (lim_frames (lim_init 1 1 ac0 ac0) [[[soft]; [loud]; [soft]]]) in ix (l_max l) (l_midx l)) = loud.
Proof. split; vm_compute; reflexivity. Qed.
