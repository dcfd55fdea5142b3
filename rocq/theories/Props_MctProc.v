(** * Properties of what the multichannel coding tool does to the spectra *)
From Coq Require Import ZArith List Lia Bool SpecFloat.
From Verif Require Import Bits BitBuf F32 Prog Mct Spec_Mct MctProc Spec_MctProc Spec_MctFill Lem_MctHuff Lem_MctBand Lem_MctBox Lem_MctRT Lem_MctFrame Lem_MctSafe Lem_MctCut Lem_MctSeq Lem_MctProc Lem_MctFill Lem_MctPair.
Import ListNotations.
Open Scope Z_scope.

(** ** C105: every line of a pair is upmixed with the coefficient of its band *)

(** A frame the decoder has read (what it shows is the frame, as after [C102_stream]), one
    of its pairs, two spectra long enough for all windows, and any table of band ends: the
    two spectra become, line by line, the rotation or prediction with the coefficient that
    the frame gives for the band of that line in its window; a line whose band is not
    processed, or behind the windows, keeps its value. *)
Theorem C105_upmix : forall nch pk hs f st i s cs sn tbl bins d r,
  frame_ok nch pk hs f -> shows_frame f st -> nth_error (f_boxes f) i = Some s ->
  length cs = 65%nat -> length sn = 65%nat -> ends_ok (Z.of_nat bins) tbl ->
  length r = length d -> (windows (s_short s) * bins <= length d)%nat ->
  exists b d' r', nth_error (t_boxes st) i = Some b /\
    mc_apply cs sn (t_type st) b (x_long b) (Z.of_nat bins) (Z.of_nat (length tbl)) tbl (windows (s_short s)) (d, r) = Done (d', r') /\
    length d' = length d /\ length r' = length d /\
    (forall w k, (w < windows (s_short s))%nat -> (k < bins)%nat ->
       (nth (w * bins + k) d' S754_nan, nth (w * bins + k) r' S754_nan) =
       upmix cs sn (f_kind f) (s_dir s) (coefficient s tbl w (Z.of_nat k)) (nth (w * bins + k) d S754_nan, nth (w * bins + k) r S754_nan)) /\
    (forall k, (windows (s_short s) * bins <= k)%nat -> nth k d' S754_nan = nth k d S754_nan /\ nth k r' S754_nan = nth k r S754_nan).
Proof. exact pair_upmix. Qed.
Print Assumptions C105_upmix.

(** A pair with two of three bands on, rotated by 45 degrees in one of them. *)
Example C105_case : frame_ok 4 Prediction [] ex_pair_frame /\ shows_frame ex_pair_frame ex_pair_state /\
  ends_ok 6 [2; 3; 5; 6] /\
  map (fun k => coefficient ex_pair [2; 3; 5; 6] 0 (Z.of_nat k)) (seq 0 6) = [Some 48; Some 48; Some 48; None; None; None].
Proof. exact ex_pair_ok. Qed.

(** The tables of the decoder: 65 angles, the cosine and the sine of each on the unit circle
    to five digits, opposite angles with opposite sines. *)
Theorem C105_tables : length rom_cos = 65%nat /\ length rom_sin = 65%nat /\
  forall i, (i <= 64)%nat -> exists c s, nth_error cos_millionths i = Some c /\ nth_error sin_millionths i = Some s /\
    nth_error rom_cos i = Some (F32.lit c 1000000) /\ nth_error rom_sin i = Some (F32.lit s 1000000) /\
    Z.abs (c * c + s * s - 10 ^ 12) <= 10 ^ 6 * 2 /\
    nth_error cos_millionths (64 - i) = Some c /\ nth_error sin_millionths (64 - i) = Some (- s).
Proof. exact rom_circle. Qed.
Print Assumptions C105_tables.

(** The angle -1 that [C103_cut_refuted] lets through: the upmix of that pair reads in front
    of the tables, whatever the tables and the spectra are. *)
Theorem C103_lines_refuted : exists st' d' l r s' b,
  exec (mc_init 3 2 0 mct0) (fresh [192]) = Done ((0, st'), d') /\ Forall payload_ok cut_stream /\
  decode_frames cut_stream st' = Done [l; (r, s')] /\ nth_error (t_boxes r) 0 = Some b /\
  forall cs sn tbl total bins x y xs ys, 0 < bins ->
    mc_apply cs sn (t_type r) b (x_long b) bins total tbl 1 (x :: xs, y :: ys) = UB UOob.
Proof. exact cut_lines. Qed.
Print Assumptions C103_lines_refuted.

(** ** C106: the downmix of the frame before, for stereo filling *)

(** A window of a pair, the two channels of the frame before: half their sum or difference
    for prediction, the rotation back with the angle of each band for rotation.  For
    rotation band by band this is so when the number of scale factor bands is odd. *)
Theorem C106_downmix_partial : forall cs sn l r N bins tbl row mask coef k (rev : bool) whole dmx bw mf,
  length cs = 65%nat -> length sn = 65%nat -> length l = N -> length r = N -> length dmx = N -> (bins <= N)%nat ->
  ends_ok (Z.of_nat bins) tbl ->
  (forall t o, nth_error row t = Some o -> nth_error mask t = Some (match o with Some _ => 1 | None => 0 end) /\
     forall q, o = Some q -> nth_error coef t = Some q /\ 0 <= q <= 64) ->
  (forall q, whole = Some q -> nth_error coef 0 = Some q /\ 0 <= q <= 64) ->
  (k = Rotation -> whole = None -> Nat.Odd (length tbl) /\ (length tbl <= 127)%nat /\ (length tbl < 2 * length mask)%nat) ->
  ((bw =? 0) && (mf =? 0) = match whole with Some _ => true | None => false end) ->
  exists d', prev_dmx cs sn (match k with Prediction => 0 | Rotation => 1 end) bw mf (if rev then 1 else 0) (Some l) (Some r) mask coef
      (Z.of_nat (length row)) (Z.of_nat bins) (Z.of_nat (length tbl)) tbl dmx = Done (0, d') /\
    length d' = N /\ forall i, (i < bins)%nat -> nth i d' S754_nan =
      match k with
      | Prediction => half rev (nth i l S754_nan) (nth i r S754_nan)
      | Rotation => match angle_at whole row tbl (Z.of_nat i) with
                    | Some a => turn_back cs sn a (nth i l S754_nan) (nth i r S754_nan)
                    | None => nth i dmx S754_nan end
      end.
Proof. exact downmix_window. Qed.
Print Assumptions C106_downmix_partial.

(** With an even number of bands no pair rotated band by band is accepted, whatever its
    masks, angles and spectra: the 14 bands of the short windows at 48 kHz among them. *)
Theorem C106_even_refuted :
  (forall cs sn bw mf rev p1 p2 mask coef bpw bins tbl dmx d, (bw =? 0) && (mf =? 0) = false ->
     Nat.Even (length tbl) -> (length tbl <= 126)%nat ->
     prev_dmx cs sn 1 bw mf rev p1 p2 mask coef bpw bins (Z.of_nat (length tbl)) tbl dmx <> Done (0, d)) /\
  prev_dmx rom_cos rom_sin 1 1 0 0 None None (repeat 1 64) (repeat 48 64) 8 128 14 sfb_48_short (repeat (S754_zero false) 128)
    = Done (E_SFB, repeat (S754_zero false) 128).
Proof. exact even_refused. Qed.
Print Assumptions C106_even_refuted.

(** Three bands, the second pair of them not processed, against the cosine and sine of 45
    degrees. *)
Example C106_case : ends_ok 4 [1; 3; 4] /\ Nat.Odd (length [1; 3; 4]) /\
  map (angle_at None [Some 48; None] [1; 3; 4]) [0; 1; 2; 3] = [Some 48; Some 48; Some 48; Some 32].
Proof. exact ex_fill_ok. Qed.
