(** * Props_Pcm: properties of the output samples *)

From Coq Require Import ZArith List Lia SpecFloat.
From Verif Require Import Bits BitBuf Prog Frame F32 Config Api Pcm Spec_Pcm Lem_F32 Lem_PcmOut Lem_PcmMap.
Import ListNotations.
Open Scope Z_scope.

(** C40, for every number of channels, frame length, remaining start-up delay, channel map
    that is a permutation of the channels, word size 16, 24 or 32 and samples that are
    numbers (infinities included), at 32 bits below full scale: the bytes written are the
    samples from the delay on, truncated and limited to the word size, little-endian,
    interleaved in the order of the channel map, and their number is reported. *)
Theorem C40_samples_partial : forall b n d nch map x p w,
  (b = 16 \/ b = 24 \/ b = 32) -> 0 <= d -> 0 <= nch <= 24 -> nch <= Z.of_nat (length map) ->
  inverse_map map nch p ->
  (forall c s, 0 <= c < nch -> d <= s < n -> float32 (x c s) /\ (b = 32 -> below_full_scale (x c s))) ->
  (forall j s, 0 <= j < nch -> d <= s < n -> word_of b (x (p j) s) (w j s)) ->
  exists o, samples_sat n b x map d nch = Some o /\
    po_bytes o = interleaved b nch w d n /\
    po_count o = Z.of_nat (length (po_bytes o)) /\
    po_delay o = Z.max 0 (d - n) /\
    length (po_map o) = length map /\
    (forall c, 0 <= c < nch -> dest (po_map o) c = dest map c) /\
    (forall c, nch <= c -> nth (Z.to_nat c) (po_map o) 0 = nth (Z.to_nat c) map 0).
Proof. exact sat_ok. Qed.
Print Assumptions C40_samples_partial.

(** C40: without shifted channels the channel map of a configuration with any number of
    channels up to 24 is the identity, for any number of output channels. *)
Theorem C40_order_partial : forall k nch rest, (k <= 24)%nat -> 0 <= nch <= 24 ->
  exists map, runA (channel_map (repeat (0, 0) k)) rest = Done (map, rest) /\
    length map = 50%nat /\ inverse_map map nch (fun c => c).
Proof. exact plain_map. Qed.
Print Assumptions C40_order_partial.

(** C40: a call writes exactly the reported number of bytes, and they fit the output buffer
    the library asks for when nothing is resampled, with the access unit and one pre-roll. *)
Theorem C40_room_partial : forall us b nch map d bs c,
  (b = 16 \/ b = 24 \/ b = 32) -> 0 <= nch <= 24 -> 0 <= d -> (length us <= 2)%nat ->
  put_units us 1024 b map d nch = Some (bs, c) ->
  c = Z.of_nat (length bs) /\ c <= OUT_BUF_SIZE.
Proof. exact room_ok. Qed.
Print Assumptions C40_room_partial.

(** C40 is false for a 16 kHz stream resampled to 48 kHz: the frame length the decoder sets
    is 3072 and 17 channels of 32 bits do not fit the buffer. *)
Theorem C40_room_refuted : forall c, exists c',
  get_sampling_ratio (s_c_rates c 48000 16000) = Some (0, c') /\
  forall x, (forall k s, float32 (x k s) /\ below_full_scale (x k s)) ->
    exists o, samples_sat (c_flen c') 32 x (repeat (-1) 50) 0 17 = Some o /\
      OUT_BUF_SIZE < Z.of_nat (length (po_bytes o)) /\ po_count o = Z.of_nat (length (po_bytes o)).
Proof. exact room_over. Qed.
Print Assumptions C40_room_refuted.

(** C40 is false at 32 bits for every sample at or above full scale: the limit, 2147483647.0f,
    is 2^31, which does not fit the integer. *)
Theorem C40_full_scale_refuted : forall x v, float32 x -> value149 x = Some v -> 2 ^ 15 * 2 ^ 149 <= v ->
  samples_sat 1 32 (fun _ _ => x) [-1] 0 1 = None.
Proof. exact full_scale. Qed.
Print Assumptions C40_full_scale_refuted.
(** C40 is false for a sample that is not a number, at every word size. *)
Theorem C40_nan_refuted : forall b, samples_sat 1 b (fun _ _ => S754_nan) [-1] 0 1 = None.
Proof. exact sat_nan. Qed.
Print Assumptions C40_nan_refuted.

(** C40 is false for a channel pair with a shifted second channel, which the configuration
    parser accepts: the second channel is lost and the first one written twice. *)
Theorem C40_shift_refuted : forall el, exists map el',
  runA (cpe_config el (repeat (-1) 50) 2) [false;false;false;false;false;false;true;false;false]
    = Done ((0, (el', map)), []) /\
  forall x w, (forall c, 0 <= c < 2 -> float32 (x c 0) /\ word_of 16 (x c 0) (w c)) ->
    exists o, samples_sat 1 16 x map 0 2 = Some o /\ po_bytes o = le_bytes 2 (w 0) ++ le_bytes 2 (w 0).
Proof. exact shift_duplicates. Qed.
Print Assumptions C40_shift_refuted.
(** With sixteen channels a shifted last pair makes the output conversion write outside its
    table of channel positions, whatever the samples are. *)
Theorem C40_shift_table_refuted : forall el, exists map el',
  runA (cpe_config el (map_of 14) 16) [false;false;false;false;false;false;true;true;true;true;true;false]
    = Done ((0, (el', map)), []) /\
  forall n b x d, samples_sat n b x map d 16 = None.
Proof. exact shift_overflows. Qed.
Print Assumptions C40_shift_table_refuted.

Example C40_case :
  samples_sat 2 16 (fun c s => of_int (256 * c - s)) [1; 0] 1 2 =
    Some (mkPO [255; 0; 255; 255] [1; 0] 0 4) /\
  inverse_map [1; 0] 2 (fun j => 1 - j) /\
  float32 (of_int (-1)) /\ below_full_scale (of_int (-1)) /\ word_of 24 (of_int (-1)) (-256).
Proof. exact pcm_case. Qed.
