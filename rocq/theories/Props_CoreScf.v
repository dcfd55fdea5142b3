(** * Properties of the scale factors and their bands *)
From Coq Require Import ZArith List Lia Bool.
From Verif Require Import Bits BitBuf CoreScf Spec_CoreScf Lem_CoreScf Lem_CoreScfRun Lem_CoreScfSafe CoreBands Spec_CoreBands Lem_CoreBands.
Import ListNotations.
Open Scope list_scope.
Open Scope Z_scope.

(** ** C113: scale factors are read as sent *)

(** Any gain, any grouping of the windows, any number of bands in use, any factors within
    0..255 that can be coded, wherever in a byte the factors start and however the frame ends
    after them: every window gets the factors of its group, bands not in use get 0, and
    the rest of the stream is untouched.  Missing: readers that stop less than 25 bits after
    the start but before the end of the buffer. *)
Theorem C113_factors_partial : forall islong nsb max sizes gain rows post fac,
  valid_factors max gain rows -> length rows = length sizes -> sizes_ok islong sizes ->
  (max <= nsb)%nat -> (0 < nsb)%nat -> (list_sum sizes * nsb <= length fac)%nat -> (64 <= length fac)%nat ->
  forall s rest, wf s -> enough s -> rest_bits s = enc_factors gain rows ++ rest ->
  exists fac' s', section_data islong (Z.of_nat (list_sum sizes)) nsb max (ends 0 sizes ++ post) gain fac s = Done (0, fac', s') /\
    wf s' /\ rest_bits s' = rest /\ firstn (list_sum sizes * nsb) fac' = all_factors nsb max sizes gain rows /\ length fac' = length fac.
Proof. exact scf_exec. Qed.
Print Assumptions C113_factors_partial.

(** Eight windows in three groups. *)
Example C113_case : valid_factors 3 100 case_rows /\ sizes_ok false [1; 4; 3]%nat /\
  all_factors 4 3 [1; 4; 3]%nat 100 case_rows =
    [100; 108; 97; 0; 97; 96; 156; 0; 97; 96; 156; 0; 97; 96; 156; 0; 97; 96; 156; 0; 200; 255; 195; 0; 200; 255; 195; 0; 200; 255; 195; 0].
Proof. split; [apply case_valid|]. split; [apply case_valid|exact case_all]. Qed.

(** With less than 25 bits to go and more bytes behind them, factors are misread. *)
Theorem C113_tight_refuted : exists gain rows s, valid_factors 2 gain rows /\ wf s /\ rest_bits s = enc_factors gain rows /\
  exists fac' s', section_data true 1 2 2 [1] gain (repeat 0 128) s = Done (0, fac', s') /\ firstn 2 fac' <> all_factors 2 2 [1%nat] gain rows.
Proof. exists 100, [[100; 156]], tight. exact misread. Qed.
Print Assumptions C113_tight_refuted.

(** Factors have to be within 0 and 255; one below 0 is accepted. *)
Theorem C113_range_refuted : exists d, wf (fresh d) /\ enough (fresh d) /\
  exists fac' s', section_data true 1 2 2 [1] 10 (repeat 0 128) (fresh d) = Done (0, fac', s') /\ nth 1 fac' 0 < 0.
Proof. exists neg_bytes. destruct negative as (f & s & A & B & C & D). eauto 10. Qed.
Print Assumptions C113_range_refuted.

(** Any bits at all, as long as the frame has 19 for every band in use: no undefined
    behaviour, the factors are read or the frame is refused, no factor read is above 255, and
    no more than 19 bits are taken per band. *)
Theorem C113_safe_partial : forall islong nsb max sizes post gain fac s,
  wf s -> enough s -> Forall (fun n => 1 <= n)%nat sizes -> (length sizes <= 8)%nat ->
  (list_sum sizes * nsb <= length fac)%nat -> (64 <= length fac)%nat -> Forall (fun v => v <= 255) fac ->
  19 * Z.of_nat (length sizes * max) <= r_cnt s ->
  exists e fac' s', section_data islong (Z.of_nat (list_sum sizes)) nsb max (ends 0 sizes ++ post) gain fac s = Done (e, fac', s') /\
    (e = 0 \/ e = E_SF) /\ wf s' /\ r_cnt s - 19 * Z.of_nat (length sizes * max) <= r_cnt s' <= r_cnt s /\
    (e = 0 -> Forall (fun v => v <= 255) fac' /\ length fac' = length fac).
Proof. exact scf_safe. Qed.
Print Assumptions C113_safe_partial.

(** A frame that ends within its scale factors makes the decoder shift a 32-bit word by 32 or
    more. *)
Theorem C113_end_refuted : exists d, wf (fresh d) /\ enough (fresh d) /\
  section_data true 1 4 4 [1] 100 (repeat 0 128) (fresh d) = UB UShift.
Proof. exists [255; 255; 255; 255]. exact runs_out. Qed.
Print Assumptions C113_end_refuted.

(** ** C114: the scale factor bands are those of the standard *)

(** For every sampling rate, whatever the structures held before, for long windows and for
    the eight short ones. *)
Theorem C114_bands : forall rate l s, dim_bi 64 l -> dim_bi 16 s ->
  exists l' s', info_init rate l s = Done (l', s') /\ dim_bi 64 l' /\ dim_bi 16 s' /\
    describes l' 1 (long_widths (nominal rate)) (long_widths (nominal rate)) /\
    describes s' 8 (short_widths (nominal rate)) (windows 8 (short_widths (nominal rate))).
Proof. exact bands_init. Qed.
Print Assumptions C114_bands.

Example C114_case : dim_bi 64 (mkBi 0 (repeat 0 64) (repeat 0 125)) /\ dim_bi 16 (mkBi 0 (repeat 0 16) (repeat 0 125)) /\
  nominal 47000 = 48000 /\ length (long_widths 48000) = 49%nat /\ tops 0 (short_widths 48000) = [4; 8; 12; 16; 20; 28; 36; 44; 56; 68; 80; 96; 112; 128].
Proof. repeat split. Qed.

(** Whatever the rate, each of the 1024 lines of a frame is in exactly one of the bands set up,
    long windows or short. *)
Theorem C114_cover : forall rate l s l' s', dim_bi 64 l -> dim_bi 16 s -> info_init rate l s = Done (l', s') -> forall x, 0 <= x < 1024 ->
  one_band (firstn (Z.to_nat (b_n l')) (b_idx l')) x /\ one_band (firstn (8 * Z.to_nat (b_n s')) (b_idx s')) x.
Proof. exact bands_cover. Qed.
Print Assumptions C114_cover.
