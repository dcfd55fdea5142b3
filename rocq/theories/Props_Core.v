(** * Properties of the headers of channels coded in the frequency domain *)
From Coq Require Import ZArith List Lia Bool.
From Verif Require Import Bits BitBuf Prog Spec_Asi CoreIcs CoreSte CorePair Spec_CoreIcs Lem_CoreIcs Lem_CoreTns Spec_CoreSte Lem_CoreSte Spec_CorePair Lem_CorePair Lem_CoreSafe Lem_CoreProps.
Import ListNotations.
Open Scope list_scope.
Open Scope Z_scope.

(** ** C109: TNS filters are read as sent *)

(** Any number of filters in every window, coarse or fine, compressed or not: after reading,
    the decoder holds for every filter the bands it works on, order, direction and signed
    coefficients, and the rest of the stream is untouched.  Missing: a filter that reaches
    down to the lowest band. *)
Theorem C109_tns_partial : forall nl ns islong l t,
  valid_tns islong l -> Forall (above (if islong then nl else ns)) l -> 0 < nl -> 0 < ns -> dim_tns t ->
  forall d rest, wf d -> rest_bits d = enc_tns islong l ++ rest ->
  exists t' d', exec (read_tns nl ns (Some islong) t) d = Done ((0, t'), d') /\ rest_bits d' = rest /\
    holds_tns (if islong then nl else ns) l t' /\ dim_tns t'.
Proof. exact tns_exec. Qed.
Print Assumptions C109_tns_partial.

(** Two filters, one of them compressed, with negative coefficients. *)
Example C109_case : valid_tns true case_tns /\ Forall (above 49) case_tns /\ dim_tns tns0 /\ length (enc_tns true case_tns) = 42%nat.
Proof.
  split; [|split; [|split; [exact dim_tns0|reflexivity]]].
  - unfold valid_tns, valid_twin, valid_filt. cbn. repeat split; try lia; repeat constructor; cbn; lia.
  - unfold above. repeat constructor; cbn; lia.
Qed.

(** A filter over all bands is a valid thing to send; every stream with one is refused. *)
Theorem C109_lowest_refuted : forall nl ns t f fine more, 0 < nl < 64 -> dim_tns t ->
  valid_twin (wid true) (mkSw fine (f :: more)) -> nl <= sf_len f ->
  forall d rest, wf d -> rest_bits d = enc_tns true [mkSw fine (f :: more)] ++ rest ->
  exists t' d', exec (read_tns nl ns (Some true) t) d = Done ((E_STARTBAND, t'), d').
Proof. exact tns_reach. Qed.
Print Assumptions C109_lowest_refuted.

Example C109_lowest_case : valid_twin (wid true) (mkSw false [mkSf 49 0 false [1; -4; 3]]).
Proof. unfold valid_twin, valid_filt. cbn. split; [lia|]. repeat constructor; cbn; lia. Qed.

(** Whatever the bits, reading TNS data has no undefined behaviour. *)
Theorem C109_safe : forall nl ns info t d, dim_tns t -> wf d ->
  match exec (read_tns nl ns info t) d with
  | Done ((_, t'), _) => dim_tns t'
  | Jmp _ => True
  | UB _ => False
  end.
Proof. exact tns_safe. Qed.
Print Assumptions C109_safe.

(** ** C110: the header of a channel pair is read as sent *)

(** Window, bands of the two channels, mid/side or prediction, shared postfilter, shared TNS:
    all as sent, in the first pair of the stream; in later pairs unless they share TNS data
    and channel 0 uses windows of the other kind.  With [enf0] (the first element of the
    stream fills noise of its own) only without complex prediction; profile level without
    postfilter: only without. *)
Theorem C110_head_partial : forall (indep : bool) base3b enf0 offs nl prev (first : bool) info0 ref h s,
  bands_ok offs nl -> pst_dim s ->
  valid_pair nl (Z.of_nat (length offs)) indep (start indep ref) h -> holds_prev ref (c_rp (p_ste s)) (c_ip (p_ste s)) ->
  (base3b = 1 -> y_ltpf h = None) -> (enf0 = 1 -> uses_complex h = false) ->
  (match y_tns h, y_shared h with CommonTns _ _, Some z => first = true \/ info0 = Some (long_win (z_win z)) | _, _ => True end) ->
  forall d rest, wf d -> rest_bits d = enc_pair indep (start indep ref) h ++ rest ->
  exists s' d', exec (pair_head (b2z indep) base3b enf0 nl (widths 0 offs) prev first info0 s) d = Done ((0, s'), d') /\ rest_bits d' = rest /\
    holds_pair offs nl prev h s' /\ holds_prev (next_coefs indep ref h) (c_rp (p_ste s')) (c_ip (p_ste s')) /\ pst_dim s'.
Proof. exact pair_exec. Qed.
Print Assumptions C110_head_partial.

Example C110_case : bands_ok offs48 49 /\ pst_dim pst0 /\ valid_frames 49 14 [] case_frames /\ holds_prev [] (c_rp (p_ste pst0)) (c_ip (p_ste pst0)) /\
  valid_pair 49 14 true [] case_short.
Proof. split; [exact bands48|]. split; [exact dim0|]. split; [exact case_valid|]. split; [exact prev0|exact (case_short_valid true)]. Qed.

(** A later pair with eight short windows that share TNS data, while channel 0 has a long
    window: six of the eight windows' bits are left, to be taken for what follows. *)
Theorem C110_tns_refuted : valid_pair 49 14 true [] case_short /\
  forall d rest, wf d -> rest_bits d = enc_pair true [] case_short ++ rest ->
  exists s' d', exec (pair_head 1 0 0 49 (widths 0 offs48) 0 false (Some true) pst0) d = Done ((0, s'), d') /\ rest_bits d' = repeat false 6 ++ rest.
Proof. split; [exact (case_short_valid true)|exact short_left]. Qed.
Print Assumptions C110_tns_refuted.

(** The same header when channel 0 was never coded in the frequency domain: refused. *)
Theorem C110_first_refuted : forall d rest, wf d -> rest_bits d = enc_pair true [] case_short ++ rest ->
  exists s' d', exec (pair_head 1 0 0 49 (widths 0 offs48) 0 false None pst0) d = Done ((E_NOSFB, s'), d').
Proof. exact short_none. Qed.
Print Assumptions C110_first_refuted.

(** A pair that fills no noise of its own, with complex prediction: refused because of
    another element. *)
Theorem C110_other_refuted : valid_pair 49 14 true [] case_cplx /\
  forall d rest, wf d -> rest_bits d = enc_pair true [] case_cplx ++ rest ->
  exists s' d', exec (pair_head 1 0 1 49 (widths 0 offs48) 0 true None pst0) d = Done ((E_COMPPRED, s'), d').
Proof. split; [exact case_cplx_valid|exact cplx_refused]. Qed.
Print Assumptions C110_other_refuted.

(** More bands for the right channel than the window has: not valid, not refused, and 60
    bands are taken for stereo where the window has 49. *)
Theorem C110_bands_refuted : ~ valid_pair 49 14 true [] case_wide /\
  forall d rest, wf d -> rest_bits d = enc_pair true [] case_wide ++ rest ->
  exists s' d', exec (pair_head 1 0 0 49 (widths 0 offs48) 0 true None pst0) d = Done ((0, s'), d') /\ h_mste s' = 60 /\ rest_bits d' = rest.
Proof. split; [intros ((_ & H & _) & _); cbn in H; lia|exact wide_accepted]. Qed.
Print Assumptions C110_bands_refuted.

(** Whatever the bits: no undefined behaviour, as long as the prediction coefficients kept
    from frame to frame are below the largest int by 30000. *)
Theorem C110_safe : forall indep base3b enf0 nl ws prev first info0 C s d,
  0 < nl < 64 -> (0 < length ws <= 15)%nat -> 0 <= C -> C + 30000 < 2 ^ 31 -> pst_ok C s -> wf d ->
  match exec (pair_head indep base3b enf0 nl ws prev first info0 s) d with
  | Done ((_, s'), _) => pst_ok (C + 24000) s'
  | Jmp _ => True
  | UB _ => False
  end.
Proof. exact pair_safe. Qed.
Print Assumptions C110_safe.

(** ** C111: windows, and the groups of short windows *)

(** Sequence, shape, number of bands, groups and where the bands of the groups end. *)
Theorem C111_window : forall nl offs prev v w si, valid_win nl (Z.of_nat (length offs)) v -> bands_ok offs nl -> length (w_gd w) = 8%nat -> si_dim si ->
  forall d rest, wf d -> rest_bits d = enc_win v ++ rest ->
  exists w' si' d', exec (ics_info nl (widths 0 offs) prev w si) d = Done ((0, (w', si')), d') /\ rest_bits d' = rest /\
    holds_win prev v w' /\ si_dim si' /\ (if v_code v =? 2 then holds_groups offs (groups v) si' else si' = si).
Proof. exact win_exec. Qed.
Print Assumptions C111_window.

Example C111_case : valid_win 49 14 (mkWinfo 2 1 12 [true; true; false; true; false; true; true]) /\
  groups (mkWinfo 2 1 12 [true; true; false; true; false; true; true]) = [3; 2; 3] /\
  band_end offs48 [3; 2; 3] 1 4 = 3 * 128 + 2 * 20 /\ meant 2 1 = 4.
Proof. unfold valid_win. cbn. repeat split; lia. Qed.

(** A window with code 1 starts the way the window before ended, and the next window sees
    the end that was sent. *)
Theorem C111_slopes : forall prev c, 0 <= c < 4 ->
  (c = 1 -> short_begin (meant prev c) = short_end prev) /\ short_end (meant prev c) = short_end c.
Proof. exact slopes. Qed.
Print Assumptions C111_slopes.

(** The groups are in one place for all channels: when two channels of a frame have short
    windows in different groups, the groups of the first are gone when the second was read. *)
Theorem C111_groups_refuted : forall nl offs p1 p2 v1 v2 w1 w2 si d1 d2 r1 r2, bands_ok offs nl ->
  valid_win nl (Z.of_nat (length offs)) v1 -> valid_win nl (Z.of_nat (length offs)) v2 -> v_code v1 = 2 -> v_code v2 = 2 -> groups v1 <> groups v2 ->
  length (w_gd w1) = 8%nat -> length (w_gd w2) = 8%nat -> si_dim si -> wf d1 -> wf d2 ->
  rest_bits d1 = enc_win v1 ++ r1 -> rest_bits d2 = enc_win v2 ++ r2 ->
  exists w1' si1 d1' w2' si2 d2', exec (ics_info nl (widths 0 offs) p1 w1 si) d1 = Done ((0, (w1', si1)), d1') /\
    exec (ics_info nl (widths 0 offs) p2 w2 si1) d2 = Done ((0, (w2', si2)), d2') /\
    holds_groups offs (groups v1) si1 /\ ~ holds_groups offs (groups v1) si2.
Proof. exact shared_groups. Qed.
Print Assumptions C111_groups_refuted.

(** Whatever the bits, no undefined behaviour. *)
Theorem C111_safe : forall nl ws prev w si d, (length ws <= 15)%nat -> length (w_gd w) = 8%nat -> si_dim si -> wf d ->
  match exec (ics_info nl ws prev w si) d with
  | Done ((_, (w', si')), _) => length (w_gd w') = 8%nat /\ si_dim si'
  | Jmp _ => True
  | UB _ => False
  end.
Proof. exact win_safe. Qed.
Print Assumptions C111_safe.

(** ** C112: prediction coefficients over frames *)

(** Any number of frames of the first pair: all headers are read as sent, also those whose
    coefficients are differences from the frame before; what they refer to is kept over
    frames without prediction and dropped where a frame shares no window or is decodable
    on its own. *)
Theorem C112_frames : forall base3b enf0 offs nl info0 fs ref l s,
  bands_ok offs nl -> pst_dim s -> holds_prev ref (c_rp (p_ste s)) (c_ip (p_ste s)) ->
  valid_frames nl (Z.of_nat (length offs)) ref fs -> carried fs (enc_frames ref fs) l ->
  (base3b = 1 -> Forall (fun f => y_ltpf (k_head f) = None) fs) -> (enf0 = 1 -> Forall (fun f => uses_complex (k_head f) = false) fs) ->
  exists ss, read_heads base3b enf0 nl (widths 0 offs) true info0 l s = Done ss /\
    Forall2 (fun f x => fst x = 0 /\ holds_pair offs nl (k_prev f) (k_head f) (snd x)) fs ss.
Proof. exact heads_run. Qed.
Print Assumptions C112_frames.

(** Two frames, the second with differences over time. *)
Example C112_case : valid_frames 49 14 [] case_frames /\ map (@length bool) (enc_frames [] case_frames) = [129; 56]%nat.
Proof. split; [exact case_valid|vm_compute; reflexivity]. Qed.

(** Any frames whatever, up to 80000 of them, starting from nothing: no undefined behaviour
    (the sum of differences over time stays an int). *)
Theorem C112_safe : forall base3b enf0 nl ws first info0, 0 < nl < 64 -> (0 < length ws <= 15)%nat ->
  forall l C s, 0 <= C -> C + 24000 * Z.of_nat (length l) + 6000 < 2 ^ 31 -> pst_ok C s ->
  Forall (fun x => wf (snd x)) l -> forall u, read_heads base3b enf0 nl ws first info0 l s <> UB u.
Proof. exact heads_safe. Qed.
Print Assumptions C112_safe.

Example C112_safe_case : pst_ok 0 pst0 /\ 0 + 24000 * 80000 + 6000 < 2 ^ 31.
Proof. split; [exact ok0|reflexivity]. Qed.
