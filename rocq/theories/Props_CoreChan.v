(** * Properties of the header of a channel coded in the frequency domain *)
From Coq Require Import ZArith List Lia Bool.
From Verif Require Import Bits BitBuf Prog CoreIcs CorePair CoreScf CoreChan Spec_Asi Spec_CoreScf Lem_CoreScfRun Lem_CoreScfSafe Spec_CoreIcs Lem_CoreIcs Lem_CoreTns
  Spec_CoreSte Spec_CorePair Lem_CorePair Lem_CoreSafe Lem_CoreProps Spec_CoreChan Lem_CoreChan Lem_CoreChanProps.
Import ListNotations.
Open Scope list_scope.
Open Scope Z_scope.

(** ** C115: the header of a channel is read as sent *)

(** Gain, noise, own or shared window, postfilter, prediction spacing, symmetries, scale
    factors, TNS and reset flag; long windows or short, in any groups; in frames decodable on
    their own and others; then the stream stands at the spectral data.  Missing: headers in
    the last 24 bits of a frame that fills the input buffer; elements with gap filling. *)
Theorem C115_channel_partial : forall (indep : bool) base3b offs nl ltbl full second prev v h s,
  bands_ok offs nl -> (Z.to_nat nl <= length ltbl)%nat -> cst_dim s -> valid_chan nl (Z.of_nat (length offs)) indep v h ->
  (x_win h = None -> in_force offs prev v (k_w s) (k_si s)) -> (base3b = 1 -> plain h) ->
  forall d rest, wf d -> ends_at d -> rest_bits d = enc_chan indep (long_win v) h ++ rest ->
  (full = true -> 24 < length (enc_back indep (long_win v) h ++ rest))%nat ->
  exists s' o d', chan_head (b2z indep) base3b nl (widths 0 offs) ltbl full (b2z (has (x_noise h))) (b2z (negb (has (x_win h))))
      (b2z (negb (has (x_ltpf h)))) (tns_code (x_tns h)) second prev s d = Done (0, (s', o), d') /\ rest_bits d' = rest /\ wf d' /\
    holds_chan offs nl ltbl indep second prev v h s s' o /\ cst_dim s'.
Proof. exact chan_exec. Qed.
Print Assumptions C115_channel_partial.

(** Eight short windows in three groups, noise, postfilter, a TNS filter. *)
Example C115_case : valid_chan 49 14 true case_win case_chan /\ cst_dim cst0 /\ bands_ok offs48 49 /\ groups case_win = [1; 4; 3] /\
  length (enc_chan true false case_chan) = 170%nat /\
  noise_meant false false 4 (mkNoise 0 13) = mkNoise 3 8 /\ noise_meant false false 2 (mkNoise 0 13) = mkNoise 0 13.
Proof. split; [exact case_chan_valid|]. split; [exact dim_cst0|]. split; [exact bands48|]. repeat split. Qed.

(** The channels of a pair, after the header of the pair: what the pair shares is not sent
    again. *)
Theorem C115_pair_partial : forall (indep : bool) base3b offs nl ltbl full second prev hp p v h pa ca fac,
  bands_ok offs nl -> (Z.to_nat nl <= length ltbl)%nat -> holds_pair offs nl prev hp p -> cst_dim (chan_of second p pa ca fac) ->
  of_pair second hp v h -> valid_chan nl (Z.of_nat (length offs)) indep v h -> (base3b = 1 -> plain h) ->
  forall d rest, wf d -> ends_at d -> rest_bits d = enc_chan indep (long_win v) h ++ rest ->
  (full = true -> 24 < length (enc_back indep (long_win v) h ++ rest))%nat ->
  exists s' o d', chan_head (b2z indep) base3b nl (widths 0 offs) ltbl full (b2z (has (x_noise h))) (h_cw p) (h_cl p)
      (if second then h_d1 p else h_d0 p) second prev (chan_of second p pa ca fac) d = Done (0, (s', o), d') /\ rest_bits d' = rest /\
    holds_chan offs nl ltbl indep second prev v h (chan_of second p pa ca fac) s' o.
Proof. exact chan_in_pair. Qed.
Print Assumptions C115_pair_partial.

(** The right channel of a pair that shares everything; its noise tells that the stereo
    signal fills the gaps. *)
Example C115_pair_case : valid_chan 49 14 false case_right_win case_right /\
  of_pair true (mkPair (Some (mkShared (mkWinfo 1 0 40 []) (Some 2) LeftRight)) (Some None) (CommonTns true case_tns)) case_right_win case_right /\
  stereo_fill true true (mkNoise 0 13) = true /\ noise_meant true true 0 (mkNoise 0 13) = mkNoise 3 8.
Proof.
  split; [exact case_right_valid|]. split; [|split; reflexivity]. unfold of_pair. cbn. split; [split; reflexivity|]. split; [|reflexivity]. split; [discriminate|reflexivity].
Qed.

(** Every valid channel whose data after the window take no more than 24 bits up to the end
    of the frame is refused if the frame fills the input buffer. *)
Theorem C115_end_refuted : forall (indep : bool) base3b offs nl ltbl second prev v h s,
  bands_ok offs nl -> cst_dim s -> valid_chan nl (Z.of_nat (length offs)) indep v h ->
  (x_win h = None -> in_force offs prev v (k_w s) (k_si s)) ->
  forall d rest, wf d -> ends_at d -> rest_bits d = enc_chan indep (long_win v) h ++ rest ->
  (length (enc_back indep (long_win v) h ++ rest) <= 24)%nat ->
  exists s' o d', chan_head (b2z indep) base3b nl (widths 0 offs) ltbl true (b2z (has (x_noise h))) (b2z (negb (has (x_win h))))
      (b2z (negb (has (x_ltpf h)))) (tns_code (x_tns h)) second prev s d = Done (E_FRAME, (s', o), d').
Proof. exact chan_refused. Qed.
Print Assumptions C115_end_refuted.

(** A quiet channel: three bits after the window. *)
Example C115_end_case : valid_chan 49 14 true (mkWinfo 0 0 0 []) case_quiet /\ length (enc_back true true case_quiet) = 3%nat /\
  length (enc_chan true true case_quiet) = 20%nat.
Proof. split; [exact case_quiet_valid|]. split; reflexivity. Qed.

(** Any bits at all, as long as 2400 are there: no undefined behaviour, and what is kept for
    the next frame stays fit for it. *)
Theorem C115_safe_partial : forall indep base3b nl ws ltbl full nf cw cl tp second prev s d,
  0 < nl < 64 -> (0 < length ws <= 15)%nat -> (Z.to_nat nl <= length ltbl)%nat -> cst_dim s -> Forall (fun v => v <= 255) (k_fac s) ->
  ((cw =? 0) = false -> good nl (length ws) (k_w s) (k_si s)) -> wf d -> ends_at d -> 2400 <= r_cnt d ->
  match chan_head indep base3b nl ws ltbl full nf cw cl tp second prev s d with
  | Done (e, (s', _), _) => e = 0 -> cst_dim s' /\ Forall (fun v => v <= 255) (k_fac s') /\ good nl (length ws) (k_w s') (k_si s')
  | Jmp _ => True
  | UB _ => False
  end.
Proof. exact chan_safe. Qed.
Print Assumptions C115_safe_partial.

Example C115_safe_case : cst_dim cst0 /\ Forall (fun v => v <= 255) (k_fac cst0) /\ wf (fresh (repeat 0xA5 300)) /\ ends_at (fresh (repeat 0xA5 300)).
Proof.
  split; [exact dim_cst0|]. split; [apply Forall_forall; intros x I; apply repeat_spec in I; lia|]. split; [|reflexivity].
  apply wf_fresh. apply Forall_forall. intros x I. apply repeat_spec in I. unfold is_byte. lia.
Qed.
