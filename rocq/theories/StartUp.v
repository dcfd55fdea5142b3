(** * StartUp: which samples are dropped when a stream starts

    Models the delay that is set up with the first frame (decode_main.c:1862 and 1885-1931),
    the decision whether the limiter runs (decode_main.c:1508-1510) and the way of a frame
    from the decoded samples to the bytes (1513-1515, 1429-1478, 1548-1552, 2880-2895).
    "decode_main.c" is decoder/ia_core_coder_decode_main.c.

    Simplifications: no binaural rendering while a signal is played, no resampling, and the
    loudness gain is 0 dB (1535-1547 does nothing); format converter and domain switcher
    enter with the delay they add, not with what they do to the signal. *)

From Coq Require Import ZArith List Lia Bool SpecFloat.
From Verif Require Import F32 Limiter Pcm Api.
Import ListNotations.
Open Scope Z_scope.

(** impeghd_peak_limiter_init, decoder/impeghd_peak_limiter.c:152: (UWORD32)(5.0f * sample_rate / 1000).  The
    product is exact in binary32 for rates below 3355443 and the quotient is then at least
    1/200 away from the next integer, more than half a step, so it is truncated exactly. *)
Definition attack_of (rate : Z) : Z := 5 * rate / 1000.

(** What else adds to the delay: ui_binaural_flag, format_converter_enable,
    domain_switcher_enable and hoa_present. *)
Record extras := mkEx { e_bin : bool; e_fc : bool; e_ds : bool; e_hoa : bool }.

Definition s_c_noresamp (c : dcfg) :=
  mkD (c_pcm c) (c_effect c) (c_tl c) (c_tlset c) (c_drc c) (c_norm c) (c_cicp c) (c_preset c)
      (c_mhas c) 0 (c_flen c) (c_down c) (c_up c) (c_ofs c) (c_sfs c) (c_maxch c) (c_nch c).

(** ia_core_coder_dec_process_frame_zero, decode_main.c:1862 and 1887-1931, for a stream of
    rate [fs]: the configuration, the attack time of the limiter and delay_in_samples. *)
Definition first_frame (fs : Z) (x : extras) (c : dcfg) : dcfg * Z * Z :=
  let conv := negb (fs =? c_ofs c) && negb (c_resamp c =? 0) in
  let rate := if conv then c_ofs c else fs in
  let c := if conv then c else s_c_noresamp c in
  let att := attack_of rate in
  let delay := if e_bin x then 0 else att in
  let d := 0 + (if fs =? 48000 then delay else 0) in
  let d := if e_fc x then d + 256 else d in
  let d := if e_ds x then (if e_hoa x then d + 256 + 768 else d + 256) else d in
  (c, att, d).

(** The first initialisation, impeghd_api.c:785-807: the first frame is set up within
    ia_core_coder_dec_init (1296), the rates are settled afterwards. *)
Definition first_init (fs : Z) (x : extras) (c : dcfg) (i : incfg) : option (dcfg * incfg * Z * Z) :=
  let '(c, att, d) := first_frame fs x c in
  match init_rate fs c i with
  | Some (c, i) => Some (c, i, att, d)
  | None => None
  end.

(** A restart after a changed configuration, ia_core_coder_decoder_flush_api,
    impeghd_api.c:1160-1186: only the first frame is set up. *)
Definition restart (fs : Z) (x : extras) (c : dcfg) : dcfg * Z * Z := first_frame fs x c.

(** Whether the limiter runs, decode_main.c:1508-1510. *)
Definition limits (c : dcfg) : bool := (c_ofs c =? 48000) && (c_resamp c =? 0).

(** A frame as the output conversion reads it: channel and sample. *)
Definition at_ (f : list (list f32)) (c s : Z) : f32 := nth (Z.to_nat c) (nth (Z.to_nat s) f []) S754_nan.

(** One frame after another: limiter, then conversion (decode_main.c:2857-2895). *)
Fixpoint play (runs : bool) (l : lim) (pcm nch : Z) (map : list Z) (d : Z) (fs : list (list (list f32))) : option (list Z) :=
  match fs with
  | [] => Some []
  | f :: fs =>
    let '(y, l) := if runs then lim_frame l f else (f, l) in
    match samples_sat (Z.of_nat (length y)) pcm (at_ y) map d nch with
    | None => None
    | Some o =>
      match play runs l pcm nch (po_map o) (po_delay o) fs with
      | None => None
      | Some bs => Some (po_bytes o ++ bs)
      end
    end
  end.
