(** * Properties of the DRC gain payload *)
From Coq Require Import ZArith List Lia Bool.
From Verif Require Import Bits BitBuf Prog BitWrite DrcCfg DrcGain Spec_Drc Spec_DrcGain Lem_DrcUv Lem_DrcTime Lem_DrcGain Lem_DrcGainSafe Lem_DrcGainRT.
Import ListNotations.
Open Scope Z_scope.

(** ** C44: gain payloads *)

(** Whatever bits arrive as a gain payload, after any history of initialisations with
    sampling rates from 3000 Hz on and with any accepted gain sets, nothing outside the
    tables is touched, the structures keep their shape, and after success the nodes of every
    band are fit for the gain curve. *)
Theorem C44_gain_safe : forall tb tm low c st s, table_of tb tm -> coef_within c -> gain_shape st -> wf s ->
  match exec (read_gain (mkGP tm tb 1024 low) (co_sets c) st) s with
  | UB _ => False
  | Jmp _ => True
  | Done ((e, st'), s') => wf s' /\ gain_shape st' /\
      (e = 0 -> forall i g sq, nth_error (co_sets c) i = Some g -> nth_error st' i = Some sq -> set_usable 1024 g sq)
  end.
Proof. exact gain_safe. Qed.
Print Assumptions C44_gain_safe.

(** For sampling rates from 1000 to 2999 Hz, which the initialisation accepts, the time
    table is written outside its 526 entries. *)
Theorem C44_time_table_refuted : forall rate old, 1000 <= rate < 3000 -> zlen old = 526 -> init_dec old rate = UB UOob.
Proof. exact time_table_overrun. Qed.
Print Assumptions C44_time_table_refuted.

(** The initialisation with 3000 to 48000 Hz always succeeds. *)
Theorem C44_time_table : forall rate old, 3000 <= rate <= 48000 -> zlen old = 526 ->
  exists tm tb, init_dec old rate = Done (Ok (tm, tb)) /\ zlen tb = 526 /\
    (tm = 4 \/ tm = 8 \/ tm = 16 \/ tm = 32) /\ tm * 750 <= rate < 2000 * tm.
Proof. exact time_table_made. Qed.
Print Assumptions C44_time_table.

(** ** C95: a gain payload is read as it was written *)
Theorem C95_gain_payload : forall tb tm low c mss x st s rest, table_of tb tm -> coef_within c -> gain_shape st -> wf s ->
  (low = true -> forall g, In g (co_sets c) -> gs_full g <> 0) ->
  Forall2 (valid_gset 1024 tm (1024 / tm)) (co_sets c) mss -> valid_gain_ext x ->
  rest_bits s = enc_sets (1024 / tm) (co_sets c) mss ++ enc_gain_ext x ++ rest ->
  exists st' s', exec (read_gain (mkGP tm tb 1024 low) (co_sets c) st) s = Done ((0, st'), s') /\ rest_bits s' = rest /\
    (forall i g ms, nth_error (co_sets c) i = Some g -> nth_error mss i = Some ms ->
      exists sq, nth_error st' i = Some sq /\ set_holds 1024 tm g ms sq) /\
    (forall i, (length (co_sets c) <= i)%nat -> nth_error st' i = nth_error st i).
Proof. exact gain_payload. Qed.
Print Assumptions C95_gain_payload.

(** A gain set of one band with the gains -3 dB, +1/8 dB and so on, and a constant one. *)
Definition ex_set : gset := mkGS 0 1 0 0 0 0 1 0 [(0, 0)] [].
Definition ex_const : gset := mkGS 3 1 1 0 0 0 1 0 [] [].
Definition ex_msg : list (list m_band) := [[Many true [3; 9; 30] (-24) [1; -7; 8]]; []].
Example C95_case :
  coef_within (mkCo 0 [ex_set; ex_const]) /\ Forall2 (valid_gset 1024 32 32) [ex_set; ex_const] ex_msg /\
  meant_times 1024 32 ex_set (Many true [3; 9; 30] (-24) [1; -7; 8]) = [-705; 95; 383; 1023] /\
  meant_gains (Many true [3; 9; 30] (-24) [1; -7; 8]) = [-24; -23; -30; -22].
Proof. exact ex_valid. Qed.

(** Different messages are never written alike: the meaning of a band is determined by its
    bits. *)
Theorem C95_band_unambiguous : forall tm g m1 m2 r1 r2 tb, table_of tb tm ->
  valid_band 1024 tm (1024 / tm) g m1 -> valid_band 1024 tm (1024 / tm) g m2 ->
  enc_band (1024 / tm) g m1 ++ r1 = enc_band (1024 / tm) g m2 ++ r2 ->
  r1 = r2 /\ meant_times 1024 tm g m1 = meant_times 1024 tm g m2 /\ meant_gains m1 = meant_gains m2.
Proof. exact band_unambiguous. Qed.
Print Assumptions C95_band_unambiguous.

(** "The nodes of an accepted payload are in the order of time" is false: with 48 kHz the
    steps 1, 40, 40 give a node two frames ahead, which is moved in front of an earlier
    node of the frame. *)
Theorem C95_order_refuted : exists m, valid_band 1024 32 32 ex_set m /\ meant_times 1024 32 ex_set m = [-737; 543; 31; 1023] /\
  forall tb st s rest, table_of tb 32 -> gain_shape st -> wf s -> rest_bits s = enc_band 32 ex_set m ++ [false] ++ rest ->
  exists st' s' sq nd, exec (read_gain (mkGP 32 tb 1024 false) [ex_set] st) s = Done ((0, st'), s') /\
    nth_error st' 0 = Some sq /\ nth_error (sq_nodes sq) 0 = Some nd /\ firstn 4 (nd_t nd) = [-737; 543; 31; 1023] /\ nd_n nd = 4.
Proof. exact order_refuted. Qed.
Print Assumptions C95_order_refuted.
