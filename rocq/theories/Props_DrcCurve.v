(** * Properties of the DRC gain curve *)
From Coq Require Import ZArith List Lia Bool.
From Verif Require Import Bits BitBuf Prog BitWrite DrcCfg DrcGain Spec_Drc Spec_DrcGain DrcCurve Spec_DrcCurve Lem_DrcCurve.
Import ListNotations.
Open Scope Z_scope.

(** ** C96: the gain of every sample *)

(** For every configuration of channel groups and every sequence of frames whose nodes are in
    the order of time in every used band, joining never fails, and the gain sample [i] of
    the frame last received is given in group [g] and band [b] is the value of the
    piecewise linear curve through all nodes of this band, one frame and [gd] samples back.
    No seam between frames is visible: the curve runs from the last node of a frame straight
    to the first of the next. *)
Theorem C96_curve : forall F D gd grps h, 0 < F -> 0 <= gd <= D -> groups_ok grps ->
  (forall gs b, In (gs, b) (owner grps) -> exists ns, history h gs b ns /\ orderly F ns) ->
  exists els, play F D grps h (repeat (fresh_el F D) (length (owner grps))) = Done (0, els) /\
    forall g b gs n ns i, nth_error grps g = Some (gs, n) -> Z.of_nat b < n -> history h gs (Z.of_nat b) ns -> 0 <= i < F ->
      exists c, applied F D gd false grps els g b i = Done c /\ on_curve (axis F ns) ((Z.of_nat (length h) - 2) * F + i - gd) c.
Proof. exact gain_curve. Qed.
Print Assumptions C96_curve.

(** Two channel groups, the first with two bands, over two frames. *)
Example C96_case : groups_ok ex_grps /\ owner ex_grps = [(1, 0); (1, 1); (0, 0)] /\
  (forall gs b, In (gs, b) (owner ex_grps) -> exists ns, history ex_h gs b ns /\ orderly 1024 ns) /\
  history ex_h 1 0 [[(-8, 31); (4, 511)]; [(-16, -257); (-8, 1023)]] /\
  axis 1024 [[(-8, 31); (4, 511)]; [(-16, -257); (-8, 1023)]] = [(0, -1024); (-8, 31); (4, 511); (-16, 767); (-8, 2047)].
Proof. exact ex_history. Qed.

(** After any payload that was read without error, whatever the order of its nodes, and from
    any state of the buffers that such payloads leave, joining touches nothing outside the
    buffers, and leaves them in such a state, also when it fails. *)
Theorem C96_safe : forall tb tm low c st s st' s' D grps els, table_of tb tm -> coef_within c -> gain_shape st -> wf s ->
  exec (read_gain (mkGP tm tb 1024 low) (co_sets c) st) s = Done (0, st', s') -> 0 <= D -> groups_ok grps ->
  (forall gs n, In (gs, n) grps -> exists g, nth_error (co_sets c) (Z.to_nat gs) = Some g /\ n <= (if gs_prof g =? 3 then 1 else gs_count g)) ->
  (length (owner grps) <= length els)%nat ->
  Forall (fun el => Z.of_nat (length (cb_buf el)) = 2 * 1024 + D /\ 0 <= snd (cb_node el) < 1024) els ->
  exists e els', get_gain 1024 D grps st' els = Done (e, els') /\ length els' = length els /\
    Forall (fun el => Z.of_nat (length (cb_buf el)) = 2 * 1024 + D /\ 0 <= snd (cb_node el) < 1024) els'.
Proof. exact payload_curve_safe. Qed.
Print Assumptions C96_safe.

(** The initial buffers are in such a state. *)
Example C96_safe_case : (fun el => Z.of_nat (length (cb_buf el)) = 2 * 1024 + 1536 /\ 0 <= snd (cb_node el) < 1024) (fresh_el 1024 1536).
Proof. split; [unfold fresh_el; cbn [cb_buf]; rewrite repeat_length; reflexivity|cbn; lia]. Qed.

(** Without "read without error" this fails: at 48 kHz, a good payload, a payload that is
    refused, and a frame without payload write outside the buffer.  The refused payload
    leaves its unchecked times behind, and a frame without payload is processed with the
    nodes that are there. *)
Theorem C96_stale_refuted :
  exists tb st1 s1 e2 st2 s2 els, init_dec zero_table 48000 = Done (Ok (32, tb)) /\
    exec (read_gain (mkGP 32 tb 1024 false) [stale_set] zero_gain) (fresh [192; 0]) = Done (0, st1, s1) /\
    get_gain 1024 1536 [(0, 1)] st1 [fresh_el 1024 1536] = Done (0, els) /\
    exec (read_gain (mkGP 32 tb 1024 false) [stale_set] st1) (fresh [158; 167; 144; 1; 32]) = Done (e2, st2, s2) /\ e2 <> 0 /\
    get_gain 1024 1536 [(0, 1)] st2 els = UB UOob.
Proof. exact stale_refuted. Qed.
Print Assumptions C96_stale_refuted.
