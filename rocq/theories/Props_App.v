(** * Property theorems for the input loops of the application *)
From Coq Require Import ZArith List Lia Bool.
From Verif Require Import Bits BitBuf App Lem_App Session Spec_Session Lem_SessionWit Lem_AppDec.
Import ListNotations.
Open Scope Z_scope.

(** C41: for every decoder that reports between one byte and what it was given, the loops end
    for every file and buffer, touch only the buffer, present to each call the file from the
    place the earlier calls had reached, and reach the end of the file unless they give up. *)
Theorem C41_loops_partial {D} (init : D -> list Z -> Z * Z * bool * D) (exec : D -> list Z -> Z * Z * D) (inv : D -> Prop)
  (Hinit : forall d bs, inv d -> bs <> [] -> let '(_, used, _, d') := init d bs in 1 <= used <= blen bs /\ inv d')
  (Hexec : forall d bs, inv d -> bs <> [] -> let '(_, used, d') := exec d bs in 1 <= used <= blen bs /\ inv d')
  d mem file fuel : inv d -> 1 <= blen mem -> blen file < Z.of_nat fuel ->
  exists r t, run init exec fuel d mem file = (r, t) /\ follows (blen mem) file 0 t /\ total t <= blen file /\
    Forall (fun e => 1 <= snd e) t /\
    match r with Finished _ _ => total t = blen file | GaveUp _ _ => True | _ => False end.
Proof. exact (run_ok init exec inv Hinit Hexec d mem file fuel). Qed.
Print Assumptions C41_loops_partial.
(** A decoder that completes with its first call and takes two bytes at a time. *)
Definition two (d : unit) (bs : list Z) : Z * Z * unit := (0, Z.min 2 (blen bs), d).
Definition one (d : unit) (bs : list Z) : Z * Z * bool * unit := (0, 1, true, d).
Example C41_case : exists s, run one two 10 tt [9; 9; 9] [1; 2; 3; 4; 5; 6]
  = (Finished tt s, [([1; 2; 3], 1); ([2; 3; 4], 2); ([4; 5; 6], 2); ([6], 1)]).
Proof. eexists. vm_compute. reflexivity. Qed.

(** C41: a call that reports more than it was given makes the loop write before its buffer. *)
Theorem C41_overrun_refuted {D} (init : D -> list Z -> Z * Z * bool * D) exec (d d' : D) code used done mem file fuel :
  1 <= blen file <= blen mem -> init d file = (code, used, done, d') -> blen file < used ->
  code <> 0x1001 -> code <> 0x1002 -> code <> 0x1003 ->
  fst (run init exec (S (S fuel)) d mem file) = Undefined.
Proof. exact (run_overrun init exec d d' code used done mem file fuel). Qed.
Print Assumptions C41_overrun_refuted.
(** The decoder does that on a file of four bytes. *)
Theorem C41_frame_first_refuted mem sd fuel : 4 <= blen mem ->
  fst (run (m_init env1 plain) (m_exec env1 sd) (S (S fuel)) (created, out0) mem four) = Undefined.
Proof. exact (frame_first mem sd fuel). Qed.
Print Assumptions C41_frame_first_refuted.
(** With an element-interaction buffer the decoder rejects, the application never ends. *)
Theorem C41_rejected_interaction_refuted e a c mem file fuel sd : a_ei a = Rejected c -> c <> I_INPUT -> c <> I_EI -> c <> I_LSI -> c <> I_BRIR ->
  1 <= blen mem -> 1 <= blen file ->
  fst (run (m_init e a) (m_exec e sd) fuel (created, out0) mem file) = NoFuel.
Proof. exact (rejected_ei e a c mem file fuel sd). Qed.
Print Assumptions C41_rejected_interaction_refuted.
