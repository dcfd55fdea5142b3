(** * The application with the decoder model of Session.v *)
From Coq Require Import ZArith List Lia Bool.
From Verif Require Import Bits BitBuf Prog Asi Mhas Config App Lem_App Session Spec_Session Lem_SessionWit.
Import ListNotations.
Open Scope Z_scope.

(** The decoder and its output structure as a machine for the loops.  An undefined or
    aborted call is given the answer "nothing consumed, not done"; the theorems below do
    not depend on it. *)
Definition dec := (sess * outc)%type.
Definition m_init (e : env) (a : aux) (d : dec) (bs : list Z) : Z * Z * bool * dec :=
  match api_init e a bs (fst d) (snd d) with
  | Done (c, s, o) => (c, o_cons o, o_done o, (s, o))
  | _ => (0xFFFFFFFF, 0, false, d)
  end.
Definition m_exec (e : env) (sd : side) (d : dec) (bs : list Z) : Z * Z * dec :=
  match api_execute e sd bs (fst d) (snd d) with
  | Done (c, s, o) => (c, o_cons o, (s, o))
  | _ => (0xFFFFFFFF, 0, d)
  end.

(** A rejected element-interaction buffer. *)
Lemma rejected_ei e a c mem file fuel sd : a_ei a = Rejected c -> c <> I_INPUT -> c <> I_EI -> c <> I_LSI -> c <> I_BRIR ->
  1 <= blen mem -> 1 <= blen file ->
  fst (run (m_init e a) (m_exec e sd) fuel (created, out0) mem file) = NoFuel.
Proof.
  intros A C0 C1 C2 C3 HM HF. apply (run_hangs (m_init e a) (m_exec e sd) (created, out0) c); auto.
  intros bs _. unfold m_init, api_init. rewrite A. reflexivity.
Qed.

(** A file of four bytes: the header of a packet with an access unit of 100 bytes. *)
Definition four : list Z := firstn 4 (packet 2 (repeat 7 100)).
Lemma frame_first mem sd fuel : 4 <= blen mem ->
  fst (run (m_init env1 plain) (m_exec env1 sd) (S (S fuel)) (created, out0) mem four) = Undefined.
Proof.
  intros HM. assert (E : exists d', m_init env1 plain (created, out0) four = (E_NO_CONFIG, 100, false, d')).
  { eexists. vm_compute. reflexivity. }
  destruct E as (d' & E). eapply run_overrun; [|exact E| | | |].
  - change (blen four) with 4. lia.
  - reflexivity.
  - discriminate.
  - discriminate.
  - discriminate.
Qed.
