(** * Specification of the call protocol: histories of API calls, packets at the front of
    the input. *)
From Coq Require Import ZArith List Lia Bool.
From Verif Require Import Bits BitBuf Prog Asi Mhas Spec_Mhas Config Session.
Import ListNotations.
Open Scope Z_scope.

(** One call of the API with everything the surroundings answer to it. *)
Inductive call :=
| Init (e : env) (a : aux) (bs : list Z)
| Execute (e : env) (sd : side) (bs : list Z).

Definition do_call (c : call) (s : sess) (o : outc) : outcome (Z * sess * outc) :=
  match c with
  | Init e a bs => api_init e a bs s o
  | Execute e sd bs => api_execute e sd bs s o
  end.

(** A sequence of calls on one decoder with one output structure: what each call returned
    and the values of the output structure after it. *)
Fixpoint history (cs : list call) (s : sess) (o : outc) : outcome (list (Z * outc) * sess * outc) :=
  match cs with
  | [] => Done ([], s, o)
  | c :: cs =>
    match do_call c s o with
    | UB r => UB r
    | Jmp c => Jmp c
    | Done (code, s, o) =>
      match history cs s o with
      | UB r => UB r
      | Jmp c => Jmp c
      | Done (rs, s', o') => Done ((code, o) :: rs, s', o')
      end
    end
  end.

(** No call has reported that initialisation is complete. *)
Definition never_done (rs : list (Z * outc)) : Prop := Forall (fun r => o_done (snd r) = false) rs.

(** The set-up of the binaural renderer succeeds whenever it is asked for. *)
Definition binaural_fine (cs : list call) : Prop :=
  Forall (fun c => match c with Init _ a _ => a_bin a = true -> a_binerr a = 0 | Execute _ _ _ => True end) cs.

Definition is_execute (c : call) : bool := match c with Execute _ _ _ => true | Init _ _ _ => false end.

(** No side information with the call and nothing asked for. *)
Definition plain : aux := mkA NoInfo NoInfo NoInfo [] false 0 false.

(** The output structure as the application prepares it. *)
Definition out0 : outc := mkO 0 false 0.

(** The input starts with the header of a packet of type [ty]; [rest] follows. *)
Definition packet_at (bs : list Z) (ty lb len : Z) (rest : list bool) : Prop :=
  are_bytes bs /\ valid_header ty lb len /\ lb < 258 /\ bytes_bits bs = enc_header ty lb len ++ rest.

(** The input starts with a complete configuration packet holding [payload]. *)
Definition config_packet (bs : list Z) (payload : list Z) : Prop :=
  are_bytes payload /\ exists lb rest, packet_at bs CFG lb (zlen payload) (enc_bytes payload ++ rest).

(** The configuration the decoder keeps for comparison. *)
Definition kept (s : sess) : list Z := firstn (Z.to_nat (s_plen s)) (s_prev s).
