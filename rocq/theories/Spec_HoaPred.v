(** * Spec_HoaPred: what is sent for the prediction of directional signals (specification)

    For every coefficient either nothing or a fixed number of entries, each the number of a
    directional signal (0: unused) and a gain.  The coefficients are named by flags or by
    numbers; then come the signal numbers of all entries, then the gains of the used ones. *)

From Coq Require Import ZArith List Bool.
From Verif Require Import Bits Hoa HoaFrm Spec_HoaFrm.
Import ListNotations.
Open Scope Z_scope.

Definition pred := list (option (list (Z * Z))).
Definition entries (P : pred) : list (Z * Z) := concat (map (fun x => match x with Some l => l | None => [] end) P).
Definition is_on (x : option (list (Z * Z))) : bool := match x with Some _ => true | None => false end.
Fixpoint on_numbers (i : Z) (P : pred) : list Z :=
  match P with [] => [] | x :: P => (if is_on x then [i] else []) ++ on_numbers (i + 1) P end.

Definition pred_bits (h : hoac) (nd : Z) (bynum : bool) (P : pred) : list bool :=
  true :: bynum ::
  (if bynum then wbits (h_napb h) (Z.of_nat (length (on_numbers 0 P)) - 1) ++ concat (map (wbits (h_apb h)) (on_numbers 0 P))
   else map is_on P) ++
  concat (map (fun e => wbits (Z.log2_up (nd + 1)) (fst e)) (entries P)) ++
  concat (map (fun e => if fst e =? 0 then [] else wbits (h_bps h) (snd e)) (entries P)).

Definition pred_ok (h : hoac) (nd : Z) (bynum : bool) (P : pred) : Prop :=
  length P = Z.to_nat (h_coef h) /\
  (forall l, In (Some l) P -> length l = Z.to_nat (h_pds h)) /\
  (bynum = true -> 1 <= Z.of_nat (length (on_numbers 0 P)) <= 2 ^ h_napb h) /\
  (forall k g, In (k, g) (entries P) -> 0 <= k <= nd /\ 0 <= g < 2 ^ h_bps h).
(** The used entries come before the unused ones. *)
Definition used_first (P : pred) : Prop :=
  exists a b, entries P = a ++ b /\ (forall e, In e a -> fst e <> 0) /\ (forall e, In e b -> fst e = 0).

(** The prediction the decoder has to carry out; [dirs] are the channels of the directional signals. *)
Definition pred_wanted (dirs : list Z) (P : pred) : list (option (list (Z * Z))) :=
  map (option_map (map (fun e => if fst e =? 0 then (0, 0) else (nth (Z.to_nat (fst e - 1)) dirs 0, snd e)))) P.

Definition pstate_ok (p : hpred) : Prop :=
  length (p_active p) = 49%nat /\ length (p_ids p) = 512%nat /\ length (p_gains p) = 512%nat.
Definition pconf_ok (h : hoac) : Prop :=
  0 <= h_coef h <= 49 /\ 1 <= h_pds h <= 4 /\ 1 <= h_bps h <= 16 /\ h_single h = 1 /\
  h_apb h = Z.log2_up (h_coef h) /\ 0 <= h_napb h <= 24.
