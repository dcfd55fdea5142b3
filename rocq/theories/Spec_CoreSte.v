(** * Spec_CoreSte: the stereo side information of a channel pair, as sent

    Independent of the decoder. *)

From Coq Require Import ZArith List Lia Bool.
From Verif Require Import Bits Spec_Mct.
Import ListNotations.
Open Scope list_scope.
Open Scope Z_scope.

(** ** Prediction
    A coefficient is a pair (real, imaginary part), in steps; [None] is a band without
    prediction, whose coefficient counts as (0, 0). *)
Definition coef := (Z * Z)%type.
Definition val (o : option coef) : coef := match o with Some q => q | None => (0, 0) end.
Definition on (o : option coef) : bool := match o with Some _ => true | None => false end.

(** What is sent for a frame: whether each band has its own flag, the direction, real or
    complex, whether the frame before is used for the estimate, whether the differences run
    over time, and for every group of windows a coefficient for every two bands. *)
Record pred := mkPred {
  q_flags : bool; q_dir : bool; q_cplx : bool; q_prev : bool; q_time : bool;
  q_grps : list (list (option coef)) }.

(** Differences run over frequency (from the band before, in the same group) or over time
    (from the same band of the group before; [ref] holds those coefficients, nothing is 0). *)
Fixpoint enc_row (time cplx : bool) (last : coef) (ref : list coef) (vs : list (option coef)) : list bool :=
  match vs with
  | [] => []
  | v :: r =>
    let from := if time then hd (0, 0) ref else last in
    match v with
    | None => []
    | Some q => code Prediction (fst from) (fst q) ++ (if cplx then code Prediction (snd from) (snd q) else [])
    end ++ enc_row time cplx (val v) (tl ref) r
  end.
Fixpoint enc_rows (time cplx : bool) (ref : list coef) (gs : list (list (option coef))) : list bool :=
  match gs with
  | [] => []
  | g :: r => enc_row time cplx (0, 0) ref g ++ enc_rows time cplx (map val g) r
  end.

(** The coefficients the next group or frame is coded against. *)
Fixpoint final (ref : list coef) (gs : list (list (option coef))) : list coef :=
  match gs with [] => ref | g :: r => final (map val g) r end.

(** [indep]: the frame is decodable on its own, nothing may refer to the frame before. *)
Definition enc_pred (indep : bool) (ref : list coef) (q : pred) : list bool :=
  [negb (q_flags q)] ++ (if q_flags q then flat_map (map on) (q_grps q) else []) ++
  [q_dir q; q_cplx q] ++
  (if indep then [] else (if q_cplx q then [q_prev q] else []) ++ [q_time q]) ++
  enc_rows (q_time q) (q_cplx q) ref (q_grps q).

(** Coefficients can be coded when they are within 60 steps of what they are coded against. *)
Fixpoint valid_row (time cplx : bool) (last : coef) (ref : list coef) (vs : list (option coef)) : Prop :=
  match vs with
  | [] => True
  | v :: r =>
    let from := if time then hd (0, 0) ref else last in
    match v with
    | None => True
    | Some q => codable Prediction (fst from) (fst q) /\
                (if cplx then codable Prediction (snd from) (snd q) else snd q = 0)
    end /\ valid_row time cplx (val v) (tl ref) r
  end.
Fixpoint valid_rows (time cplx : bool) (ref : list coef) (gs : list (list (option coef))) : Prop :=
  match gs with
  | [] => True
  | g :: r => valid_row time cplx (0, 0) ref g /\ valid_rows time cplx (map val g) r
  end.

(** [n] bands are sent. *)
Definition valid_pred (indep : bool) (n : nat) (ref : list coef) (q : pred) : Prop :=
  Forall (fun g => length g = Nat.div2 (n + 1)) (q_grps q) /\
  (q_flags q = false -> Forall (Forall (fun v => on v = true)) (q_grps q)) /\
  (indep = true -> q_time q = false /\ q_prev q = false) /\
  valid_rows (q_time q) (q_cplx q) ref (q_grps q).

(** ** Mid/side
    The pair is sent as left and right; as mid and side in the bands marked; as mid and side
    throughout; or with prediction. *)
Inductive stereo := LeftRight | Marked (m : list (list bool)) | MidSide | Predicted (q : pred).

Definition enc_stereo (indep : bool) (ref : list coef) (x : stereo) : list bool :=
  match x with
  | LeftRight => bits_of 2 0
  | Marked m => bits_of 2 1 ++ concat m
  | MidSide => bits_of 2 2
  | Predicted q => bits_of 2 3 ++ enc_pred indep ref q
  end.

(** [ng] groups, [n] bands sent. *)
Definition valid_stereo (indep : bool) (ng n : nat) (ref : list coef) (x : stereo) : Prop :=
  match x with
  | Marked m => length m = ng /\ Forall (fun r => length r = n) m
  | Predicted q => length (q_grps q) = ng /\ valid_pred indep n ref q
  | _ => True
  end.

(** Is band [b] of group [g] mid/side? *)
Definition is_ms (x : stereo) (g b : nat) : bool :=
  match x with
  | Marked m => nth b (nth g m []) false
  | MidSide => true
  | _ => false
  end.

(** What the next frame's coefficients are coded against: a frame without prediction leaves it. *)
Definition next_ref (ref : list coef) (x : stereo) : list coef := match x with Predicted q => final ref (q_grps q) | _ => ref end.
