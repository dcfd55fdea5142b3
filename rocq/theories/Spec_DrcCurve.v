(** * Spec_DrcCurve: the gain curve of a band *)
From Coq Require Import ZArith List Lia Bool Sorted.
From Verif Require Import Bits BitBuf Prog DrcCfg DrcGain Spec_DrcGain DrcCurve.
Import ListNotations.
Open Scope Z_scope.

(** The nodes of the frames so far on one time axis, on which frame [n] starts at sample
    [n * F]; before the first frame there is a node with 0 dB, one frame before it. *)
Fixpoint from_frame (F n : Z) (h : list (list (Z * Z))) : list (Z * Z) :=
  match h with
  | [] => []
  | ns :: r => map (fun x => (fst x, n * F + snd x)) ns ++ from_frame F (n + 1) r
  end.
Definition axis (F : Z) (h : list (list (Z * Z))) : list (Z * Z) := (0, - F) :: from_frame F 0 h.

(** Two nodes in the order of time. *)
Definition before (a b : Z * Z) : Prop := snd a < snd b.

(** The nodes of one frame end in the frame. *)
Definition ends_inside (F : Z) (ns : list (Z * Z)) : Prop :=
  exists pre g t, ns = pre ++ [(g, t)] /\ 0 <= t < F.

(** The history of a band: in order, every frame with its last node inside it. *)
Definition orderly (F : Z) (h : list (list (Z * Z))) : Prop :=
  Sorted before (axis F h) /\ Forall (ends_inside F) h.

(** The gain at time [T]: from the node at or before [T] straight to the next node. *)
Definition on_curve (ns : list (Z * Z)) (T : Z) (c : cell) : Prop :=
  (forall g t r, ns = (g, t) :: r -> T < t -> c = Unit) /\
  (forall pre g1 t1 g2 t2 post, ns = pre ++ (g1, t1) :: (g2, t2) :: post -> t1 <= T < t2 ->
     c = if T =? t1 then Lin g1 else Mix g1 g2 (T - t1) (t2 - t1)).

(** The gain set and band of every buffer. *)
Definition owner (grps : list (Z * Z)) : list (Z * Z) :=
  flat_map (fun x => map (fun b => (fst x, Z.of_nat b)) (seq 0 (Z.to_nat (snd x)))) grps.

(** The nodes of a gain set and band. *)
Definition band_nodes (st : list gseq) (gs b : Z) : option (list (Z * Z)) :=
  match nth_error st (Z.to_nat gs) with
  | Some sq => match nth_error (sq_nodes sq) (Z.to_nat b) with Some nd => Some (node_list nd) | None => None end
  | None => None
  end.

(** The gains a DRC set is given in a sequence of frames. *)
Fixpoint play (F D : Z) (grps : list (Z * Z)) (h : list (list gseq)) (els : list cbuf) : outcome (Z * list cbuf) :=
  match h with
  | [] => Done (0, els)
  | st :: r => match get_gain F D grps st els with
               | Done (e, els) => if e =? 0 then play F D grps r els else Done (e, els)
               | Jmp c => Jmp c
               | UB u => UB u
               end
  end.

Definition groups_ok (grps : list (Z * Z)) : Prop := Forall (fun x => 0 <= fst x /\ 0 <= snd x) grps.

(** The history of the band [b] of gain set [gs]. *)
Definition history (h : list (list gseq)) (gs b : Z) (ns : list (list (Z * Z))) : Prop :=
  Forall2 (fun st l => band_nodes st gs b = Some l) h ns.
