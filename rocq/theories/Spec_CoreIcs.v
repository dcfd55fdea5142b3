(** * Spec_CoreIcs: window information and TNS data of a channel, as sent

    Independent of the decoder: what an encoder wants to say and the bits that say it. *)

From Coq Require Import ZArith List Lia Bool.
From Verif Require Import Bits.
Import ListNotations.
Open Scope Z_scope.

Definition zsum (l : list Z) : Z := fold_right Z.add 0 l.

(** ** Windows
    Sequences: 0 long, 1 long with a short slope at its end, 2 eight short windows, 3 long
    with a short slope at its start, 4 long with short slopes at both ends.  Only the codes 0
    to 3 are sent: code 1 after a window that ended with a short slope means 4. *)
Definition short_end (seq : Z) : bool := (seq =? 1) || (seq =? 2) || (seq =? 4).
Definition short_begin (seq : Z) : bool := (seq =? 2) || (seq =? 3) || (seq =? 4).
Definition meant (prev code : Z) : Z := if (code =? 1) && short_end prev then 4 else code.

(** What is sent for a channel: the code, the shape, how many bands are sent, and for eight
    short windows whether each window from the second on is in the group of the one before. *)
Record winfo := mkWinfo { v_code : Z; v_shape : Z; v_max : Z; v_same : list bool }.

(** The lengths of the groups. *)
Fixpoint runs (cur : Z) (l : list bool) : list Z :=
  match l with
  | [] => [cur]
  | true :: r => runs (cur + 1) r
  | false :: r => cur :: runs 1 r
  end.
Definition groups (v : winfo) : list Z := if v_code v =? 2 then runs 1 (v_same v) else [1].

(** Where the groups end. *)
Fixpoint ends (from : Z) (l : list Z) : list Z :=
  match l with [] => [] | n :: r => (from + n) :: ends (from + n) r end.

Definition enc_win (v : winfo) : list bool :=
  bits_of 2 (v_code v) ++ bits_of 1 (v_shape v) ++
  if v_code v =? 2 then bits_of 4 (v_max v) ++ v_same v else bits_of 6 (v_max v).

(** [nl] and [ns] are the numbers of bands of a long and of a short window. *)
Definition valid_win (nl ns : Z) (v : winfo) : Prop :=
  0 <= v_code v < 4 /\ 0 <= v_shape v < 2 /\ 0 <= v_max v /\
  (if v_code v =? 2 then v_max v <= ns /\ length (v_same v) = 7%nat else v_max v <= nl).

(** Where in a group of short windows a band ends: the windows of a group are interleaved, so
    a band has as many lines as it has in each window together.  [offs] are the upper ends of
    the bands in one window. *)
Definition band_end (offs : list Z) (gs : list Z) (g b : nat) : Z :=
  zsum (firstn g gs) * last offs 0 + nth g gs 0 * nth b offs 0.

(** ** TNS
    A filter works on [sf_len] bands below the filter before it (the first one below the
    highest band); its order is the number of its coefficients. *)
Record sfilt := mkSf { sf_len : Z; sf_dir : Z; sf_small : bool; sf_coef : list Z }.
Record swin := mkSw { sw_fine : bool; sw_filt : list sfilt }.

(** Bits of a coefficient. *)
Definition cbits (fine small : bool) : nat := ((if fine then 4 else 3) - (if small then 1 else 0))%nat.

Record widths_of := mkWid { nb_filt : nat; nb_len : nat; nb_order : nat }.
Definition wid (islong : bool) : widths_of := if islong then mkWid 2 6 4 else mkWid 1 4 3.

Definition enc_filt (x : widths_of) (fine : bool) (f : sfilt) : list bool :=
  bits_of (nb_len x) (sf_len f) ++ bits_of (nb_order x) (Z.of_nat (length (sf_coef f))) ++
  match sf_coef f with
  | [] => []
  | l => bits_of 1 (sf_dir f) ++ [sf_small f] ++
         flat_map (fun c => bits_of (cbits fine (sf_small f)) (c mod 2 ^ Z.of_nat (cbits fine (sf_small f)))) l
  end.
Definition enc_twin (x : widths_of) (w : swin) : list bool :=
  bits_of (nb_filt x) (Z.of_nat (length (sw_filt w))) ++
  match sw_filt w with
  | [] => []
  | l => [sw_fine w] ++ flat_map (enc_filt x (sw_fine w)) l
  end.
Definition enc_tns (islong : bool) (l : list swin) : list bool := flat_map (enc_twin (wid islong)) l.

Definition valid_filt (x : widths_of) (fine : bool) (f : sfilt) : Prop :=
  0 <= sf_len f < 2 ^ Z.of_nat (nb_len x) /\ Z.of_nat (length (sf_coef f)) < 2 ^ Z.of_nat (nb_order x) /\
  0 <= sf_dir f < 2 /\
  Forall (fun c => - 2 ^ (Z.of_nat (cbits fine (sf_small f)) - 1) <= c < 2 ^ (Z.of_nat (cbits fine (sf_small f)) - 1)) (sf_coef f).
Definition valid_twin (x : widths_of) (w : swin) : Prop :=
  Z.of_nat (length (sw_filt w)) < 2 ^ Z.of_nat (nb_filt x) /\ Forall (valid_filt x (sw_fine w)) (sw_filt w).
Definition valid_tns (islong : bool) (l : list swin) : Prop :=
  length l = (if islong then 1%nat else 8%nat) /\ Forall (valid_twin (wid islong)) l.

(** The filters of a window leave the lowest band alone. *)
Definition above (bands : Z) (w : swin) : Prop := zsum (map sf_len (sw_filt w)) < bands.
