(** * Spec_CorePair: the header of a channel pair, as sent *)

From Coq Require Import ZArith List Lia Bool.
From Verif Require Import Bits Spec_CoreIcs Spec_CoreSte.
Import ListNotations.
Open Scope list_scope.
Open Scope Z_scope.

(** A window the channels share, how many bands the right channel has (nothing: as many as
    the left one), and how the two channels are coded together. *)
Record shared := mkShared { z_win : winfo; z_right : option Z; z_ste : stereo }.

(** TNS: none; one set for both channels; or each channel has its own, sent with its data:
    in both, in the left only or in the right only.  The flag: before or after the stereo
    tool. *)
Inductive whose := Both | LeftOnly | RightOnly.
Inductive ptns := NoTns | CommonTns (lr : bool) (l : list swin) | OwnTns (lr : bool) (w : whose).

(** The postfilter, when the channels share it: off, or a lag and a gain. *)
Record pair := mkPair { y_shared : option shared; y_ltpf : option (option (Z * Z)); y_tns : ptns }.

Definition long_win (v : winfo) : bool := negb (v_code v =? 2).

Definition enc_shared (indep : bool) (ref : list coef) (z : shared) : list bool :=
  enc_win (z_win z) ++
  match z_right z with
  | None => [true]
  | Some n => [false] ++ bits_of (if long_win (z_win z) then 6 else 4) n
  end ++ enc_stereo indep ref (z_ste z).

Definition enc_pair (indep : bool) (ref : list coef) (h : pair) : list bool :=
  [match y_tns h with NoTns => false | _ => true end;
   match y_shared h with None => false | _ => true end] ++
  match y_shared h with None => [] | Some z => enc_shared indep ref z end ++
  match y_ltpf h with
  | None => [false]
  | Some None => [true; false]
  | Some (Some (lag, gain)) => [true; true] ++ bits_of 9 lag ++ bits_of 2 gain
  end ++
  match y_tns h with
  | NoTns => []
  | CommonTns lr l => [true; lr] ++ enc_tns (match y_shared h with Some z => long_win (z_win z) | None => true end) l
  | OwnTns lr w => (match y_shared h with None => [] | Some _ => [false] end) ++ [lr] ++
      match w with Both => [true] | LeftOnly => [false; false] | RightOnly => [false; true] end
  end.

Definition right_bands (z : shared) : Z := match z_right z with None => v_max (z_win z) | Some n => n end.
Definition sent_bands (z : shared) : nat := Z.to_nat (Z.max (v_max (z_win z)) (right_bands z)).

(** [nl], [ns]: bands of a long and of a short window. *)
Definition valid_shared (nl ns : Z) (indep : bool) (ref : list coef) (z : shared) : Prop :=
  valid_win nl ns (z_win z) /\ 0 <= right_bands z <= (if long_win (z_win z) then nl else ns) /\
  valid_stereo indep (length (groups (z_win z))) (sent_bands z) ref (z_ste z).

Definition valid_pair (nl ns : Z) (indep : bool) (ref : list coef) (h : pair) : Prop :=
  match y_shared h with None => True | Some z => valid_shared nl ns indep ref z end /\
  match y_ltpf h with Some (Some (lag, gain)) => 0 <= lag < 512 /\ 0 <= gain < 4 | _ => True end /\
  match y_tns h with
  | CommonTns _ l => match y_shared h with
                     | None => False
                     | Some z => valid_tns (long_win (z_win z)) l /\ Forall (above (if long_win (z_win z) then nl else ns)) l
                     end
  | _ => True
  end.

(** What the coefficients of a frame are coded against: nothing in a frame decodable on its
    own, else what the frame before left. *)
Definition start (indep : bool) (ref : list coef) : list coef := if indep then [] else ref.
Definition uses_complex (h : pair) : bool :=
  match y_shared h with Some z => match z_ste z with Predicted q => q_cplx q | _ => false end | None => false end.

(** And what it leaves: nothing when the channels share no window. *)
Definition next_coefs (indep : bool) (ref : list coef) (h : pair) : list coef :=
  match y_shared h with None => [] | Some z => next_ref (start indep ref) (z_ste z) end.

(** Frames one after the other, each with the window sequence its left channel used before
    and whether it is decodable on its own. *)
Record frame := mkFrame { k_indep : bool; k_prev : Z; k_head : pair }.
Fixpoint enc_frames (ref : list coef) (l : list frame) : list (list bool) :=
  match l with
  | [] => []
  | f :: r => enc_pair (k_indep f) (start (k_indep f) ref) (k_head f) :: enc_frames (next_coefs (k_indep f) ref (k_head f)) r
  end.
Fixpoint valid_frames (nl ns : Z) (ref : list coef) (l : list frame) : Prop :=
  match l with
  | [] => True
  | f :: r => valid_pair nl ns (k_indep f) (start (k_indep f) ref) (k_head f) /\
              valid_frames nl ns (next_coefs (k_indep f) ref (k_head f)) r
  end.
