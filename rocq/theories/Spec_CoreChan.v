(** * Spec_CoreChan: the header of a channel, as sent

    Independent of the decoder. *)

From Coq Require Import ZArith List Lia Bool.
From Verif Require Import Bits Spec_CoreIcs Spec_CoreScf Spec_CorePair.
Import ListNotations.
Open Scope list_scope.
Open Scope Z_scope.

(** How much noise is filled in: a level and an offset. *)
Record noise := mkNoise { n_level : Z; n_offset : Z }.

(** TNS: none, the channel's own, or sent before for both channels of the pair. *)
Inductive ctns := NoFilters | OwnFilters (l : list swin) | SharedFilters.

(** Gain; noise, if the element has it; the window, unless the channels of a pair share it;
    the postfilter (off, or lag and gain), unless they share it; the spacing for prediction
    in the frequency domain; the symmetries of the window's two sides (the first one only in
    frames decodable on their own); factors; TNS; does the spectral decoder start afresh (only
    in other frames). *)
Record chan := mkChan {
  x_gain : Z; x_noise : option noise; x_win : option winfo; x_ltpf : option (option (Z * Z)); x_fdp : option Z;
  x_left : bool; x_right : bool; x_rows : list (list Z); x_tns : ctns; x_fresh : bool }.

(** Up to the window, and after it; [long] tells the kind of window. *)
Definition enc_front (h : chan) : list bool :=
  bits_of 8 (x_gain h) ++
  match x_noise h with None => [] | Some n => bits_of 3 (n_level n) ++ bits_of 5 (n_offset n) end ++
  match x_win h with None => [] | Some v => enc_win v end.
Definition enc_back (indep long : bool) (h : chan) : list bool :=
  match x_ltpf h with
  | None => []
  | Some None => [false]
  | Some (Some (lag, gain)) => [true] ++ bits_of 9 lag ++ bits_of 2 gain
  end ++
  (if long && negb indep then match x_fdp h with None => [false] | Some v => [true] ++ bits_of 8 v end else []) ++
  (if indep then [x_left h] else []) ++ [x_right h] ++
  enc_factors (x_gain h) (x_rows h) ++
  match x_tns h with OwnFilters l => enc_tns long l | _ => [] end ++
  (if indep then [] else [x_fresh h]).
Definition enc_chan (indep long : bool) (h : chan) : list bool := enc_front h ++ enc_back indep long h.

(** [v]: the window in force, sent or shared; [nl], [ns]: bands of a long and a short one. *)
Definition valid_chan (nl ns : Z) (indep : bool) (v : winfo) (h : chan) : Prop :=
  valid_win nl ns v /\ (match x_win h with Some v' => v' = v | None => True end) /\
  match x_noise h with Some n => 0 <= n_level n < 8 /\ 0 <= n_offset n < 32 | None => True end /\
  match x_ltpf h with Some (Some (lag, gain)) => 0 <= lag < 512 /\ 0 <= gain < 4 | _ => True end /\
  match x_fdp h with Some f => 0 <= f < 256 /\ long_win v = true /\ indep = false | None => True end /\
  valid_factors (Z.to_nat (v_max v)) (x_gain h) (x_rows h) /\ length (x_rows h) = length (groups v) /\
  match x_tns h with OwnFilters l => valid_tns (long_win v) l /\ Forall (above (if long_win v then nl else ns)) l | _ => True end /\
  (indep = true -> x_fresh h = true).

(** A level of 0 with an offset means something else in the second channel of a pair that
    shares its window: the stereo signal fills the gaps, and the offset tells both, level
    with its upper three bits and offset with the others, times 8.  Other channels read such
    an offset that way if a long window ends with a short slope. *)
Definition special (n : noise) : bool := (n_level n =? 0) && (0 <? n_offset n).
Definition stereo_fill (shared second : bool) (n : noise) : bool := shared && second && special n.
Definition noise_meant (shared second : bool) (seq : Z) (n : noise) : noise :=
  if special n && (shared && second || ((seq =? 1) || (seq =? 4)))
  then mkNoise (n_offset n / 4) (8 * (n_offset n mod 4)) else n.
