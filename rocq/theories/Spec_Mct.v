(** * Spec_Mct: what the side information of the multichannel coding tool means

    Independent of the decoder: the codebooks as strings of bits, a frame as a list of
    channel pairs with a coefficient (or none) for every band of every window, and the bit
    string that carries it. *)

From Coq Require Import ZArith List Lia Bool Ascii String.
From Verif Require Import Bits BitWrite.
Import ListNotations.
Open Scope list_scope.
Open Scope Z_scope.

(** ** Codebooks *)
Local Open Scope string_scope.
Definition book_angle : list string := [
  "0"; "1011"; "10010"; "11011"; "11111"; "110001"; "111010"; "1000011"; "1100101"; "1110011";
   "10000010"; "10011010"; "11001110"; "11101110"; "100000110"; "100111010"; "111011001"; "111011110";
   "1000000010"; "1001100001"; "1000001111"; "1000001110"; "1001100011"; "1001100110"; "1001110010";
   "1001110001"; "1001110111"; "1001110110"; "1100110100"; "1100100101"; "1100100110"; "1100100111";
   "1100100100"; "1100100011"; "1100110101"; "1100100010"; "1100100000"; "1100100001"; "1001110011";
   "1001110000"; "1001100111"; "1001100000"; "10011000100"; "10011000101"; "1000000011"; "111011111";
   "111011010"; "111011000"; "110011011"; "111011011"; "100110010"; "100000000"; "11001111";
   "11001100"; "10011011"; "10000001"; "1110010"; "1001111"; "1000010"; "111000"; "110000"; "11110";
   "11010"; "10001"; "1010"].
Definition book_scf : list string := [
  "111111111111101000"; "111111111111100110"; "111111111111100111"; "111111111111100101"; "1111111111111110101";
   "1111111111111110001"; "1111111111111101101"; "1111111111111110110"; "1111111111111101110";
   "1111111111111101111"; "1111111111111110000"; "1111111111111111100"; "1111111111111111101";
   "1111111111111111111"; "1111111111111111110"; "1111111111111110111"; "1111111111111111000";
   "1111111111111111011"; "1111111111111111001"; "111111111111100100"; "1111111111111111010";
   "111111111111100011"; "11111111111101111"; "11111111111110000"; "1111111111110101"; "11111111111101110";
   "1111111111110010"; "1111111111110011"; "1111111111110100"; "1111111111110001"; "111111111110110";
   "111111111110111"; "11111111111001"; "11111111110101"; "11111111110111"; "11111111110011";
   "11111111110110"; "11111111110010"; "1111111110111"; "1111111110101"; "111111111001"; "111111110111";
   "111111110110"; "11111111001"; "111111110100"; "11111111000"; "1111111001"; "1111110111";
   "1111110101"; "111111000"; "111110111"; "11111010"; "11111000"; "11110110"; "1111001"; "111010";
   "111000"; "11010"; "1011"; "100"; "0"; "1010"; "1100"; "11011"; "111001"; "111011"; "1111000";
   "1111010"; "11110111"; "11111001"; "111110110"; "111111001"; "1111110100"; "1111110110"; "1111111000";
   "11111110101"; "11111110100"; "11111110110"; "11111110111"; "111111110101"; "111111111000";
   "1111111110100"; "1111111110110"; "1111111111000"; "11111111111000"; "11111111110100"; "1111111111110000";
   "111111111110100"; "1111111111110110"; "111111111110101"; "111111111111100010"; "1111111111111011001";
   "1111111111111011010"; "1111111111111011011"; "1111111111111011100"; "1111111111111011101";
   "1111111111111011110"; "1111111111111011000"; "1111111111111010010"; "1111111111111010011";
   "1111111111111010100"; "1111111111111010101"; "1111111111111010110"; "1111111111111110010";
   "1111111111111011111"; "1111111111111100111"; "1111111111111101000"; "1111111111111101001";
   "1111111111111101010"; "1111111111111101011"; "1111111111111100110"; "1111111111111100000";
   "1111111111111100001"; "1111111111111100010"; "1111111111111100011"; "1111111111111100100";
   "1111111111111100101"; "1111111111111010111"; "1111111111111101100"; "1111111111111110100";
   "1111111111111110011"].
Local Close Scope string_scope.

(** A codeword written as a string of 0 and 1. *)
Fixpoint word (s : string) : list bool :=
  match s with
  | EmptyString => []
  | String c r => Ascii.eqb c "1" :: word r
  end.

(** Two kinds of processing: complex-free prediction with factor [q/10], or rotation by one
    of 65 angles. *)
Inductive kind := Prediction | Rotation.

Definition kind_eqb (a b : kind) : bool :=
  match a, b with Prediction, Prediction => true | Rotation, Rotation => true | _, _ => false end.

(** The coefficient in force where nothing was transmitted. *)
Definition dk (k : kind) : Z := match k with Prediction => 0 | Rotation => 48 end.

(** The codeword for coefficient [q] when the reference is [ref]: prediction factors by
    [ref - q] between -60 and 60, angles by [q - ref] on the circle of 65. *)
Definition code (k : kind) (ref q : Z) : list bool :=
  match k with
  | Prediction => word (nth (Z.to_nat (60 + ref - q)) book_scf EmptyString)
  | Rotation => word (nth (Z.to_nat ((q - ref) mod 65)) book_angle EmptyString)
  end.

(** What can be coded: an angle, or a prediction factor within 60 steps of the reference
    (and that a 32 bit integer holds). *)
Definition codable (k : kind) (ref q : Z) : Prop :=
  match k with
  | Prediction => -60 <= q - ref <= 60 /\ - 2 ^ 31 + 60 <= q < 2 ^ 31
  | Rotation => 0 <= q <= 64
  end.

(** ** A pair of channels *)

(** Coefficients: one for the whole spectrum; one for the bands that are switched on (one
    list of bands for each window); one for each band; one for each band switched on. *)
Inductive content :=
| Whole (q : Z)
| Masked (q : Z) (rows : list (list bool))
| PerBand (rows : list (list Z))
| PerBandMasked (rows : list (list (option Z))).

Record sbox := mkSbox {
  s_fill : bool;            (* stereo filling *)
  s_pair : Z * Z;           (* the channels, in the list of channels the tool applies to *)
  s_short : bool;           (* eight short windows *)
  s_dir : bool;             (* direction of the prediction *)
  s_time : bool;            (* coded against the previous window, not the previous band *)
  s_cont : content }.

Definition windows (short : bool) : nat := if short then 8%nat else 1%nat.

(** The coefficient of every band of every window; [None]: the band is not processed. *)
Definition effect (short : bool) (c : content) : list (list (option Z)) :=
  match c with
  | Whole q => repeat (repeat (Some q) (64 / windows short)) (windows short)
  | Masked q rows => map (map (fun b : bool => if b then Some q else None)) rows
  | PerBand rows => map (map Some) rows
  | PerBandMasked rows => rows
  end.

(** Coefficients as references for the next window or frame. *)
Definition settle (k : kind) (row : list (option Z)) : list Z :=
  map (fun o => match o with Some q => q | None => dk k end) row.

(** What a box left behind: the windows, its channels, its full-band coefficient, those of
    its last window. *)
Record hist := mkHist { h_short : bool; h_pair : Z * Z; h_full : Z; h_row : list Z }.

Definition leaves (k : kind) (b : sbox) : hist :=
  mkHist (s_short b) (s_pair b)
         (match s_cont b with Whole q => q | Masked q _ => q | _ => dk k end)
         (settle k (last (effect (s_short b) (s_cont b)) [])).

(** References of box [i]: those of the same box in the previous frame, if it was in use
    with the same windows. *)
Definition refs (k : kind) (hs : list hist) (i : nat) (short : bool) : Z * list Z :=
  match nth_error hs i with
  | Some h => if Bool.eqb (h_short h) short then (h_full h, h_row h) else (dk k, [])
  | None => (dk k, [])
  end.

(** ** Bits *)
Definition bit (b : bool) : list bool := [b].

(** Bands of a window, each against the band before (the default before the first). *)
Fixpoint freq_row (k : kind) (ref : Z) (row : list (option Z)) : list bool :=
  match row with
  | [] => []
  | None :: r => freq_row k ref r
  | Some q :: r => code k ref q ++ freq_row k q r
  end.
Fixpoint freq_ok (k : kind) (ref : Z) (row : list (option Z)) : Prop :=
  match row with
  | [] => True
  | None :: r => freq_ok k ref r
  | Some q :: r => codable k ref q /\ freq_ok k q r
  end.

(** Bands of a window, each against the same band [j] of the window before. *)
Fixpoint time_row (k : kind) (prev : list Z) (j : nat) (row : list (option Z)) : list bool :=
  match row with
  | [] => []
  | None :: r => time_row k prev (S j) r
  | Some q :: r => code k (nth j prev (dk k)) q ++ time_row k prev (S j) r
  end.
Fixpoint time_ok (k : kind) (prev : list Z) (j : nat) (row : list (option Z)) : Prop :=
  match row with
  | [] => True
  | None :: r => time_ok k prev (S j) r
  | Some q :: r => codable k (nth j prev (dk k)) q /\ time_ok k prev (S j) r
  end.

Fixpoint rows_bits (k : kind) (time : bool) (prev : list Z) (rows : list (list (option Z)))
  : list bool :=
  match rows with
  | [] => []
  | r :: rs => (if time then time_row k prev 0 r else freq_row k (dk k) r) ++
               rows_bits k time (settle k r) rs
  end.
Fixpoint rows_ok (k : kind) (time : bool) (prev : list Z) (rows : list (list (option Z)))
  : Prop :=
  match rows with
  | [] => True
  | r :: rs => (if time then time_ok k prev 0 r else freq_ok k (dk k) r) /\
               rows_ok k time (settle k r) rs
  end.

(** Number of bands of each window. *)
Definition nbands (c : content) : nat :=
  match c with
  | Whole _ => 0%nat
  | Masked _ rows => List.length (hd [] rows)
  | PerBand rows => List.length (hd [] rows)
  | PerBandMasked rows => List.length (hd [] rows)
  end.

(** Two flags (masked, band-wise), then windows and number of bands, then the masks. *)
Definition shape_bits (short : bool) (c : content) : list bool :=
  let size := bit short ++ bits_of 5 (Z.of_nat (nbands c)) in
  match c with
  | Whole _ => bit false ++ bit false
  | Masked _ rows => bit true ++ bit false ++ size ++ List.concat rows
  | PerBand _ => bit false ++ bit true ++ size
  | PerBandMasked rows =>
    bit true ++ bit true ++ size ++
    List.concat (map (map (fun o => match o with Some _ => true | None => false end)) rows)
  end.

Definition coef_bits (k : kind) (time short : bool) (ref : Z * list Z) (c : content) : list bool :=
  match c with
  | Whole q | Masked q _ => code k (if time then fst ref else dk k) q
  | _ => rows_bits k time (snd ref) (effect short c)
  end.

(** The pair number: pairs counted (0,1), (0,2), (1,2), (0,3), ... in as many bits as the
    largest number needs. *)
Definition pair_number (p : Z * Z) : Z := snd p * (snd p - 1) / 2 + fst p.
Definition pair_bits (nch : Z) : nat := Z.to_nat (1 + Z.log2 (nch * (nch - 1) / 2 - 1)).

(** ** A frame *)
Record frame := mkFrame {
  f_indep : bool;           (* decodable without the frames before *)
  f_fill : bool;            (* stereo filling is used *)
  f_kind : kind;
  f_keep : bool;            (* same pairs as in the frame before *)
  f_boxes : list sbox }.

Definition box_bits (nch : Z) (f : frame) (ref : Z * list Z) (b : sbox) : list bool :=
  (if f_fill f then bit (s_fill b) else []) ++
  (if f_keep f then [] else bits_of (pair_bits nch) (pair_number (s_pair b))) ++
  shape_bits (s_short b) (s_cont b) ++
  match f_kind f with Prediction => bit (s_dir b) | Rotation => [] end ++
  (if f_indep f then [] else bit (s_time b)) ++
  coef_bits (f_kind f) (s_time b) (s_short b) ref (s_cont b).

Fixpoint boxes_bits (nch : Z) (f : frame) (hs : list hist) (i : nat) (bs : list sbox) : list bool :=
  match bs with
  | [] => []
  | b :: r => box_bits nch f (refs (f_kind f) hs i (s_short b)) b ++ boxes_bits nch f hs (S i) r
  end.

Definition frame_bits (nch : Z) (hs : list hist) (f : frame) : list bool :=
  bit (f_fill f) ++
  bit (kind_eqb (f_kind f) Rotation) ++
  (if f_indep f then [] else bit (f_keep f)) ++
  (if f_keep f then [] else esc_enc 5 8 16 (Z.of_nat (List.length (f_boxes f)))) ++
  boxes_bits nch f hs 0 (f_boxes f).

(** ** What an encoder may send *)

Definition shaped {A} (short : bool) (rows : list (list A)) : Prop :=
  List.length rows = windows short /\
  exists n, (n <= if short then 8 else 31)%nat /\ Forall (fun r => List.length r = n) rows.

Definition content_ok (k : kind) (time short : bool) (ref : Z * list Z) (c : content) : Prop :=
  match c with
  | Whole q => codable k (if time then fst ref else dk k) q
  | Masked q rows => shaped short rows /\ codable k (if time then fst ref else dk k) q
  | PerBand rows => shaped short rows /\ rows_ok k time (snd ref) (effect short c)
  | PerBandMasked rows => shaped short rows /\ rows_ok k time (snd ref) (effect short c)
  end.

(** [pk]: the kind of the frame before. *)
Definition box_ok (nch : Z) (pk : kind) (f : frame) (ref : Z * list Z) (b : sbox) : Prop :=
  (s_fill b = true -> f_fill f = true) /\
  0 <= fst (s_pair b) < snd (s_pair b) /\ snd (s_pair b) < nch /\
  (s_dir b = true -> f_kind f = Prediction) /\
  (s_time b = true -> f_indep f = false /\ pk = f_kind f) /\
  content_ok (f_kind f) (s_time b) (s_short b) ref (s_cont b).

Fixpoint boxes_ok (nch : Z) (pk : kind) (f : frame) (hs : list hist) (i : nat) (bs : list sbox)
  : Prop :=
  match bs with
  | [] => True
  | b :: r => box_ok nch pk f (refs (f_kind f) hs i (s_short b)) b /\ boxes_ok nch pk f hs (S i) r
  end.

Definition frame_ok (nch : Z) (pk : kind) (hs : list hist) (f : frame) : Prop :=
  (List.length (f_boxes f) <= 16)%nat /\
  (f_keep f = true -> f_indep f = false /\ map s_pair (f_boxes f) = map h_pair hs) /\
  boxes_ok nch pk f hs 0 (f_boxes f).

(** ** The channels the tool applies to *)

(** Positions of the channels that are marked, in order. *)
Fixpoint picked_from (c : nat) (mask : list bool) : list nat :=
  match mask with
  | [] => []
  | b :: r => if b then c :: picked_from (S c) r else picked_from (S c) r
  end.
Definition picked (mask : list bool) : list nat := picked_from 0 mask.

(** ** A stream of frames, each written against the one before *)
Fixpoint stream_ok (nch : Z) (pk : kind) (hs : list hist) (fs : list frame) : Prop :=
  match fs with
  | [] => True
  | f :: r => frame_ok nch pk hs f /\
              stream_ok nch (f_kind f) (map (leaves (f_kind f)) (f_boxes f)) r
  end.
Fixpoint stream_bits (nch : Z) (hs : list hist) (fs : list frame) : list (list bool) :=
  match fs with
  | [] => []
  | f :: r => frame_bits nch hs f ::
              stream_bits nch (map (leaves (f_kind f)) (f_boxes f)) r
  end.
