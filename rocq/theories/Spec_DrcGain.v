(** * Spec_DrcGain: what a DRC gain payload means, written independently of the reader *)
From Coq Require Import ZArith List Lia Bool.
From Verif Require Import Bits BitBuf Prog BitWrite DrcCfg DrcGain Spec_Drc.
Import ListNotations.
Open Scope Z_scope.

(** ** Codewords *)

(** Differences of gains (in eighths of a dB) and their codewords, for regular and fading
    gains, in the order of the values. *)
Definition codes_regular : list (Z * list Z) :=
  [(-16, [0; 0; 0; 0]); (-15, [0; 0; 0; 1; 1; 1; 0; 0; 1]);
   (-14, [0; 0; 0; 1; 1; 1; 0; 0; 0; 1; 0]); (-13, [0; 0; 0; 1; 1; 1; 0; 0; 0; 1; 1]);
   (-12, [0; 0; 0; 1; 1; 1; 0; 0; 0; 0]); (-11, [0; 1; 1; 0; 1; 0; 1; 1; 0; 0]);
   (-10, [0; 1; 1; 0; 1; 0; 1; 1; 0; 1]); (-9, [0; 1; 1; 0; 1; 0; 1; 0; 1]);
   (-8, [0; 0; 0; 1; 1; 1; 1]); (-7, [0; 1; 1; 0; 1; 0; 0]); (-6, [0; 1; 1; 0; 1; 1; 0]);
   (-5, [0; 1; 1; 0; 0; 1]); (-4, [0; 0; 0; 1; 0]); (-3, [0; 1; 1; 1; 1]); (-2, [0; 0; 1]);
   (-1, [1; 1]); (0, [0; 1; 0]); (1, [1; 0]); (2, [0; 1; 1; 0; 0; 0]);
   (3, [0; 0; 0; 1; 1; 0]); (4, [0; 1; 1; 0; 1; 1; 1]); (5, [0; 0; 0; 1; 1; 1; 0; 1]);
   (6, [0; 1; 1; 0; 1; 0; 1; 1; 1]); (7, [0; 1; 1; 0; 1; 0; 1; 0; 0]); (8, [0; 1; 1; 1; 0])].

(** The same for clipping prevention and ducking gains. *)
Definition codes_clipping : list (Z * list Z) :=
  [(-32, [1; 1; 0; 1; 0; 1; 0]); (-31, [0; 0; 0; 0; 1; 1; 1; 1; 0; 1; 0]);
   (-30, [0; 0; 0; 0; 1; 1; 1; 1; 0; 1; 1]); (-29, [1; 1; 0; 1; 0; 1; 1; 0; 1]);
   (-28, [0; 0; 0; 0; 1; 1; 1; 1; 0; 0]); (-27, [1; 1; 0; 1; 0; 1; 1; 0; 0]);
   (-26, [1; 1; 0; 1; 0; 0; 1; 1; 0]); (-25, [0; 1; 1; 0; 0; 1; 1; 0; 1]);
   (-24, [0; 1; 1; 0; 0; 1; 1; 1; 1; 0]); (-23, [0; 1; 1; 0; 0; 1; 1; 1; 1; 1]);
   (-22, [0; 1; 1; 0; 0; 1; 1; 1; 0]); (-21, [1; 1; 0; 1; 0; 0; 1; 1; 1]);
   (-20, [0; 0; 0; 0; 1; 1; 1; 1; 1]); (-19, [0; 1; 1; 0; 0; 1; 1; 0; 0]);
   (-18, [1; 1; 0; 1; 0; 0; 1; 0]); (-17, [1; 0; 1; 0; 1; 0; 1; 1]);
   (-16, [1; 0; 1; 0; 1; 0; 1; 0]); (-15, [0; 1; 0; 0; 1; 1; 1; 1]);
   (-14, [1; 0; 1; 0; 1; 0; 0]); (-13, [1; 1; 0; 1; 0; 0; 0]); (-12, [0; 1; 0; 0; 1; 1; 0]);
   (-11, [0; 0; 0; 0; 1; 1; 0]); (-10, [1; 0; 1; 0; 1; 1]); (-9, [1; 0; 1; 0; 0; 0]);
   (-8, [0; 0; 0; 0; 1; 0]); (-7, [1; 0; 0; 0; 1]); (-6, [0; 1; 1; 1; 0]); (-5, [1; 1; 0; 0]);
   (-4, [1; 0; 0; 1]); (-3, [0; 1; 0; 1]); (-2, [0; 0; 1; 1]); (-1, [1; 1; 1]);
   (0, [0; 0; 0; 1]); (1, [1; 0; 1; 1]); (2, [0; 0; 1; 0; 1]); (3, [0; 0; 1; 0; 0]);
   (4, [0; 1; 0; 0; 0]); (5, [0; 0; 0; 0; 0]); (6, [0; 1; 1; 0; 1]); (7, [0; 1; 1; 1; 1]);
   (8, [1; 0; 0; 0; 0]); (9, [1; 1; 0; 1; 1]); (10, [0; 1; 0; 0; 1; 0]);
   (11, [0; 1; 1; 0; 0; 0]); (12, [1; 0; 1; 0; 0; 1]); (13, [0; 1; 1; 0; 0; 1; 0]);
   (14, [0; 1; 0; 0; 1; 1; 1; 0]); (15, [1; 1; 0; 1; 0; 1; 1; 1]);
   (16, [0; 0; 0; 0; 1; 1; 1; 0])].

Definition codes (prof : Z) : list (Z * list Z) := if prof =? 2 then codes_clipping else codes_regular.

Definition bools (l : list Z) : list bool := map (fun b => b =? 1) l.

(** The codeword of a difference of gains. *)
Definition enc_diff (prof d : Z) : list bool :=
  match find (fun x => fst x =? d) (codes prof) with Some (_, w) => bools w | None => [] end.

Definition known_diff (prof d : Z) : Prop := In d (map fst (codes prof)).

(** The codeword of a time difference of [d] steps, where a frame has [nmax] steps: 1 step,
    2 to 5, 6 to 13, and 14 to two frames. *)
Definition enc_time (nmax d : Z) : list bool :=
  if d =? 1 then [false; false]
  else if d <=? 5 then [false; true] ++ bits_of 2 (d - 2)
  else if d <=? 13 then [true; false] ++ bits_of 3 (d - 6)
  else [true; true] ++ bits_of (Z.to_nat (Z.log2_up (2 * nmax))) (d - 14).

(** First gain of a band: regular gains have a sign, the others are 0 or negative. *)
Definition enc_first (prof g : Z) : list bool :=
  if prof =? 0 then [g <? 0] ++ bits_of 8 (Z.abs g)
  else if g =? 0 then [false]
  else [true] ++ bits_of (if prof =? 1 then 10 else 8) (- g - 1).

Definition valid_first (prof g : Z) : Prop :=
  (prof = 0 /\ -255 <= g <= 255) \/ (prof = 1 /\ -1024 <= g <= 0) \/ (prof = 2 /\ -256 <= g <= 0).

(** ** Messages *)

(** The gain curve of one band in one frame: one gain for the whole frame, or a list of
    nodes.  [m_end] tells whether the last node of the frame is implied; it is not sent when
    the configuration says that it always is ([gs_full]).  Times are sent as numbers of
    steps from the previous node, gains as differences. *)
Inductive m_band :=
| One (g : Z)
| Many (m_end : bool) (steps : list Z) (g : Z) (diffs : list Z).

Definition n_nodes (m : m_band) : Z :=
  match m with One _ => 1 | Many _ _ _ diffs => 1 + Z.of_nat (length diffs) end.

Definition enc_band (nmax : Z) (g : gset) (m : m_band) : list bool :=
  match m with
  | One v => [false] ++ enc_first (gs_prof g) v
  | Many fe steps v diffs =>
      [true] ++ repeat false (length diffs) ++ [true]
      ++ (if gs_full g =? 0 then [fe] else [])
      ++ flat_map (enc_time nmax) steps
      ++ enc_first (gs_prof g) v
      ++ flat_map (enc_diff (gs_prof g)) diffs
  end.

(** ** Meaning *)

(** Times at the given distances, starting from [t]. *)
Fixpoint times_from (tmin t : Z) (steps : list Z) : list Z :=
  match steps with [] => [] | d :: r => (t + d * tmin) :: times_from tmin (t + d * tmin) r end.

(** Gains with the given differences. *)
Fixpoint gains_from (v : Z) (diffs : list Z) : list Z :=
  v :: match diffs with [] => [] | d :: r => gains_from (v + d) r end.

(** The node at the end of the frame in its place in the order of time. *)
Fixpoint insert_end (e : Z) (l : list Z) : list Z :=
  match l with [] => [e] | t :: r => if t <=? e then t :: insert_end e r else e :: l end.

(** Nodes after the frame belong to the frame before: they are two frames earlier and come
    first. *)
Definition arrange (F : Z) (l : list Z) : list Z :=
  map (fun t => t - 2 * F) (filter (fun t => F <=? t) l) ++ filter (fun t => t <? F) l.

(** Where the steps start: one step before the frame, centred or not. *)
Definition origin (tmin : Z) (g : gset) : Z :=
  if gs_align g =? 0 then -1 else - tmin + (tmin - 1) / 2.

Definition raw_times (F tmin : Z) (g : gset) (m : m_band) : list Z :=
  match m with
  | One _ => [F + origin tmin g]
  | Many fe steps _ _ =>
      let ts := times_from tmin (origin tmin g) steps in
      if fe then insert_end (F + origin tmin g) ts else ts
  end.

Definition meant_times (F tmin : Z) (g : gset) (m : m_band) : list Z := arrange F (raw_times F tmin g m).
Definition meant_gains (m : m_band) : list Z :=
  match m with One v => [v] | Many _ _ v diffs => gains_from v diffs end.

Definition valid_band (F tmin nmax : Z) (g : gset) (m : m_band) : Prop :=
  match m with
  | One v => valid_first (gs_prof g) v
  | Many fe steps v diffs =>
      (length diffs <= 31)%nat /\
      (gs_full g <> 0 -> fe = true) /\
      length steps = (if fe then length diffs else S (length diffs)) /\
      Forall (fun d => 1 <= d <= 2 * nmax) steps /\
      valid_first (gs_prof g) v /\ Forall (known_diff (gs_prof g)) diffs /\
      Forall (fun t => t < (if fe then 3 * F else F)) (times_from tmin (origin tmin g) steps)
  end.

(** The node structure of a band holds these nodes. *)
Definition holds (nd : nodes) (ts gs : list Z) : Prop :=
  nd_n nd = Z.of_nat (length ts) /\ length gs = length ts /\
  firstn (length ts) (nd_t nd) = ts /\ firstn (length gs) (nd_g nd) = gs.

(** A payload: for every gain set the bands; nothing is sent for constant gain; optionally
    one extension block (type, number of bits of its size field, content). *)
Definition enc_set (nmax : Z) (g : gset) (ms : list m_band) : list bool :=
  if gs_prof g =? 3 then [] else flat_map (enc_band nmax g) ms.

Definition valid_gset (F tmin nmax : Z) (g : gset) (ms : list m_band) : Prop :=
  gs_prof g = 3 \/
  (0 <= gs_prof g <= 2 /\ Z.of_nat (length ms) = gs_count g /\ Forall (valid_band F tmin nmax g) ms).

Definition enc_gain_ext (x : option (Z * Z * list bool)) : list bool :=
  match x with
  | None => [false]
  | Some (ty, w, c) => [true] ++ bits_of 4 ty ++ bits_of 3 w
      ++ bits_of (Z.to_nat (w + 4)) (Z.of_nat (length c) - 1) ++ c ++ bits_of 4 0
  end.
Definition valid_gain_ext (x : option (Z * Z * list bool)) : Prop :=
  match x with
  | None => True
  | Some (ty, w, c) => 1 <= ty <= 15 /\ 0 <= w <= 7 /\ 1 <= Z.of_nat (length c) <= 2 ^ (w + 4)
  end.

Fixpoint enc_sets (nmax : Z) (sets : list gset) (ms : list (list m_band)) : list bool :=
  match sets, ms with g :: r, m :: q => enc_set nmax g m ++ enc_sets nmax r q | _, _ => [] end.

(** What one gain set has become. *)
Definition set_holds (F tmin : Z) (g : gset) (ms : list m_band) (sq : gseq) : Prop :=
  if gs_prof g =? 3 then
    sq_count sq = 1 /\ exists nd r, sq_nodes sq = nd :: r /\ holds nd [F - 1] [0]
  else
    sq_count sq = gs_count g /\
    forall b m, nth_error ms b = Some m -> exists nd, nth_error (sq_nodes sq) b = Some nd /\
      holds nd (meant_times F tmin g m) (meant_gains m).

(** ** Shapes *)
Definition nodes_shape (nd : nodes) : Prop := length (nd_g nd) = 128%nat /\ length (nd_t nd) = 128%nat.
Definition seq_shape (sq : gseq) : Prop := length (sq_nodes sq) = 4%nat /\ Forall nodes_shape (sq_nodes sq).
Definition gain_shape (st : list gseq) : Prop := length st = 24%nat /\ Forall seq_shape st.

(** The reader's table as it is after any number of initialisations with sampling rates of
    at least 3000 Hz, starting from zeroed memory. *)
Definition zero_table : list entry := repeat (0, 0, 0) 526.
Inductive table_of : list entry -> Z -> Prop :=
| T_first rate tm tb : 3000 <= rate <= 48000 -> init_dec zero_table rate = Done (Ok (tm, tb)) -> table_of tb tm
| T_again old tm0 rate tm tb : table_of old tm0 -> 3000 <= rate <= 48000 ->
    init_dec old rate = Done (Ok (tm, tb)) -> table_of tb tm.

(** What the gain curve generator needs of the nodes of a band: at least one and at most 32,
    all before the end of the frame, the last one not before its start. *)
Definition usable (F : Z) (nd : nodes) : Prop :=
  1 <= nd_n nd <= 32 /\
  (forall i t, Z.of_nat i < nd_n nd -> nth_error (nd_t nd) i = Some t -> t < F) /\
  (exists t, nth_error (nd_t nd) (Z.to_nat (nd_n nd - 1)) = Some t /\ 0 <= t).

Definition set_usable (F : Z) (g : gset) (sq : gseq) : Prop :=
  sq_count sq = (if gs_prof g =? 3 then 1 else gs_count g) /\
  forall b nd, Z.of_nat b < sq_count sq -> nth_error (sq_nodes sq) b = Some nd -> usable F nd.
