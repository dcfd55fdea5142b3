(** * Spec_GrpLay: signal groups that bring their own loudspeaker layout *)

From Coq Require Import ZArith List Bool.
From Verif Require Import Bits BitBuf BitWrite Prog Escape Cicp Config Spec_Config Spec_Flex Spec_ConfigFull.
Import ListNotations.
Open Scope Z_scope.

(** A signal group: its type, the number of its signals and, for channels, the layout when it
    is not the reference layout. *)
Record sgroup := mkSG { sg_type : Z; sg_n : Z; sg_own : option reflay }.
Definition plain (g : sgroup) : Z * Z := (sg_type g, sg_n g).
Definition enc_sgroup (g : sgroup) : list bool :=
  bits_of 3 (sg_type g) ++ esc_enc 5 8 16 (sg_n g - 1) ++
  (if sg_type g =? 0 then match sg_own g with None => bits_of 1 0 | Some r => bits_of 1 1 ++ enc_reflay r end else []).
Definition enc_sgroups (gs : list sgroup) : list bool :=
  bits_of 5 (Z.of_nat (length gs) - 1) ++ concat (map enc_sgroup gs).

(** The number of signals of a type. *)
Definition signals_of (t : Z) (gs : list sgroup) : Z := total t (map plain gs).
(** The number of channel groups. *)
Fixpoint chan_groups (gs : list sgroup) : nat :=
  match gs with [] => 0 | g :: gs => (if (sg_type g =? 0)%Z then 1 else 0) + chan_groups gs end%nat.

(** An own layout that is taken: by name it has no more loudspeakers than the reference layout
    [ref], or as many as there are channels up to here. *)
Definition own_ok (ref : Z) (upto : Z) (r : reflay) : Prop :=
  match r with
  | RNamed i => 0 <= i <= 20 /\ (num_ls i = upto \/ num_ls i <= num_ls ref)
  | RListed l => (1 <= length l <= 24)%nat /\ Forall (fun v => 0 <= v <= 42) l
  | RFlex fine l => (1 <= length (speakers l) <= 24)%nat /\ Forall (valid_flexspk fine) l /\
      Forall (fun x => plain_pos (fst x)) l
  end.
Definition valid_sgroups (rdc ref : Z) (gs : list sgroup) : Prop :=
  (1 <= length gs <= 16)%nat /\
  Forall (fun g => (sg_type g = 0 \/ sg_type g = 1 \/ sg_type g = 3) /\ 1 <= sg_n g) gs /\
  signals_of 0 gs <= 24 /\ signals_of 1 gs <= 24 /\ signals_of 3 gs <= 24 /\
  (rdc = 1 \/ exists t, Forall (fun g => sg_type g = t) gs) /\
  forall i g r, nth_error gs i = Some g -> sg_type g = 0 -> sg_own g = Some r ->
    own_ok ref (signals_of 0 (firstn (S i) gs)) r.

(** What is stored: which channel groups differ from the reference layout, and the layouts,
    numbered by channel group. *)
Definition holds_sgroups (gs : list sgroup) (g : sigs) : Prop :=
  q_num g = Z.of_nat (length gs) /\
  firstn (length gs) (q_type g) = map sg_type gs /\ firstn (length gs) (q_nsig g) = map sg_n gs /\
  forall i x, nth_error gs i = Some x -> sg_type x = 0 ->
    match sg_own x with
    | None => nth_error (q_differs g) i = Some 0
    | Some r => nth_error (q_differs g) i = Some 1 /\
        exists l, nth_error (q_lay g) (chan_groups (firstn i gs)) = Some l /\ holds_reflay r l
    end.

(** No layouts yet: none named, none with a direction. *)
Definition fresh_layouts (g : sigs) : Prop := Forall (fun l => l_idx l = 0 /\ unused l) (q_lay g).

(** ** The loudspeakers of the channel groups, in order *)
Definition own_name (ref : Z) (g : sgroup) : Z := match sg_own g with Some (RNamed i) => i | _ => ref end.
Definition loudspeakers (ref : Z) (gs : list sgroup) : list Z :=
  concat (map (fun g => ls_set (own_name ref g)) (filter (fun g => sg_type g =? 0) gs)).
Definition named (g : sgroup) : Prop := match sg_own g with None => True | Some (RNamed _) => True | _ => False end.
