(** * Spec_Igf: how the levels of the gap filling are written

    A window carries one level for each group of bands (a group is one band, or two bands of a
    long window without high resolution).  A level is predicted from the group before it and
    from the window before; the difference is coded with a table chosen by the local trend.
    Written without the decoder's definitions; the tables are those of the decoder (IgfRom). *)

From Coq Require Import ZArith List Bool.
From Verif Require Import Bits Spec_Arith IgfRom.
Import ListNotations.
Open Scope Z_scope.

Definition at_ (l : list Z) (i : nat) : Z := nth i l 0.

(** A trend, limited to -3 .. 3, as an index into seven tables. *)
Definition trend (d : Z) : nat := Z.to_nat (3 + Z.max (-3) (Z.min 3 d)).
Definition table1 (t : list (list Z)) (d : Z) : list Z := nth (trend d) t [].
Definition shift1 (t : list Z) (d : Z) : Z := nth (trend d) t 0.

(** k bits of a number, each as a symbol of the even table. *)
Definition raw (k : nat) (v : Z) : list (list Z * Z) :=
  map (fun b : bool => (cf_for_bit, if b then 1 else 0)) (bits_of k v).

(** A difference d with table cf and shift o: one symbol from -12 to 12, or an escape followed
    by the excess in 4 bits, or by 15 and the rest in 7 bits. *)
Definition diff (cf : list Z) (o d : Z) : list (list Z * Z) :=
  let v := d + o in
  if Z.abs v <=? 12 then [(cf, v + 13)]
  else
    let e := Z.abs v - 13 in
    (cf, if v <? 0 then 0 else 26) :: (if e <? 15 then raw 4 e else raw 4 15 ++ raw 7 (e - 15)).
(** The differences that can be written. *)
Definition codable (o d : Z) : Prop := Z.abs (d + o) <= 155.

(** How group i of the levels q is written: in the first window after a reset (t = 0) with the
    groups before it, later also with the levels p of the window before; pd is the first level
    of the window before that. *)
Definition choice (t : Z) (p : list Z) (pd : Z) (q : list Z) (i : nat) : list Z * Z * Z :=
  match i with
  | O =>
    if t =? 1 then (cf_se_10, -4, at_ q 0 - at_ p 0)
    else (table1 cf_se_20 (at_ p 0 - pd), shift1 offset_se_20 (at_ p 0 - pd), at_ q 0 - at_ p 0)
  | S j =>
    if t =? 0 then
      match j with
      | O => (cf_se_01, 2, at_ q 1 - at_ q 0)
      | S h =>
        (table1 cf_se_02 (at_ q j - at_ q h), shift1 offset_se_02 (at_ q j - at_ q h), at_ q i - at_ q j)
      end
    else
      let dt := at_ q j - at_ p j in
      let df := at_ p i - at_ p j in
      (nth (trend df) (nth (trend dt) cf_se_11 []) [], nth (trend df) (nth (trend dt) offset_se_11 []) 0,
       at_ q i - (at_ p i + at_ q j - at_ p j))
  end.
Definition first_raw (t : Z) (i : nat) : bool := (t =? 0) && Nat.eqb i 0.
Definition level_syms (t : Z) (p : list Z) (pd : Z) (q : list Z) (i : nat) : list (list Z * Z) :=
  if first_raw t i then raw 7 (at_ q 0)
  else let '(cf, o, d) := choice t p pd q i in diff cf o d.
Definition level_ok (t : Z) (p : list Z) (pd : Z) (q : list Z) (i : nat) : Prop :=
  if first_raw t i then 0 <= at_ q 0 <= 127
  else let '(cf, o, d) := choice t p pd q i in codable o d.

Definition window_syms (t : Z) (p : list Z) (pd : Z) (q : list Z) : list (list Z * Z) :=
  flat_map (level_syms t p pd q) (seq 0 (length q)).
Definition window_ok (t : Z) (p : list Z) (pd : Z) (q : list Z) : Prop :=
  forall i, (i < length q)%nat -> level_ok t p pd q i.

(** The windows of a frame, each predicted from the one before it. *)
Fixpoint windows_syms (t : Z) (p : list Z) (pd : Z) (ws : list (list Z)) : list (list Z * Z) :=
  match ws with
  | [] => []
  | q :: ws => window_syms t p pd q ++ windows_syms (t + 1) q (at_ p 0) ws
  end.
Fixpoint windows_ok (t : Z) (p : list Z) (pd : Z) (ws : list (list Z)) : Prop :=
  match ws with
  | [] => True
  | q :: ws => window_ok t p pd q /\ windows_ok (t + 1) q (at_ p 0) ws
  end.

(** The levels of len bands from the levels of their groups of inc bands. *)
Definition spread (inc len : nat) (q : list Z) : list Z := firstn len (flat_map (fun x => repeat x inc) q).
(** The number of groups. *)
Definition groups_in (inc len : nat) : nat := ((len + inc - 1) / inc)%nat.
(** The levels of the groups from those of the bands from [start] on. *)
Definition gather (start inc n : nat) (l : list Z) : list Z := map (fun k => nth (start + k * inc) l 0) (seq 0 n).
(** [l] with the bands from [start] on replaced by [x]. *)
Definition into {A} (start : nat) (x l : list A) : list A := firstn start l ++ x ++ skipn (start + length x) l.

(** What is remembered after the windows [ws] of a frame: the levels of the bands, and the
    first level of the last window but one ([p0] are the levels remembered before). *)
Definition prev_after (start inc len : nat) (ws : list (list Z)) (prev : list Z) : list Z :=
  match ws with [] => prev | _ => into start (spread inc len (last ws [])) prev end.
Definition ctx_after (p0 : list Z) (pd : Z) (ws : list (list Z)) : Z :=
  match ws with [] => pd | _ => at_ (last (p0 :: removelast ws) []) 0 end.
(** The levels handed on: window by window over those of the frame before, a level q as the
    number q * factor - emph of quarter octaves. *)
Definition levels_after (start inc len : nat) (factor emph : Z) (ws : list (list Z)) (lev : list (list (option Z))) :
    list (list (option Z)) :=
  map (fun x => into start (map (fun y => Some (y * factor - emph)) (spread inc len (fst x))) (snd x)) (combine ws lev)
  ++ skipn (length ws) lev.
(** Some level is not 0. *)
Definition busy (q : list Z) : bool := existsb (fun x => negb (x =? 0)) q.

(** Bands per group, and quarter octaves per step of a level, for window type wt (0 long,
    1 eight short, 2 and 3 the windows of the other coding mode). *)
Definition group_size (wt : Z) (hires : bool) : nat := if (wt =? 0) && negb hires then 2%nat else 1%nat.
Definition step_size (wt : Z) (hires : bool) : Z := if hires || (1 <? wt) then 1 else 2.
Definition base_of (wt : Z) : Z := if 1 <? wt then 40 else 0.
