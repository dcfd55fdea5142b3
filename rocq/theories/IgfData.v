(** * IgfData: tiles, whitening and temporal flattening of the gap filling

    Models ia_core_coder_igf_decode_whitening_level (618-639) and ia_core_coder_get_igf_data
    (2048-2153) of /repo/decoder/ia_core_coder_igf_dec.c.  The arrays have 4 cells
    (MAX_IGF_TILES, ia_core_coder_igf_data_struct.h:38). *)

From Coq Require Import ZArith List Bool.
From Verif Require Import BitBuf Prog Config Igf.
Import ListNotations.
Open Scope Z_scope.

(** 618-639. *)
Definition whitening : prog Z :=
  a <- rd 1 ;;
  if a =? 1 then b <- rd 1 ;; Ret (if b =? 1 then 2 else 1) else Ret 0.

Fixpoint rd_n (n : nat) (p : prog Z) : prog (list Z) :=
  match n with
  | O => Ret []
  | S n => x <- p ;; r <- rd_n n p ;; Ret (x :: r)
  end.

(** 2091-2109: the cells after the memcpy and memset calls. *)
Definition cells (fill : Z) (nt : nat) (l : list Z) : list Z := firstn nt l ++ repeat fill (4 - nt).

(** 2048-2153; [nt] is igf_num_tiles, [uw] use_whitening, [ut] use_tnf.  More than 4 tiles would
    make the sizes of the memset calls negative. *)
Definition igf_data (wt : Z) (nt : nat) (uw ut indep : bool) (i : ist) : prog ist :=
  if (4 <? Z.of_nat nt) then Undef UOob else
  keep <- (if indep then Ret 0 else rd 1) ;;
  tiles <- (if keep =? 0 then rd_n nt (rd 2) else Ret (i_ptile i)) ;;
  let tile := cells 3 nt tiles in
  let pw := cells 0 nt (i_pwhite i) in
  white <-
    (if uw && negb (wt =? 1) then
       kw <- (if indep then Ret 0 else rd 1) ;;
       if kw =? 0 then
         w <- whitening ;;
         d <- rd 1 ;;
         if d =? 1 then r <- rd_n (nt - 1) whitening ;; Ret (over (repeat 0 4) 0 (w :: r))
         else Ret (over (repeat 0 4) 0 (repeat w (Nat.max 1 nt)))
       else Ret (over (repeat 0 4) 0 (firstn nt pw))
     else Ret (repeat 0 4)) ;;
  tnf <- (if ut && negb (wt =? 1) then rd 1 else Ret (i_tnf i)) ;;
  Ret (mkIst (i_env i) (i_win i) tile white (i_zero i) tile (i_lev i) white tnf).
