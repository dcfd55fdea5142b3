(** * Displace: where scene displacement finds a channel

    decoder/impeghd_scene_displacement.c:526-640: for every channel of a group the position
    its loudspeaker layout intends is taken as the point the displacement starts from. *)

From Coq Require Import ZArith List Lia Bool.
From Verif Require Import Bits BitBuf Prog Cicp Config.
Import ListNotations.
Open Scope Z_scope.

(** impeghd_md_proc_asc_az_ele_idx_to_deg, impeghd_metadata_preprocessor.c:2073-2086; the
    result is a float, exact for these values. *)
Definition to_deg (idx dir prec : Z) : Z :=
  let r := if dir =? 1 then - idx else idx in
  if prec =? 0 then r * 5 else r.

(** scene_displacement.c:528-640, the part before known positions of the reproduction setup
    are looked up (641 on): azimuth and elevation for channel [k] of a group of [n] members,
    none where the function gives up (547-551, 555-561, 581-585).
    [geo] is the local array of the loop body, cleared in every round (528): in the first
    branch the geometry goes to [ptr_str_geo] and [geo] is what is read (534-540).  In the
    second the index is the one of the flexible entries (563-567).  In the third the copy
    goes to entry [i] (590), the number of the group, and entry [k] is read (595): [i] is
    given as [grp]. *)
Definition channel_pos (l : layout) (grp k n : Z) : prog (option (Z * Z)) :=
  if 0 <? l_idx l then
    if num_ls (l_idx l) =? n then Ret (Some (0, 0)) else Ret None
  else
    v <- aget (l_spk l) k ;;
    if negb (l_num l =? n) then Ret None else
    f <- aget (l_flex l) k ;;
    if 0 <=? v then
      ' (az, el, _) <- aget ls_geo_tbl (f_idx f) ;; Ret (Some (az, el))
    else if f_cicp f =? 1 then
      ' (az, el, _) <- aget ls_geo_tbl (f_idx f) ;;
      Ret (Some (if grp =? k then (az, el) else (0, 0)))
    else Ret (Some (to_deg (f_az f) (f_azdir f) (l_prec l), to_deg (f_el f) (f_eldir f) (l_prec l))).
