(** * Mdp: metadata preprocessing - groups, switch groups, presets and interaction

    Models decoder/impeghd_metadata_preprocessor.c ("mdp.c" below) and
    impeghd_mdp_dec_process, ia_core_coder_decode_main.c:920-1066 ("main.c").

    Simplification: an array together with the number of its entries in use is read through
    the list of those entries ([groups], [switches], [presets], [members], [conds]); that
    the counters stay within the arrays is the subject of C10-C16.  Every other index is
    checked: [None] is an access outside an array or a read of an unset variable. *)

From Coq Require Import ZArith List Lia Bool.
From Verif Require Import Bits Prog Asi Ei.
Import ListNotations.
Open Scope Z_scope.

Definition E_OAM_INDEX := 0xFFFF9E01.
Definition E_VIOLATION := 0xFFFF9E02.
Definition E_UNSUPP_PRESET := 0xFFFF9E06.
Definition E_NUM_GROUP := 0xFFFF9E07.
Definition E_SG_OFF := 0xFFFF9E08.
Definition E_ONOFF := 0xFFFF9E09.

Notation "'let!' x ':=' a 'in' b" := (match a with Some x => b | None => None end)
  (at level 200, x pattern, b at level 200).
(** The same for functions that may also return an error code. *)
Notation "'try!' x ':=' a 'in' b" :=
  (match a with Some (Ok x) => b | Some (Er c) => Some (Er c) | None => None end)
  (at level 200, x pattern, b at level 200).

(** C array access with a signed index. *)
Definition ix {A} (l : list A) (i : Z) : option A := if i <? 0 then None else nth_error l (Z.to_nat i).
Fixpoint put {A} (l : list A) (n : nat) (v : A) : option (list A) :=
  match l, n with
  | [], _ => None
  | _ :: r, O => Some (v :: r)
  | x :: r, S m => let! r' := put r m v in Some (x :: r')
  end.
Definition sx {A} (l : list A) (i : Z) (v : A) : option (list A) := if i <? 0 then None else put l (Z.to_nat i) v.

Definition groups (a : asi) : list gdef := firstn (Z.to_nat (a_ng a)) (a_groups a).
Definition switches (a : asi) : list sdef := firstn (Z.to_nat (a_ns a)) (a_switch a).
Definition presets (a : asi) : list pdef := firstn (Z.to_nat (a_np a)) (a_presets a).
Definition members (s : sdef) : list Z := firstn (Z.to_nat (s_num s)) (s_mem s).
Definition conds (p : pdef) : list pcond := firstn (Z.to_nat (p_num p)) (p_conds p).

(** ia_mae_group_presets_ext_def, mhas_parse.h:165-209; arrays of 8, 32 and 16. *)
Record xcond := mkX { x_sg : Z; x_gid : Z; x_on : Z; x_dispos : Z; x_az : Z; x_el : Z; x_dist : Z }.
Record xext := mkXe {
  xe_num : list Z;                       (* num_downmix_id_group_preset_extensions[8] *)
  xe_dmx : list (list Z);                (* group_preset_downmix_id[8][32] *)
  xe_ncond : list (list Z);              (* group_preset_num_conditions[8][32] *)
  xe_cond : list (list (list xcond));    (* [8][32][16] *)
  xe_sgc : list (list Z) }.              (* is_switch_group_condition[8][16] *)

Definition ix2 {A} (l : list (list A)) (i j : Z) : option A := let! r := ix l i in ix r j.
Definition ix3 {A} (l : list (list (list A))) (i j k : Z) : option A := let! r := ix l i in ix2 r j k.

(** First position (from [i]) of an element with a property, -1 when there is none. *)
Fixpoint pos_of {A} (p : A -> bool) (l : list A) (i : Z) : Z :=
  match l with [] => -1 | x :: r => if p x then i else pos_of p r (i + 1) end.

(** impeghd_md_proc_grp_idx, mdp.c:599-617. *)
Definition grp_idx (a : asi) (id : Z) : Z := pos_of (fun g => g_id g =? id) (groups a) 0.

(** impeghd_md_proc_is_switch_group_mem, mdp.c:630-657: whether, and the id of the LAST
    switch group with that member. *)
Definition switch_of (a : asi) (id : Z) : option Z :=
  fold_left (fun r s => if existsb (Z.eqb id) (members s) then Some (s_id s) else r) (switches a) None.
Definition is_member (a : asi) (id : Z) : bool := match switch_of a id with Some _ => true | None => false end.

(** impeghd_md_proc_switch_group_allow_on_off, mdp.c:759-778. *)
Definition sg_allow (a : asi) (sid : Z) : Z :=
  match find (fun s => s_id s =? sid) (switches a) with Some s => s_onoff s | None => -1 end.

(** The search for an extension with the downmix id, e.g. mdp.c:2572-2584. *)
Fixpoint find_ext (x : xext) (k : Z) (dmx : Z) (n : nat) (i : Z) : option Z :=
  match n with
  | O => Some (-1)
  | S m => let! d := ix2 (xe_dmx x) k i in
           if d =? dmx then Some i else find_ext x k dmx m (i + 1)
  end.
Definition ext_of (x : xext) (k dmx : Z) : option Z :=
  let! n := ix (xe_num x) k in find_ext x k dmx (Z.to_nat n) 0.

(** The search of mdp.c:2606-2618: the ids compared are the DOWNMIX ids of preset number
    [e] (2610), not the group ids of the extension. *)
Fixpoint find_xcond (x : xext) (k e gid : Z) (n : nat) (j : Z) : option Z :=
  match n with
  | O => Some (-1)
  | S m =>
    let! d := ix2 (xe_dmx x) e j in
    if d =? gid then
      let! c := ix3 (xe_cond x) k e j in
      if x_sg c =? 0 then Some j else find_xcond x k e gid m (j + 1)
    else find_xcond x k e gid m (j + 1)
  end.

(** impeghd_md_proc_preset_cnd, mdp.c:2552-2630: condition and extension index. *)
Definition preset_cnd (a : asi) (x : xext) (pid gid dmx : Z) : option (Z * Z) :=
  let k := pos_of (fun p => p_id p =? pid) (presets a) 0 in
  if k <=? -1 then Some (-1, -1) else
  let! e := ext_of x k dmx in
  let! p := ix (a_presets a) k in
  if e <=? -1 then
    match find (fun c => c_ref c =? gid) (conds p) with
    | None => Some (-1, e)
    | Some c => Some (c_on c, e)
    end
  else
    let! n := ix2 (xe_ncond x) k e in
    let! j := find_xcond x k e gid (Z.to_nat n) 0 in
    if j <=? -1 then Some (-1, e) else
    let! c := ix3 (xe_cond x) k e j in Some (x_on c, e).

(** The loop of impehgd_apply_switch_group_off, mdp.c:2678-2706. *)
Fixpoint sg_off (a : asi) (id : Z) (ms : list Z) (st : list Z) : option (res (list Z)) :=
  match ms with
  | [] => Some (Ok st)
  | m :: r =>
    let g := grp_idx a m in
    if negb (m =? id) then
      let! v := ix st g in
      if v =? 1 then Some (Er E_SG_OFF) else
      let! st := sx st g 0 in sg_off a id r st
    else let! st := sx st g 1 in sg_off a id r st
  end.

(** impehgd_apply_switch_group_off, mdp.c:2645-2708.  The search (2658-2676) ends at the
    first switch group after number 0 with the member, and yields 0 when there is none. *)
Definition switch_group_off (a : asi) (id : Z) (st : list Z) : option (res (list Z)) :=
  let k := pos_of (fun s => existsb (Z.eqb id) (members s)) (tl (switches a)) 1 in
  let k := if k <=? -1 then 0 else k in
  let! s := ix (a_switch a) k in
  sg_off a id (members s) st.

(** The count of active members, mdp.c:2743-2752. *)
Fixpoint count_on (a : asi) (ms : list Z) (st : list Z) : option Z :=
  match ms with
  | [] => Some 0
  | m :: r => let! v := ix st (grp_idx a m) in
              let! n := count_on a r st in
              Some ((if v =? 1 then 1 else 0) + n)
  end.

(** mdp.c:2772-2786: only the default member stays. *)
Fixpoint only_default (a : asi) (d : Z) (ms : list Z) (st : list Z) : option (list Z) :=
  match ms with
  | [] => Some st
  | m :: r => let! st := sx st (grp_idx a m) (if negb (d =? m) then 0 else 1) in only_default a d r st
  end.

(** One iteration of impeghd_md_proc_apply_switch_grp_logic, mdp.c:2731-2787. *)
Definition sg_logic_one (a : asi) (s : sdef) (st : list Z) : option (list Z) :=
  let! n := count_on a (members s) st in
  let! st := (if n =? 0 then
                if negb (sg_allow a (s_id s) =? 1) then sx st (grp_idx a (s_dgrp s)) 1 else Some st
              else Some st) in
  if 1 <? n then only_default a (s_dgrp s) (members s) st else Some st.

(** impeghd_md_proc_apply_switch_grp_logic, mdp.c:2721-2788. *)
Fixpoint sg_logic (a : asi) (ss : list sdef) (st : list Z) : option (list Z) :=
  match ss with
  | [] => Some st
  | s :: r => let! st := sg_logic_one a s st in sg_logic a r st
  end.

(** The interaction state used here: dflt_preset_mode, apply_intrct_data, interaction_type
    and, from the packet, preset id, ids and on/off values (mdp.c:4383-4474). *)
Record icfg := mkI { i_dflt : bool; i_apply : bool; i_type : Z; i_ei : ei }.

(** The preset with the least id below 32, mdp.c:2836-2851 (32 when there is none). *)
Definition min_preset (a : asi) : Z := fold_left (fun m p => Z.min m (p_id p)) (presets a) 32.

(** One group of the preset loop of impeghd_apply_on_off_intrct, mdp.c:2949-3010. *)
Definition onoff_one (a : asi) (x : xext) (c : icfg) (pid dmx : Z) (i : Z) (g : gdef) (st : list Z)
  : option (res (list Z)) :=
  let! (cond, _) := preset_cnd a x pid (g_id g) dmx in
  let! old := ix st i in
  if cond =? -1 then
    let! v := (if (g_onoff g =? 1) && i_apply c
               then let! w := ix (ei_groups (i_ei c)) i in Some (eg_on w) else Some (g_def g)) in
    let! st := sx st i v in Some (Ok st)
  else if (cond =? 1) && (old =? -1) then
    let! st := sx st i 1 in
    if is_member a (g_id g) then switch_group_off a (g_id g) st else Some (Ok st)
  else if (cond =? 0) && (old =? -1) then
    let! st := sx st i 0 in Some (Ok st)
  else Some (Ok st).
Fixpoint onoff_groups (a : asi) (x : xext) (c : icfg) (pid dmx : Z) (i : Z) (gs : list gdef) (st : list Z)
  : option (res (list Z)) :=
  match gs with
  | [] => Some (Ok st)
  | g :: r => try! st := onoff_one a x c pid dmx i g st in onoff_groups a x c pid dmx (i + 1) r st
  end.

(** A switch group condition "off", mdp.c:3073-3104: for each member of switch group number
    [k] the id looked up is member [k] of switch group number [i], the number of the
    CONDITION (3094-3095). *)
Fixpoint sgc_off_members (a : asi) (i k : Z) (n : nat) (st : list Z) : option (list Z) :=
  match n with
  | O => Some st
  | S m =>
    let! s := ix (a_switch a) i in
    let! id := ix (s_mem s) k in
    let! v := ix st (grp_idx a id) in
    let! st := (if v =? 1 then sx st (grp_idx a id) 0 else Some st) in
    sgc_off_members a i k m st
  end.
Fixpoint sgc_off (a : asi) (sid i k : Z) (ss : list sdef) (st : list Z) : option (list Z) :=
  match ss with
  | [] => Some st
  | s :: r =>
    if s_id s =? sid then
      if s_onoff s =? 0 then Some st else
      let! st := sgc_off_members a i k (Z.to_nat (s_num s)) st in sgc_off a sid i (k + 1) r st
    else sgc_off a sid i (k + 1) r st
  end.

(** A switch group condition "on", mdp.c:3113-3148, with the same look-up. *)
Fixpoint sgc_on_count (a : asi) (i k : Z) (n : nat) (st : list Z) : option Z :=
  match n with
  | O => Some 0
  | S m =>
    let! s := ix (a_switch a) i in
    let! id := ix (s_mem s) k in
    let! v := ix st (grp_idx a id) in
    let! c := sgc_on_count a i k m st in
    Some ((if v =? 1 then 1 else 0) + c)
  end.
Fixpoint sgc_on (a : asi) (sid i k : Z) (ss : list sdef) (st : list Z) : option (list Z) :=
  match ss with
  | [] => Some st
  | s :: r =>
    if s_id s =? sid then
      let! n := sgc_on_count a i k (Z.to_nat (s_num s)) st in
      if n =? 0 then let! st := sx st (grp_idx a (s_dgrp s)) 1 in sgc_on a sid i (k + 1) r st
      else if 1 <? n then Some st
      else sgc_on a sid i (k + 1) r st
    else sgc_on a sid i (k + 1) r st
  end.

(** One condition, mdp.c:3038-3156: its kind, then the two cases. *)
Definition sgc_one (a : asi) (x : xext) (k e i : Z) (st : list Z) : option (list Z) :=
  let! (cond, sid) :=
    (if e <=? -1 then
       let! f := ix2 (xe_sgc x) k i in
       if f =? 1 then
         let! p := ix (a_presets a) k in
         let! c := ix (p_conds p) i in Some (c_on c, c_ref c)
       else Some (-1, -1)
     else
       let! c := ix3 (xe_cond x) k e i in
       if x_sg c =? 1 then Some (x_on c, x_gid c) else Some (-1, -1)) in
  if cond =? 0 then sgc_off a sid i 0 (switches a) st
  else if cond =? 1 then sgc_on a sid i 0 (switches a) st
  else Some st.
Fixpoint sgc_all (a : asi) (x : xext) (k e : Z) (n : nat) (i : Z) (st : list Z) : option (list Z) :=
  match n with
  | O => Some st
  | S m => let! st := sgc_one a x k e i st in sgc_all a x k e m (i + 1) st
  end.

(** The branch without a preset, mdp.c:2880-2946: one group. *)
Definition advanced_one (a : asi) (c : icfg) (i : Z) (g : gdef) (st : list Z) : option (res (list Z)) :=
  if g_onoff g =? 0 then let! st := sx st i (g_def g) in Some (Ok st) else
  let e := i_ei c in
  match find (fun w => eg_id w =? g_id g) (firstn (Z.to_nat (ei_num e)) (ei_groups e)) with
  | None => let! st := sx st i (g_def g) in Some (Ok st)
  | Some w =>
    let! st := sx st i (eg_on w) in
    if (eg_on w =? 1) && is_member a (g_id g) then switch_group_off a (g_id g) st else Some (Ok st)
  end.
Fixpoint advanced (a : asi) (c : icfg) (i : Z) (gs : list gdef) (st : list Z) : option (res (list Z)) :=
  match gs with
  | [] => Some (Ok st)
  | g :: r => try! st := advanced_one a c i g st in advanced a c (i + 1) r st
  end.

(** The statuses set to -1, mdp.c:2875-2878. *)
Definition unset (n : nat) (st : list Z) : list Z := repeat (-1) n ++ skipn n st.

(** impeghd_apply_on_off_intrct, mdp.c:2803-3170: statuses and selected preset. *)
Definition on_off (a : asi) (x : xext) (c : icfg) (dmx sel : Z) (st : list Z) : option (res (list Z * Z)) :=
  let chosen := if i_dflt c then min_preset a else if i_apply c then ei_preset (i_ei c) else sel in
  let k := pos_of (fun p => p_id p =? chosen) (presets a) 0 in
  if (k =? -1) && (sel <=? -1) then Some (Er E_ONOFF) else
  let '(chosen, sel) := if k =? -1 then (sel, sel) else (chosen, chosen) in
  let st := unset (Z.to_nat (a_ng a)) st in
  if chosen <=? -1 then
    if i_type c =? 0 then
      try! st := advanced a c 0 (groups a) st in
      let! st := sg_logic a (switches a) st in Some (Ok (st, sel))
    else Some (Ok (st, sel))
  else
    try! st := onoff_groups a x c chosen dmx 0 (groups a) st in
    let! st :=
      (if k =? -1 then Some st else
       let! e := (if -1 <? dmx then ext_of x k dmx else Some (-1)) in
       let! p := ix (a_presets a) k in
       let! n := (if e <=? -1 then Some (p_num p) else ix2 (xe_ncond x) k e) in
       sgc_all a x k e (Z.to_nat n) 0 st) in
    let! st := sg_logic a (switches a) st in
    Some (Ok (st, sel)).

(** The choice of the mode at the start of impeghd_mp_process_frame, mdp.c:4416-4481;
    [sel] is the preset chosen by the caller. *)
Definition modes (a : asi) (e : ei) (old_type sel : Z) : res icfg :=
  if ei_present e =? 0 then
    Ok (mkI ((sel <? 0) && (0 <? a_np a)) false old_type e)
  else
  let r := if negb (ei_mode e =? 0) then
             if 0 <? a_np a then Ok (mkI false true (ei_mode e) e) else Er E_UNSUPP_PRESET
           else if 0 <? a_np a then Ok (mkI true false 1 e) else Ok (mkI false true 0 e) in
  match r with
  | Er c => Er c
  | Ok c => if i_apply c && negb (ei_num e =? a_ng a) then Er E_NUM_GROUP else Ok c
  end.

(** The on/off part of impeghd_mp_process_frame, mdp.c:4505-4601: the statuses are cleared
    (4505-4509) and computed; [sel] is what the caller asked for.  The value handed back as
    selected preset is -1 when the function does not choose one (4397, 4601). *)
Definition frame_onoff (a : asi) (x : xext) (e : ei) (old_type dmx sel : Z) (st : list Z)
  : option (res (list Z * Z)) :=
  match modes a e old_type sel with
  | Er c => Some (Er c)
  | Ok c =>
    let st := repeat 0 (Z.to_nat (a_ng a)) ++ skipn (Z.to_nat (a_ng a)) st in
    if i_apply c then on_off a x c dmx (-1) st
    else if i_dflt c then on_off a x c dmx (-1) st
    else if 0 <=? sel then on_off a x c dmx sel st
    else
      let st := map g_def (groups a) ++ skipn (Z.to_nat (a_ng a)) st in
      let! st := sg_logic a (switches a) st in
      Some (Ok (st, -1))
  end.

(** ** Gains and positions *)

(** The gain asked for by the preset for a group, mdp.c:1837-1908 (no downmix extension), in
    half decibels: (gain - 255) * 0.5 + 32.  The result is the offset and whether the user's
    gain is ignored; for a switch group condition the flag tested is the one of the POSITION
    (1887-1891).  All values are small multiples of one half, so binary32 is exact. *)
Definition half_gain (raw : Z) : Z := raw - 255 + 64.
Fixpoint find_sgc (x : xext) (k sid : Z) (cs : list pcond) (r : Z) : option (option pcond) :=
  match cs with
  | [] => Some None
  | c :: l => let! f := ix2 (xe_sgc x) k r in
              if (f =? 1) && (c_ref c =? sid) then Some (Some c) else find_sgc x k sid l (r + 1)
  end.
Definition preset_gain (a : asi) (x : xext) (k : Z) (p : pdef) (gid : Z) : option (Z * bool) :=
  match find (fun c => c_ref c =? gid) (conds p) with
  | Some c => Some (if c_gainflag c =? 1 then half_gain (c_gain c) else 0, c_disgain c =? 1)
  | None =>
    match switch_of a gid with
    | None => Some (0, false)
    | Some sid =>
      let! o := find_sgc x k sid (conds p) 0 in
      match o with
      | None => Some (0, false)
      | Some c => Some (if c_gainflag c =? 1 then half_gain (c_gain c) else 0, c_dispos c =? 1)
      end
    end
  end.

(** The gain of one group that is processed, mdp.c:1697-1934 and 1998-2010 up to the
    loudness compensation, in half decibels, and whether the range was violated.  [None]
    inside: the group is object based (the value -1.0 is a mark, 1990 and 2003). *)
Definition group_gain (off : Z) (dis : bool) (user : Z) (g : gdef) : Z * bool :=
  let v := off + (if dis then 0 else 2 * Z.min (Z.max (user - 64) (-63)) 31) in
  let lo := 2 * Z.min (Z.max (g_mingain g - 64) (-63)) 31 in
  let hi := 2 * g_maxgain g in
  let '(v, e) := if v <? lo then (lo, true) else (v, false) in
  if hi <? v then (hi, true) else (v, e).
Definition channel_gain (off : Z) (dis : bool) (user : Z) (g : gdef) : Z * bool :=
  if negb (g_gain g =? 0) then group_gain off dis user g else (2, false).

(** One offset limited to its range, mdp.c:1527-1562: below the least value the least one,
    above the greatest the value [top]; for the azimuth (1557-1562) [top] is the LEAST
    value, otherwise the greatest. *)
Definition limit (lo hi top v : Z) : Z * bool :=
  let '(v, e) := if v <? lo then (lo, true) else (v, false) in
  if hi <? v then (top, true) else (v, e).
Definition limit_pos (g : gdef) (az el di : Z) : (Z * Z * Z) * bool :=
  let '(di, e1) := limit (g_mindist g) (g_maxdist g) (g_maxdist g) di in
  let '(el, e2) := limit (g_minel g) (g_maxel g) (g_maxel g) el in
  let '(az, e3) := limit (g_minaz g) (g_maxaz g) (g_minaz g) az in
  ((az, el, di), e1 || e2 || e3).

(** The offsets applied to the objects of a group that allows it, mdp.c:1223-1525, in a
    scene without downmix extensions for the preset [p] (number [k]).  [Some None]: nothing
    is applied.  A group with a condition reads entry -1 of the extensions (1506-1508); a
    group with only a switch group condition reads list_switch_grp_cond[i][4], which is
    set for extensions only (1462 and 1407). *)
Definition pos_offsets (a : asi) (x : xext) (k : Z) (p : pdef) (gid : Z) : option (option (Z * Z * Z)) :=
  match find (fun c => c_ref c =? gid) (conds p) with
  | Some _ => None
  | None =>
    match switch_of a gid with
    | None => Some None
    | Some sid =>
      let! o := find_sgc x k sid (conds p) 0 in
      match o with None => Some None | Some _ => None end
    end
  end.

(** The conditions of an extension for a group, mdp.c:1309-1335: the LAST one counts and the
    flag that ignores the user is taken from extension number [j] (1321). *)
Fixpoint last_xcond (x : xext) (k e gid : Z) (n : nat) (j : Z) (r : option Z * bool) : option (option Z * bool) :=
  match n with
  | O => Some r
  | S m =>
    let! c := ix3 (xe_cond x) k e j in
    if (x_gid c =? gid) && (x_sg c =? 0) then
      let! d := ix3 (xe_cond x) k j j in
      last_xcond x k e gid m (j + 1) (Some j, snd r || negb (x_dispos d =? 0))
    else last_xcond x k e gid m (j + 1) r
  end.
(** The first switch group condition of an extension for a switch group, 1370-1409. *)
Fixpoint first_xsg (x : xext) (k e sid : Z) (n : nat) (r : Z) : option Z :=
  match n with
  | O => Some (-1)
  | S m =>
    let! c := ix3 (xe_cond x) k e r in
    if (x_sg c =? 1) && (x_gid c =? sid) then Some r else first_xsg x k e sid m (r + 1)
  end.
(** The offsets with extension number [e], mdp.c:1309-1524 (basic interaction): azimuth,
    elevation and distance factor asked for by the user, or none, and those of the preset.
    For a condition of the group itself the latter are added for group id 1 only (1506-1508). *)
Definition pos_ext (a : asi) (x : xext) (k e gid : Z) (user : Z * Z * Z) : option (option (Z * Z * Z)) :=
  let add (b : Z * Z * Z) (c : xcond) :=
    let '(az, el, di) := b in (az + x_az c, el + x_el c, di * x_dist c) in
  let! n := ix2 (xe_ncond x) k e in
  let! (o, dep) := last_xcond x k e gid (Z.to_nat n) 0 (None, false) in
  match o with
  | Some j =>
    let! c := ix3 (xe_cond x) k e j in
    let b := if dep : bool then (0, 0, 1) else user in
    Some (Some (if x_gid c =? 1 then add b c else b))
  | None =>
    match switch_of a gid with
    | None => Some None
    | Some sid =>
      let! r := first_xsg x k e sid (Z.to_nat n) 0 in
      if r =? -1 then Some None else
      let! c := ix3 (xe_cond x) k e r in
      Some (Some (add (if x_dispos c =? 1 then (0, 0, 1) else user) c))
    end
  end.
(** The offsets applied to every object of group [g], with the error flag (1527-1562). *)
Definition group_pos (a : asi) (x : xext) (k : Z) (p : pdef) (dmx : Z) (g : gdef) (user : Z * Z * Z)
  : option (option ((Z * Z * Z) * bool)) :=
  let! e := ext_of x k dmx in
  let! o := (if e <=? -1 then pos_offsets a x k p (g_id g) else pos_ext a x k e (g_id g) user) in
  match o with
  | None => Some None
  | Some (az, el, di) => Some (Some (limit_pos g az el di))
  end.

(** The members of a group, e.g. main.c:1034-1042. *)
Definition g_members (g : gdef) : list Z :=
  if g_conj g =? 0 then firstn (Z.to_nat (g_num g)) (g_mem g)
  else map (fun k => g_start g + Z.of_nat k) (seq 0 (Z.to_nat (g_num g))).

(** ** Which channels are heard: impeghd_mdp_dec_process, main.c:920-1066

    A channel is one value of type [A] (its samples of the frame); [z] is silence.  The
    group interaction of 945-956 comes before and is not part of this function: [preset] is
    the preset id it leaves. *)
Definition E_INV_PRESET := 0xFFFF9810.
Definition E_INV_GRP := 0xFFFF981D.
Definition E_UNSUPP_CH := 0xFFFF9805.

Section Channels.
Context {A : Type} (z : A) (ins : list A).

(** main.c:1043-1052. *)
Fixpoint copy_on (ms : list Z) (out : list A) : option (res (list A)) :=
  match ms with
  | [] => Some (Ok out)
  | m :: r =>
    if (m <? 0) || (Z.of_nat (length ins) <=? m) then Some (Er E_UNSUPP_CH) else
    let! v := ix ins m in let! out := sx out m v in copy_on r out
  end.
(** main.c:1028-1055. *)
Fixpoint copy_default (gs : list gdef) (out : list A) : option (res (list A)) :=
  match gs with
  | [] => Some (Ok out)
  | g :: r =>
    if negb (g_def g =? 0) then try! out := copy_on (g_members g) out in copy_default r out
    else copy_default r out
  end.

(** main.c:1003-1025 with the list of members decided before. *)
Fixpoint copy_cond (on : bool) (ms : list Z) (out : list A) : option (res (list A)) :=
  match ms with
  | [] => Some (Ok out)
  | m :: r =>
    if (m <? 0) || (Z.of_nat (length ins) <=? m) then Some (Er E_UNSUPP_CH) else
    let! v := (if on then ix ins m else Some z) in
    let! out := sx out m v in copy_cond on r out
  end.
(** One group with a preset, main.c:974-1026.  [last] is grp_idx, which is not reset between
    groups; the flag of the members is taken from group number [cond] when on (1001). *)
Definition preset_group (a : asi) (p : pdef) (g : gdef) (st : Z * list A) : option (res (Z * list A)) :=
  let '(last, out) := st in
  let j := pos_of (fun c => c_ref c =? g_id g) (conds p) 0 in
  let cond := if j =? -1 then Z.of_nat (length (conds p)) else j in
  let last := if j =? -1 then last else j in
  if last =? -1 then Some (Er E_INV_GRP) else
  let! c := ix (p_conds p) last in
  let! cj := (if c_on c =? 0 then Some (g_conj g) else let! h := ix (a_groups a) cond in Some (g_conj h)) in
  let ms := if cj =? 0 then firstn (Z.to_nat (g_num g)) (g_mem g)
            else map (fun k => g_start g + Z.of_nat k) (seq 0 (Z.to_nat (g_num g))) in
  try! out := copy_cond (negb (c_on c =? 0)) ms out in Some (Ok (last, out)).
Fixpoint preset_groups (a : asi) (p : pdef) (gs : list gdef) (st : Z * list A) : option (res (Z * list A)) :=
  match gs with
  | [] => Some (Ok st)
  | g :: r => try! st := preset_group a p g st in preset_groups a p r st
  end.
(** The search for the preset, main.c:961-973: over as many presets as there are GROUPS. *)
Fixpoint find_preset (ps : list pdef) (pid : Z) (n : nat) (i : Z) : option Z :=
  match n with
  | O => Some (-1)
  | S m => let! p := ix ps i in if p_id p =? pid then Some i else find_preset ps pid m (i + 1)
  end.
Definition heard (a : asi) (preset : Z) : option (res (list A)) :=
  let out := repeat z (length ins) in
  if negb (preset =? -1) then
    let! k := find_preset (a_presets a) preset (Z.to_nat (a_ng a)) 0 in
    if k =? -1 then Some (Er E_INV_PRESET) else
    let! p := ix (a_presets a) k in
    try! r := preset_groups a p (groups a) (-1, out) in Some (Ok (snd r))
  else copy_default (groups a) out.
End Channels.

(** impeghd_mdp_dec_ei_process, mdp.c:4755-4769: without presets nothing is done. *)
Definition ei_process (a : asi) (x : xext) (e : ei) (old_type dmx sel : Z) (st : list Z) : option (res (list Z * Z)) :=
  if 0 <? a_np a then frame_onoff a x e old_type dmx sel st else Some (Ok (st, sel)).
