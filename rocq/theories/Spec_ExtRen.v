(** * Spec_ExtRen: what an external renderer reads, and what it should find

    The renderer's side of the three metadata payloads (ISO/IEC 23008-3, generic interface
    for channels, objects and HOA), as parsers over the bits of the buffer it is given. *)

From Coq Require Import ZArith List Lia Bool.
From Verif Require Import Bits BitBuf Prog F32 Pcm Config Hoa Oam Spec_Config Spec_ConfigFull ExtRen.
Import ListNotations.
Open Scope Z_scope.

(** [n] items in a row. *)
Fixpoint many {A} (n : nat) (p : prog A) : prog (list A) :=
  match n with
  | O => Ret []
  | S n => x <- p ;; l <- many n p ;; Ret (x :: l)
  end.
(** An escaped value. *)
Definition p_esc (a b c : Z) : prog Z :=
  x <- rd a ;;
  if x =? 2 ^ a - 1 then
    y <- rd b ;; if y =? 2 ^ b - 1 then z <- rd c ;; Ret (x + y + z) else Ret (x + y)
  else Ret x.
(** A signed value in two's complement. *)
Definition p_signed (n : Z) : prog Z :=
  x <- rd n ;; Ret (if x <? 2 ^ (n - 1) then x else x - 2 ^ n).
(** 32 bits. *)
Definition p_32 : prog Z := x <- rd 16 ;; y <- rd 16 ;; Ret (x * 2 ^ 16 + y).

(** Frame configuration: frame length in units of 64 samples, truncation mode with the
    number of samples when truncated. *)
Record frame_cfg := mkFc { fc_len : Z; fc_trunc : Z; fc_samples : Z }.
Definition p_frame : prog frame_cfg :=
  l <- rd 6 ;; t <- rd 2 ;; s <- (if t =? 0 then Ret 0 else rd 13) ;; Ret (mkFc l t s).

(** ** Channels *)

(** A layout: an index, a list of loudspeaker indices, or something else. *)
Inductive glay := GIndex (i : Z) | GList (l : list Z) | GOther.
Definition p_layout : prog glay :=
  t <- rd 2 ;;
  if t =? 0 then i <- rd 6 ;; Ret (GIndex i)
  else if t =? 1 then n <- p_esc 5 8 16 ;; l <- many (Z.to_nat (n + 1)) (rd 7) ;; Ret (GList l)
  else Ret GOther.

(** Downmix: the settings of the active downmix, the downmix entries. *)
Record gdmx := mkGd { gd_active : option (Z * option Z * Z); gd_entries : list dent }.
Definition p_mtx : prog mtx :=
  n <- p_esc 1 4 4 ;; gs <- many (Z.to_nat (n + 1)) (rd 5) ;;
  len <- p_esc 8 8 12 ;; bs <- many (Z.to_nat len) (rd 1) ;;
  Ret (mkMtx gs (map (fun b => b =? 1) bs)).
Definition p_dent : prog dent :=
  i <- rd 7 ;; t <- rd 2 ;;
  if t =? 0 then l <- rd 6 ;; Ret (mkDent i l None)
  else if t =? 1 then
    l <- rd 6 ;; n <- p_esc 1 3 0 ;; ms <- many (Z.to_nat (n + 1)) p_mtx ;;
    Ret (mkDent i l (Some ms))
  else Ret (mkDent i 0 None).
Definition p_dmx : prog gdmx :=
  t <- rd 2 ;;
  a <- (if (t =? 0) || (t =? 2) then
          p <- rd 1 ;; s <- (if p =? 0 then x <- rd 3 ;; Ret (Some x) else Ret None) ;;
          i <- rd 1 ;; Ret (Some (p, s, i))
        else Ret None) ;;
  l <- (if (t =? 1) || (t =? 2) then n <- rd 5 ;; many (Z.to_nat n) p_dent else Ret []) ;;
  Ret (mkGd a l).

(** Extension elements: type and that many bytes of content. *)
Definition p_ext : prog (Z * list Z) :=
  t <- rd 3 ;; n <- rd 10 ;; l <- many (Z.to_nat n) (rd 8) ;; Ret (t, l).
Definition p_exts : prog (list (Z * list Z)) := n <- rd 3 ;; many (Z.to_nat n) p_ext.

(** A channel group: number of channels, layout, one element id per channel, fixed position,
    priority, gain, downmix, extensions. *)
Record gca_group := mkGg {
  gg_n : Z; gg_lay : glay; gg_ids : list Z; gg_fixed : Z; gg_prio : Z; gg_gain : Z;
  gg_dmx : option gdmx; gg_ext : list (Z * list Z) }.
Definition p_gca_group : prog gca_group :=
  n <- rd 16 ;; l <- p_layout ;; ids <- many (Z.to_nat n) (rd 9) ;;
  f <- rd 1 ;; p <- rd 3 ;; g <- rd 8 ;;
  d <- rd 1 ;; dm <- (if d =? 0 then Ret None else x <- p_dmx ;; Ret (Some x)) ;;
  e <- p_exts ;;
  Ret (mkGg n l ids f p g dm e).
Definition p_gca : prog (frame_cfg * list gca_group) :=
  f <- p_frame ;; n <- rd 9 ;; l <- many (Z.to_nat n) p_gca_group ;; Ret (f, l).

(** ** Objects *)

Inductive spread := SpUniform (w : Z) | SpFull (w h d : Z).
Record goa_pos := mkGp {
  gp_az : Z; gp_el : Z; gp_rad : Z; gp_gain : Z; gp_prio : option Z; gp_spread : spread }.
Definition p_pos (dyn uni : Z) : prog goa_pos :=
  a <- p_signed 8 ;; e <- p_signed 6 ;; r <- rd 4 ;; g <- p_signed 7 ;;
  p <- (if dyn =? 0 then Ret None else x <- rd 3 ;; Ret (Some x)) ;;
  s <- (if uni =? 0 then w <- rd 7 ;; h <- rd 5 ;; d <- rd 4 ;; Ret (SpFull w h d)
        else w <- rd 7 ;; Ret (SpUniform w)) ;;
  Ret (mkGp a e r g p s).
(** An excluded sector: predefined, or the coded azimuth and elevation limits. *)
Inductive gsect := GPredef (i : Z) | GAngles (az0 az1 el0 el1 : Z).
Definition p_sect : prog gsect :=
  f <- rd 1 ;;
  if f =? 0 then a <- rd 7 ;; b <- rd 7 ;; c <- rd 5 ;; d <- rd 5 ;; Ret (GAngles a b c d)
  else i <- rd 4 ;; Ret (GPredef i).
Record goa_obj := mkGo {
  go_id : Z; go_frames : list (option goa_pos); go_fixed : Z; go_prio : Z;
  go_diff : Z; go_div : Z; go_range : Z; go_sect : list gsect }.
Definition p_obj : prog goa_obj :=
  i <- rd 9 ;; dyn <- rd 1 ;; uni <- rd 1 ;; n <- rd 6 ;;
  fr <- many (Z.to_nat n) (h <- rd 1 ;; if h =? 0 then Ret None else x <- p_pos dyn uni ;; Ret (Some x)) ;;
  f <- rd 1 ;; p <- rd 3 ;; df <- rd 7 ;; dv <- rd 7 ;; rg <- rd 6 ;;
  ns <- rd 4 ;; se <- many (Z.to_nat ns) p_sect ;;
  Ret (mkGo i fr f p df dv rg se).
Definition p_goa : prog (frame_cfg * list goa_obj * list (Z * list Z)) :=
  f <- p_frame ;; n <- rd 9 ;; l <- many (Z.to_nat n) p_obj ;; e <- p_exts ;; Ret (f, l, e).

(** ** HOA *)

(** The screen: azimuth and elevations; the default override; one entry per preset. *)
Inductive gscreen := GStd | GCentered (az top bot : Z) | GSides (l r top bot : Z).
Record gha_screen := mkGs {
  gs_main : option (Z * Z * Z); gs_over : option (Z * Z); gs_pre : list (Z * gscreen) }.
Definition p_screen : prog gha_screen :=
  h <- rd 1 ;;
  m <- (if h =? 0 then Ret None else a <- rd 9 ;; b <- rd 9 ;; c <- rd 9 ;; Ret (Some (a, b, c))) ;;
  o <- rd 1 ;;
  ov <- (if o =? 0 then Ret None else a <- rd 10 ;; b <- rd 10 ;; Ret (Some (a, b))) ;;
  n <- rd 5 ;;
  l <- many (Z.to_nat n)
        (i <- rd 5 ;; h <- rd 1 ;;
         if h =? 0 then Ret (i, GStd) else
         c <- rd 1 ;;
         if c =? 0 then
           a <- rd 10 ;; b <- rd 10 ;; t <- rd 9 ;; e <- rd 9 ;; Ret (i, GSides a b t e)
         else a <- rd 9 ;; t <- rd 9 ;; e <- rd 9 ;; Ret (i, GCentered a t e)) ;;
  Ret (mkGs m ov l).
(** An HOA group: fixed position, priority, order, near field distance, the rendering matrix
    as a string of bits of the announced length, the screen. *)
Record gha_group := mkGh {
  gh_fixed : Z; gh_prio : Z; gh_order : Z; gh_nfc : option Z; gh_mat : option (list Z);
  gh_screen : option gha_screen }.
Definition p_gha_group : prog gha_group :=
  f <- rd 1 ;; p <- rd 3 ;; o <- rd 9 ;;
  n <- rd 1 ;; nf <- (if n =? 0 then Ret None else x <- p_32 ;; Ret (Some x)) ;;
  m <- rd 1 ;;
  mt <- (if m =? 0 then Ret None
         else len <- p_esc 8 8 12 ;; l <- many (Z.to_nat len) (rd 1) ;; Ret (Some l)) ;;
  s <- rd 1 ;; sc <- (if s =? 0 then Ret None else x <- p_screen ;; Ret (Some x)) ;;
  Ret (mkGh f p o nf mt sc).
Definition p_gha : prog (frame_cfg * list gha_group) :=
  f <- p_frame ;; n <- rd 9 ;; l <- many (Z.to_nat n) p_gha_group ;; Ret (f, l).

(** ** What the renderer should find *)

(** The renderer reads [v] at the start of the memory [d]. *)
Definition reads {A} (p : prog A) (d : list Z) (v : A) : Prop :=
  exists s, exec p (fresh d) = Done (v, s).

(** The number of bits of the writes. *)
Definition op_bits (o : wop) : Z :=
  match o with
  | WB _ n => n
  | WE v a b c =>
    let v := u32 v in
    if v <? 2 ^ a - 1 then a else if v - (2 ^ a - 1) <? 2 ^ b - 1 then a + b else a + b + c
  end.
Definition size (l : list wop) : Z := fold_right (fun o s => op_bits o + s) 0 l.

(** Layouts that are an index or a list of loudspeakers. *)
Definition lay_view (l : layout) : glay :=
  if l_type l =? 0 then GIndex (l_idx l)
  else if l_type l =? 1 then GList (firstn (Z.to_nat (l_num l)) (l_spk l)) else GOther.
Definition lay_ok (l : layout) : Prop :=
  (l_type l = 0 /\ 0 <= l_idx l < 64) \/
  (l_type l = 1 /\ 1 <= l_num l <= Z.of_nat (length (l_spk l)) /\ l_num l <= 32 /\
   Forall (fun v => 0 <= v < 128) (l_spk l)).

(** The channel groups of a configuration: group [i] with its own number of channels and
    its own layout.  [dm] is the downmix extension as a value. *)
Definition ch_view (c : chst) (dm : option gdmx) (i : nat) (g : gca_group) : Prop :=
  exists n l f p,
    nth_error (q_nsig (c_sig c)) i = Some n /\ nth_error (q_lay (c_sig c)) i = Some l /\
    nth_error (q_fixed (c_sig c)) i = Some f /\ nth_error (q_prio (c_sig c)) i = Some p /\
    g = mkGg n (lay_view l) (repeat 0 (Z.to_nat n)) f p 96 dm [].
(** The structure holds the downmix extension: the settings of the active downmix (passive
    flag, phase alignment if it is not passive, immersive flag) and the entries, all of them
    for the target layout. *)
Definition bit (v : Z) : Prop := v = 0 \/ v = 1.
Definition holds_active (a : option (Z * option Z * Z)) (none : Prop) (x : dmxc) : Prop :=
  match a with
  | None => dx_type x = 1
  | Some (p, s, im) =>
    (dx_type x = 2 \/ (dx_type x = 0 /\ none)) /\ bit p /\ bit im /\
    dx_passive x = p /\ dx_imm x = im /\
    match s with None => p = 1 | Some v => p = 0 /\ dx_phase x = v /\ 0 <= v < 8 end
  end.
Definition dmx_for (c : chst) (dm : option gdmx) : Prop :=
  match dm with
  | None => c_dmxp c = 0
  | Some (mkGd a l) => c_dmxp c = 1 /\ holds_active a (l = []) (c_dmx c) /\
      (l <> [] \/ dx_type (c_dmx c) <> 0 -> dx_cnt (c_dmx c) = Z.of_nat (length l)) /\
      (forall i e, nth_error l i = Some e -> exists m, nth_error (dx_mat (c_dmx c)) i = Some m /\ holds_dent e m) /\
      Forall valid_dent l /\ Forall dent_fits l /\ (length l < 32)%nat /\
      Forall (fun e => e_lay e = c_cicp c) l
  end.

(** Configurations whose channel groups come first, with index or list layouts and no
    production metadata, within the decoder's limits. *)
Definition ch_ok (c : chst) : Prop :=
  0 <= q_gch (c_sig c) <= 32 /\ pm_present (c_prod c) <> 1 /\
  forall i, (i < Z.to_nat (q_gch (c_sig c)))%nat ->
    exists n l f p al,
      nth_error (q_type (c_sig c)) i = Some 0 /\
      nth_error (q_nsig (c_sig c)) i = Some n /\ 0 <= n <= 32 /\
      nth_error (q_lay (c_sig c)) i = Some l /\ lay_ok l /\
      nth_error (c_also c) i = Some al /\
      nth_error (q_fixed (c_sig c)) i = Some f /\ 0 <= f <= 1 /\
      nth_error (q_prio (c_sig c)) i = Some p /\ 0 <= p <= 7.
(** What is left of layout [i]: the index of a list layout is lost. *)
Definition lay_after (c : chst) (i : nat) (l : layout) : layout :=
  if (Z.of_nat i <? q_gch (c_sig c)) && (l_type l =? 1) then s_l_idx l (-1) else l.

(** The position of object [i] in sub-frame [k] as the decoder holds it; absent when the
    decoder has none. *)
Definition pos_view (b : obst) (k i : nat) (x : option goa_pos) : Prop :=
  let j := (k * Z.to_nat (o_n (b_st b)) + i)%nat in
  let w := o_raw (b_st b) in
  (nth_error (o_has (b_st b)) j = Some 0 /\ x = None) \/
  (nth_error (o_has (b_st b)) j = Some 1 /\
   exists az e r g p sw sh sd,
     nth_error (r_az w) j = Some az /\ nth_error (r_el w) j = Some e /\
     nth_error (r_rad w) j = Some r /\ nth_error (r_gain w) j = Some g /\
     nth_error (r_pri w) j = Some p /\ nth_error (r_sw w) j = Some sw /\
     nth_error (r_sh w) j = Some sh /\ nth_error (r_sd w) j = Some sd /\
     x = Some (mkGp az e r g (if oc_dyn (b_cfg b) =? 0 then None else Some p)
                 (if oc_uni (b_cfg b) =? 0 then SpFull sw sh sd else SpUniform sw))).
(** The values are within their coded ranges. *)
Definition pos_ok (b : obst) (k i : nat) : Prop :=
  let j := (k * Z.to_nat (o_n (b_st b)) + i)%nat in
  let w := o_raw (b_st b) in
  let in_ (l : list Z) lo hi := exists v, nth_error l j = Some v /\ lo <= v < hi in
  in_ (o_has (b_st b)) 0 2 /\
  in_ (r_az w) (-128) 128 /\ in_ (r_el w) (-32) 32 /\ in_ (r_rad w) 0 16 /\
  in_ (r_gain w) (-64) 64 /\ in_ (r_pri w) 0 8 /\
  in_ (r_sw w) 0 128 /\ in_ (r_sh w) 0 32 /\ in_ (r_sd w) 0 16.
(** An excluded sector as it is read: a predefined one by its number, otherwise the limits in
    whole degrees, cut to 7 and 5 bits. *)
Definition sect_view (s : sector) (g : gsect) : Prop :=
  if sc_pre s =? 0 then
    exists a b e f, trunc (sc_minaz s) = Some a /\ trunc (sc_maxaz s) = Some b /\
      trunc (sc_minel s) = Some e /\ trunc (sc_maxel s) = Some f /\
      g = GAngles (a mod 128) (b mod 128) (e mod 32) (f mod 32)
  else g = GPredef (sc_idx s).
Definition sect_ok (s : sector) : Prop :=
  (sc_pre s = 1 /\ 0 <= sc_idx s < 16) \/
  (sc_pre s = 0 /\
   Forall (fun x => exists v, trunc x = Some v /\ -180 <= v <= 180)
     [sc_minaz s; sc_maxaz s; sc_minel s; sc_maxel s]).
(** Object [i] of the only object group [grp], [off] signals preceding it: the id from the
    audio scene or by position, one position per sub-frame, the properties of the group, the
    whole parts of diffuseness and divergence, the divergence range and the excluded
    sectors. *)
Definition ob_view (b : obst) (nfr grp : nat) (off : Z) (i : nat) (g : goa_obj) : Prop :=
  (match b_ids b with
   | None => go_id g = off + Z.of_nat i
   | Some t => exists l, nth_error t grp = Some l /\ nth_error l i = Some (go_id g)
   end) /\
  length (go_frames g) = nfr /\
  (forall k x, nth_error (go_frames g) k = Some x -> pos_view b k i x) /\
  nth_error (q_fixed (b_sig b)) grp = Some (go_fixed g) /\
  nth_error (q_prio (b_sig b)) grp = Some (go_prio g) /\
  (exists d, nth_error (e_diff (b_enh b)) i = Some d /\ trunc d = Some (go_diff g)) /\
  (exists d, nth_error (e_div (b_enh b)) i = Some d /\ trunc d = Some (go_div g)) /\
  nth_error (en_az (b_enhc b)) i = Some (go_range g) /\
  exists ex, nth_error (e_exc (b_enh b)) i = Some ex /\
    Forall2 sect_view (firstn (Z.to_nat (ex_num ex)) (ex_sec ex)) (go_sect g).
(** [off] signals come before the only object group [grp]. *)
Definition one_group (q : sigs) (n : Z) (grp : nat) (off : Z) : Prop :=
  Z.of_nat grp < q_num q /\ (grp < length (q_nsig q))%nat /\
  nth_error (q_type q) grp = Some 1 /\ nth_error (q_nsig q) grp = Some n /\
  (forall k, (k < grp)%nat -> exists t, nth_error (q_type q) k = Some t /\ t <> 1) /\
  off = fold_right Z.add 0 (firstn grp (q_nsig q)).
(** States with one object group, values in their coded ranges and no production metadata;
    the properties the writer takes agree with those of the group. *)
Definition ob_ok (b : obst) (nfr grp : nat) (off : Z) : Prop :=
  let n := o_n (b_st b) in
  0 < oc_fl (b_cfg b) < 4096 /\ 0 <= oc_ccfl (b_cfg b) /\
  Z.of_nat nfr = oc_ccfl (b_cfg b) / oc_fl (b_cfg b) /\ (nfr < 64)%nat /\
  0 <= oc_dyn (b_cfg b) <= 1 /\ 0 <= oc_uni (b_cfg b) <= 1 /\ 0 <= n < 512 /\
  pm_present (b_prod b) <> 1 /\ one_group (b_sig b) n grp off /\ 0 <= off /\ off + n <= 512 /\
  exists f p, 0 <= f <= 1 /\ 0 <= p <= 7 /\
    nth_error (q_fixed (b_sig b)) grp = Some f /\ nth_error (q_prio (b_sig b)) grp = Some p /\
    forall i, (i < Z.to_nat n)%nat ->
      (forall k, (k < nfr)%nat -> pos_ok b k i) /\
      (match b_ids b with
       | None => True
       | Some t => exists l v, nth_error t grp = Some l /\ nth_error l i = Some v /\ 0 <= v < 512
       end) /\
      nth_error (q_fixed (b_sig b)) i = Some f /\ nth_error (q_prio (b_sig b)) i = Some p /\
      (exists d v, nth_error (e_diff (b_enh b)) i = Some d /\ trunc d = Some v /\ 0 <= v < 128) /\
      (exists d v, nth_error (e_div (b_enh b)) i = Some d /\ trunc d = Some v /\ 0 <= v < 128) /\
      (exists r, nth_error (en_az (b_enhc b)) i = Some r /\ 0 <= r < 64) /\
      exists ex, nth_error (e_exc (b_enh b)) i = Some ex /\ 0 <= ex_num ex < 16 /\
        ex_num ex <= Z.of_nat (length (ex_sec ex)) /\
        Forall sect_ok (firstn (Z.to_nat (ex_num ex)) (ex_sec ex)).

(** The positions of the groups of type 3 (HOA), in order. *)
Fixpoint hoa_at (types : list Z) (k : nat) : list nat :=
  match types with
  | [] => []
  | t :: r => if t =? 3 then k :: hoa_at r (S k) else hoa_at r (S k)
  end.
(** The production screen, its overrides and the per preset screens as the decoder holds
    them. *)
Definition pre_view (x : scrx) (k : nat) (v : Z * gscreen) : Prop :=
  exists non cen lf rt tp bt,
    nth_error (sx_id x) k = Some (fst v) /\ nth_error (sx_non x) k = Some non /\
    nth_error (sx_cen x) k = Some cen /\ nth_error (sx_left x) k = Some lf /\
    nth_error (sx_right x) k = Some rt /\ nth_error (sx_top x) k = Some tp /\
    nth_error (sx_bot x) k = Some bt /\
    snd v = if non =? 0 then GStd else if cen =? 0 then GSides lf rt tp bt else GCentered lf tp bt.
Definition screen_view (s : scrn) (x : scrx) (v : gha_screen) : Prop :=
  gs_main v = (if sz_non s =? 0 then None else Some (sz_az s, sz_el s, sz_bot s)) /\
  gs_over v = (if sx_over x =? 0 then None else Some (sx_dl x, sx_dr x)) /\
  length (gs_pre v) = Z.to_nat (sx_num x) /\
  forall k e, nth_error (gs_pre v) k = Some e -> pre_view x k e.
Definition screen_ok (s : scrn) (x : scrx) : Prop :=
  0 <= sz_non s <= 1 /\ 0 <= sz_az s < 512 /\ 0 <= sz_el s < 512 /\ 0 <= sz_bot s < 512 /\
  0 <= sx_over x <= 1 /\ 0 <= sx_dl x < 1024 /\ 0 <= sx_dr x < 1024 /\ 0 <= sx_num x < 32 /\
  forall k, (k < Z.to_nat (sx_num x))%nat ->
    let in_ (l : list Z) hi := exists v, nth_error l k = Some v /\ 0 <= v < hi in
    in_ (sx_id x) 32 /\ in_ (sx_non x) 2 /\ in_ (sx_cen x) 2 /\ in_ (sx_left x) 512 /\
    in_ (sx_right x) 1024 /\ in_ (sx_top x) 512 /\ in_ (sx_bot x) 512.
(** The HOA group at position [j]: its own fixed position and priority, the order, no near
    field distance and no matrix, the screen when the scene is screen relative. *)
Definition ho_view (a : host) (j : nat) (g : gha_group) : Prop :=
  nth_error (q_fixed (a_sig a)) j = Some (gh_fixed g) /\
  nth_error (q_prio (a_sig a)) j = Some (gh_prio g) /\
  gh_order g = a_order a /\ gh_nfc g = None /\ gh_mat g = None /\
  match gh_screen g with
  | None => a_srel a = 0
  | Some v => a_srel a = 1 /\ screen_view (a_scr a) (a_scx a) v
  end.
Definition ho_ok (a : host) : Prop :=
  0 <= a_fl a < 4096 /\ 0 <= a_order a < 512 /\ a_nfc a = 0 /\ a_matp a = 0 /\
  0 <= a_srel a <= 1 /\ screen_ok (a_scr a) (a_scx a) /\ pm_present (a_prod a) <> 1 /\
  (length (q_type (a_sig a)) <= 32)%nat /\
  let js := hoa_at (firstn (Z.to_nat (q_num (a_sig a))) (q_type (a_sig a))) 0 in
  q_ghoa (a_sig a) = Z.of_nat (length js) /\
  forall j, In j js ->
    (exists f, nth_error (q_fixed (a_sig a)) j = Some f /\ 0 <= f <= 1) /\
    (exists p, nth_error (q_prio (a_sig a)) j = Some p /\ 0 <= p <= 7).
