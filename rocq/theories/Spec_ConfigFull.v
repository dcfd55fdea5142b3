(** * Spec_ConfigFull: whole stream configurations as values
    The standard encoding (ISO/IEC 23008-3: mpegh3daConfig with extension elements and
    configuration extensions) and what a decoder holds after reading it. *)

From Coq Require Import ZArith List Lia Bool.
From Verif Require Import Bits BitBuf BitWrite Prog Escape Asi Spec_Asi Cicp Mhas Hoa Config Spec_Config Spec_Flex Lem_AsiRT.
Import ListNotations.
Open Scope Z_scope.

Definition flags (l : list bool) : list bool := concat (map flag l).

(** ** Object metadata (objectMetadataConfig): low delay, the frame length where it is not
    the one of the core coder, the screen relative objects, dynamic priority, uniform
    spread. *)
Record objcfg := mkObj { ob_ld : bool; ob_len : option Z; ob_rel : option (list bool); ob_dyn : bool; ob_uni : bool }.
Definition enc_obj (o : objcfg) : list bool :=
  flag (ob_ld o) ++
  match ob_len o with None => flag true | Some n => flag false ++ bits_of 6 (n / 64 - 1) end ++
  enc_opt flags (ob_rel o) ++ flag (ob_dyn o) ++ flag (ob_uni o).
Definition valid_obj (nobj : Z) (o : objcfg) : Prop :=
  match ob_len o with None => True | Some n => n = 256 \/ n = 512 \/ n = 1024 end /\
  match ob_rel o with None => True | Some r => Z.of_nat (length r) = nobj end.
Definition holds_obj (o : objcfg) (c : oamc) : Prop :=
  oc_ld c = b2z (ob_ld o) /\ oc_ccfl c = 1024 /\
  oc_fl c = match ob_len o with None => 1024 | Some n => n end /\
  match ob_rel o with
  | None => True
  | Some r => firstn (length r) (oc_rel c) = map b2z r /\ oc_relp c = b2z (existsb (fun b => b) r)
  end /\
  oc_dyn c = b2z (ob_dyn o) /\ oc_uni c = b2z (ob_uni o).

(** ** Enhanced object metadata (enhancedObjectMetadataConfig): diffuseness (with the flag
    that it is common), excluded sectors (common with a predefined flag, or per object),
    the closest speaker threshold, and per object a divergence range and - unless the
    excluded sectors are common - the predefined flag. *)
Record enhcfg := mkEnhC { eh_diff : option bool; eh_exc : option (option bool); eh_close : option Z;
  eh_objs : list (option Z * bool) }.
Definition eh_common (e : enhcfg) : bool := match eh_exc e with Some (Some _) => true | _ => false end.
Definition enc_enh_obj (common : bool) (x : option Z * bool) : list bool :=
  enc_opt (bits_of 6) (fst x) ++ (if common then [] else flag (snd x)).
Definition enc_enh (e : enhcfg) : list bool :=
  enc_opt flag (eh_diff e) ++ enc_opt (enc_opt flag) (eh_exc e) ++ enc_opt (bits_of 7) (eh_close e) ++
  concat (map (enc_enh_obj (eh_common e)) (eh_objs e)).
Definition has_div (x : option Z * bool) : bool := match fst x with Some _ => true | None => false end.
Definition wide_div (x : option Z * bool) : bool := match fst x with Some a => 0 <? a | None => false end.
Definition count {A} (f : A -> bool) (l : list A) : Z := Z.of_nat (length (filter f l)).
(** Within the limits of the decoder: 24 objects with two more for each divergent one, and
    16 rendered ones. *)
Definition valid_enh (nobj : Z) (e : enhcfg) : Prop :=
  Z.of_nat (length (eh_objs e)) = nobj /\
  match eh_close e with None => True | Some t => fits 7 t end /\
  Forall (fun x => match fst x with None => True | Some a => fits 6 a end) (eh_objs e) /\
  2 * count has_div (eh_objs e) + nobj <= 24 /\
  count (fun x => negb (has_div x)) (eh_objs e) + 3 * count wide_div (eh_objs e) <= 16.
Definition holds_enh (e : enhcfg) (c : enhc) : Prop :=
  en_diff c = b2z (match eh_diff e with None => false | _ => true end) /\
  (forall b, eh_diff e = Some b -> en_cdiff c = b2z b) /\
  en_exc c = b2z (match eh_exc e with None => false | _ => true end) /\
  en_cexc c = b2z (eh_common e) /\
  en_close c = b2z (match eh_close e with None => false | _ => true end) /\
  (forall t, eh_close e = Some t -> en_thr c = t) /\
  en_ndiv c = count has_div (eh_objs e) /\
  forall i x, nth_error (eh_objs e) i = Some x ->
    nth_error (en_div c) i = Some (b2z (has_div x)) /\
    (forall a, fst x = Some a -> nth_error (en_az c) i = Some a) /\
    nth_error (en_pre c) i = Some (b2z (match eh_exc e with Some (Some b) => b | _ => snd x end)).

(** ** Production metadata (prodMetadataConfig): a reference distance (57 when none is
    given), a flag per group of objects, a flag per group of channels. *)
Record prodcfg := mkProdC { pd_dist : option Z; pd_obj : list bool; pd_head : list bool }.
Definition enc_prod (p : prodcfg) : list bool :=
  enc_opt (bits_of 7) (pd_dist p) ++ flags (pd_obj p) ++ flags (pd_head p).
Definition valid_prod (gobj gch : Z) (p : prodcfg) : Prop :=
  match pd_dist p with None => True | Some d => fits 7 d end /\
  Z.of_nat (length (pd_obj p)) = gobj /\ Z.of_nat (length (pd_head p)) = gch.
Definition holds_prod (p : prodcfg) (c : prodc) : Prop :=
  pr_has c = b2z (match pd_dist p with None => false | _ => true end) /\
  pr_dist c = match pd_dist p with None => 57 | Some d => d end /\
  firstn (length (pd_obj p)) (pr_obj c) = map b2z (pd_obj p) /\
  firstn (length (pd_head p)) (pr_head c) = map b2z (pd_head p).

(** ** HOA (HOAConfig), low complexity profile: no subbands, no phase shift
    decorrelation. *)
Record hoacfg := mkHC { hc_order : Z; hc_screen : bool; hc_nfc : option (Z * Z * Z * Z); hc_minamb : Z;
  hc_single : bool; hc_interp : Z; hc_method : bool; hc_coded : Z; hc_maxgain : Z; hc_flen : Z;
  hc_diff : Z; hc_vq : Z; hc_pds : Z; hc_bps : Z }.
Definition enc_hoa_esc (v : Z) : list bool := if v <? 7 then bits_of 3 v else bits_of 3 7 ++ bits_of 5 (v - 7).
(** Widths: of the difference of the orders, of the number of bits of the vector quantiser. *)
Definition diff_width (c : hoacfg) : Z := Z.log2_up (hc_order c - hc_minamb c + 1).
Definition coefs (order : Z) : Z := (order + 1) * (order + 1).
Definition vq_width (c : hoacfg) : Z := Z.log2_up (Z.log2_up (coefs (hc_order c) + 1)).
Definition enc_hoa (c : hoacfg) : list bool :=
  enc_hoa_esc (hc_order c) ++ flag (hc_screen c) ++
  enc_opt (fun '(a, b, c, d) => bits_of 8 a ++ bits_of 8 b ++ bits_of 8 c ++ bits_of 8 d) (hc_nfc c) ++
  enc_hoa_esc (hc_minamb c + 1) ++ flag (hc_single c) ++ bits_of 3 (hc_interp c) ++ flag (hc_method c) ++
  bits_of 2 (hc_coded c) ++ bits_of 3 (hc_maxgain c) ++ bits_of 2 (hc_flen c) ++
  (if hc_minamb c <? hc_order c then bits_of (Z.to_nat (diff_width c)) (hc_diff c) else []) ++
  bits_of (Z.to_nat (vq_width c)) (hc_vq c) ++
  (if hc_minamb c =? 1 then flag false else []) ++
  bits_of 2 (hc_pds c - 1) ++ bits_of 4 (hc_bps c - 1) ++ bits_of 2 0 ++ bits_of 2 0.
(** [ntc]: number of HOA transport channels. *)
Definition valid_hoa (ntc : Z) (c : hoacfg) : Prop :=
  0 <= hc_order c <= 6 /\
  match hc_nfc c with None => True | Some (a, b, c, d) => fits 8 a /\ fits 8 b /\ fits 8 c /\ fits 8 d end /\
  -1 <= hc_minamb c <= hc_order c /\ coefs (hc_minamb c) <= ntc /\ 0 <= hc_interp c <= 7 /\
  0 <= hc_coded c <= 2 /\ 0 <= hc_maxgain c <= 7 /\ 0 <= hc_flen c <= 2 /\
  (hc_minamb c < hc_order c -> 0 <= hc_diff c < 2 ^ diff_width c) /\
  0 <= hc_vq c < 2 ^ vq_width c /\ hc_vq c <= 7 /\ 1 <= hc_pds c <= 4 /\ 1 <= hc_bps c <= 16.
(** The order up to which ambience may be sent. *)
Definition max_order (c : hoacfg) : Z := if hc_minamb c <? hc_order c then hc_minamb c + hc_diff c else hc_order c.
Definition holds_hoa (ntc : Z) (c : hoacfg) (h : hoac) : Prop :=
  h_order h = hc_order c /\ h_coef h = coefs (hc_order c) /\ h_screen h = b2z (hc_screen c) /\
  h_nfc h = b2z (match hc_nfc c with None => false | _ => true end) /\
  h_ref h = match hc_nfc c with None => [0; 0; 0; 0] | Some (a, b, c, d) => [a; b; c; d] end /\
  h_minamb h = hc_minamb c /\ h_minco h = coefs (hc_minamb c) /\ h_addl h = ntc - coefs (hc_minamb c) /\
  h_single h = b2z (hc_single c) /\ h_cit h = hc_interp c /\
  h_sit h = nth (Z.to_nat (hc_interp c)) [0; 64; 128; 256; 384; 512; 768; 1024] 0 /\
  h_sim h = b2z (hc_method c) /\ h_cvv h = hc_coded c /\ h_mgc h = hc_maxgain c /\ h_fli h = hc_flen c /\
  h_maxord h = max_order c /\ h_maxco h = coefs (max_order c) /\
  h_maxadd h = coefs (max_order c) - coefs (hc_minamb c) /\ h_nvv h = hc_vq c /\
  h_pds h = hc_pds c /\ h_bps h = hc_bps c /\
  h_aab h = Z.log2_up (coefs (max_order c) - coefs (hc_minamb c)) /\
  h_apb h = Z.log2_up (coefs (hc_order c)) /\
  h_gcb h = Z.log2_up (Z.log2_up (3 * coefs (hc_order c) / 2) + hc_maxgain c + 1) /\
  h_vvl h = coefs (hc_order c) - (if hc_coded c =? 0 then 0 else coefs (hc_minamb c)).

(** ** Extension elements *)
Inductive xkind :=
| KFill | KPreroll
| KObj (o : objcfg) | KEnh (e : enhcfg) | KProd (p : prodcfg) | KHoa (h : hoacfg)
| KDrc (bs : list Z)              (* dynamic range control *)
| KMct (bs : list Z)           (* multichannel coding tool *)
| KOther (ty : Z) (bs : list Z).  (* anything else: skipped *)
(** Contents, padding to whole bytes, default payload length, fragmentation. *)
Record extel := mkXe { xe_kind : xkind; xe_pad : list bool; xe_def : option Z; xe_frag : bool }.

Definition known_types : list Z := [0; 3; 4; 5; 7; 9; 13; 14].
Definition xtype (k : xkind) : Z :=
  match k with
  | KFill => 0 | KPreroll => 3 | KDrc _ => 4 | KObj _ => 5 | KHoa _ => 7 | KMct _ => 9
  | KEnh _ => 13 | KProd _ => 14 | KOther ty _ => ty
  end.
Definition xcontents (k : xkind) : list bool :=
  match k with
  | KFill | KPreroll => []
  | KObj o => enc_obj o | KEnh e => enc_enh e | KProd p => enc_prod p | KHoa h => enc_hoa h
  | KDrc bs | KMct bs | KOther _ bs => bytes_bits bs
  end.
Definition xbody (x : extel) : list bool := xcontents (xe_kind x) ++ xe_pad x.
Definition xlen (x : extel) : Z := Z.of_nat (length (xbody x)) / 8.
Definition enc_ext (x : extel) : list bool :=
  esc_enc 4 8 16 (xtype (xe_kind x)) ++ esc_enc 4 8 16 (xlen x) ++
  enc_opt (fun v => esc_enc 8 16 0 (v - 1)) (xe_def x) ++ flag (xe_frag x) ++ xbody x.

(** Numbers the extension elements depend on: objects, groups of objects, groups of
    channels, HOA transport channels. *)
Record counts := mkCnt { n_obj : Z; n_gobj : Z; n_gch : Z; n_ntc : Z }.
Definition valid_kind (n : counts) (k : xkind) : Prop :=
  match k with
  | KFill | KPreroll => True
  | KObj o => valid_obj (n_obj n) o | KEnh e => valid_enh (n_obj n) e
  | KProd p => valid_prod (n_gobj n) (n_gch n) p
  | KHoa h => 0 < n_ntc n /\ valid_hoa (n_ntc n) h
  | KDrc bs => are_bytes bs
  | KMct bs => are_bytes bs /\ bs <> []
  | KOther ty bs => are_bytes bs /\ 0 <= ty <= 65805 /\ ~ In ty known_types
  end.
(** Padding is only needed where the contents are not bytes; fragments are not allowed for
    some, a pre-roll element must come first and be plain. *)
Definition valid_ext (n : counts) (i : nat) (x : extel) : Prop :=
  valid_kind n (xe_kind x) /\ Z.of_nat (length (xbody x)) mod 8 = 0 /\ xlen x < 1536 /\
  match xe_def x with None => True | Some v => 1 <= v <= 65791 end /\
  match xe_kind x with
  | KFill => xe_frag x = false /\ xe_pad x = []
  | KPreroll => xe_frag x = false /\ xe_pad x = [] /\ xe_def x = None /\ i = 0%nat
  | KDrc _ | KMct _ => xe_frag x = false /\ xe_pad x = []
  | KOther _ _ => xe_pad x = []
  | _ => True
  end.

(** What entry [i] of the tables holds. *)
Definition holds_ext (x : extel) (i : nat) (d : decc) : Prop :=
  nth_error (d_etype d) i = Some (xtype (xe_kind x)) /\
  (exists el, nth_error (d_elem d) i = Some el /\
     el_def el = (match xe_def x with None => 0 | Some v => v end) /\ el_frag el = b2z (xe_frag x)) /\
  match xe_kind x with
  | KObj _ | KHoa _ | KDrc _ | KMct _ =>
    nth_error (d_plen d) i = Some (xlen x) /\ nth_error (d_ppres d) i = Some (b2z (0 <? xlen x))
  | _ => nth_error (d_plen d) i = Some 0 /\ nth_error (d_ppres d) i = Some 0
  end /\
  match xe_kind x with
  | KDrc bs | KMct bs => exists b, nth_error (d_pbuf d) i = Some b /\ firstn (length bs) b = bs
  | _ => True
  end.

(** ** Elements *)
Inductive felem := FSce (t : core_tools) | FCpe (t : core_tools) (shift : option Z) (lpds : Z) | FLfe | FExt (x : extel).
(** Width of the channel to shift to, for [n] core channels. *)
Definition shift_width (n : Z) : Z := Z.log2 (n - 1) + 1.
Definition enc_felem (n : Z) (e : felem) : list bool :=
  match e with
  | FSce t => bits_of 2 0 ++ enc_tools false t
  | FCpe t sh ls => bits_of 2 1 ++ enc_tools true t ++ bits_of 2 0 ++
      enc_opt (bits_of (Z.to_nat (shift_width n))) sh ++ bits_of 1 ls
  | FLfe => bits_of 2 2
  | FExt x => bits_of 2 3 ++ enc_ext x
  end.
Definition valid_felem (n : Z) (cn : counts) (i : nat) (e : felem) : Prop :=
  match e with
  | FSce t => valid_tools false t
  | FCpe t sh ls => valid_tools true t /\ is_bit ls /\
      match sh with None => True | Some s => 2 <= n <= 16 /\ 0 <= s < 2 ^ shift_width n end
  | FLfe => True
  | FExt x => valid_ext cn i x
  end.
Definition ftype (e : felem) : Z := match e with FSce _ => 0 | FCpe _ _ _ => 1 | FLfe => 2 | FExt _ => 3 end.
Definition holds_felem (e : felem) (i : nat) (d : decc) : Prop :=
  nth_error (d_type d) i = Some (ftype e) /\
  match e with
  | FSce t => exists el, nth_error (d_elem d) i = Some el /\ holds_tools t el
  | FCpe t _ ls => exists el, nth_error (d_elem d) i = Some el /\ holds_tools t el /\ el_lpds el = ls
  | FLfe => exists el, nth_error (d_elem d) i = Some el /\ el_tw el = 0 /\ el_nf el = 0
  | FExt x => holds_ext x i d
  end.
(** Elements allowed with more than 16 channels: single channels without noise filling,
    extensions other than the multichannel coding tool. *)
Definition simple_felem (e : felem) : Prop :=
  match e with
  | FSce t => ct_nf t = 0 /\ ct_igf t = None
  | FExt x => match xe_kind x with KMct _ => False | _ => True end
  | _ => False
  end.
Definition obj_of (e : felem) := match e with FExt x => match xe_kind x with KObj o => Some o | _ => None end | _ => None end.
Definition enh_of (e : felem) := match e with FExt x => match xe_kind x with KEnh o => Some o | _ => None end | _ => None end.
Definition prod_of (e : felem) := match e with FExt x => match xe_kind x with KProd o => Some o | _ => None end | _ => None end.
Definition hoa_of (e : felem) := match e with FExt x => match xe_kind x with KHoa o => Some o | _ => None end | _ => None end.
(** The last one present. *)
Definition last_of {A B} (f : A -> option B) (l : list A) : option B :=
  fold_left (fun o x => match f x with Some y => Some y | None => o end) l None.
Definition when {A} (o : option A) (P : A -> Prop) : Prop := match o with Some a => P a | None => True end.

(** ** Configuration extensions *)
Inductive cext :=
| XFill (n : nat) | XDmx (l : list dent) (pad : list bool) | XLoud (bs : list Z)
| XScene (s : scene) (pad : list bool) | XCompat (levels : list Z) | XOther (ty : Z) (bs : list Z).
Definition cxtype (x : cext) : Z :=
  match x with XFill _ => 0 | XDmx _ _ => 1 | XLoud _ => 2 | XScene _ _ => 3 | XCompat _ => 7 | XOther ty _ => ty end.
Definition cxbody (x : cext) : list bool :=
  match x with
  | XFill n => bytes_bits (repeat 0xA5 n)
  | XDmx l pad => enc_dmx l ++ pad
  | XLoud bs | XOther _ bs => bytes_bits bs
  | XScene s pad => enc_scene s ++ pad
  | XCompat ls => bits_of 4 (Z.of_nat (length ls) - 1) ++ bits_of 4 0 ++ bytes_bits ls
  end.
Definition cxlen (x : cext) : Z := Z.of_nat (length (cxbody x)) / 8.
Definition enc_cext (x : cext) : list bool := esc_enc 4 8 16 (cxtype x) ++ esc_enc 4 8 16 (cxlen x) ++ cxbody x.
Definition valid_cext (x : cext) : Prop :=
  Z.of_nat (length (cxbody x)) mod 8 = 0 /\ cxlen x <= 1536 /\
  match x with
  | XFill _ => True
  | XDmx l _ => (length l <= 6)%nat /\ Forall valid_dent l /\ Forall dent_fits l
  | XLoud bs => are_bytes bs
  | XScene s _ => valid_scene s /\ Forall (fun g => member_count (gr_members g) <= 127) (Spec_Asi.sc_groups s)
  | XCompat ls => (1 <= length ls <= 16)%nat /\ are_bytes ls
  | XOther ty bs => are_bytes bs /\ 0 <= ty <= 65805 /\ ~ In ty [0; 1; 2; 3; 4; 6; 7]
  end.
Definition dmx_of (x : cext) := match x with XDmx l _ => Some l | _ => None end.
Definition scene_of (x : cext) := match x with XScene s _ => Some s | _ => None end.
Definition compat_of (x : cext) := match x with XCompat l => Some l | _ => None end.
(** Entry [j] of the table of extensions. *)
Definition holds_cext (x : cext) (j : nat) (d : decc) : Prop :=
  nth_error (d_cfgt d) j = Some (cxtype x) /\
  match x with
  | XDmx _ _ => nth_error (d_cfgp d) j = Some 1 /\ nth_error (d_cfgl d) j = Some (cxlen x)
  | XLoud bs => nth_error (d_cfgp d) j = Some 1 /\ nth_error (d_cfgl d) j = Some (cxlen x) /\
      exists b, nth_error (d_cfgb d) j = Some b /\ firstn (length bs) b = bs
  | _ => nth_error (d_cfgp d) j = Some 0 /\ nth_error (d_cfgl d) j = Some 0
  end.
Definition holds_dmx (cicp : Z) (l : list dent) (x : dmxc) : Prop :=
  dx_type x = 1 /\ dx_cnt x = Z.of_nat (length l) /\ dx_id x = chosen cicp l /\
  forall i e, nth_error l i = Some e -> exists m, nth_error (dx_mat x) i = Some m /\ holds_dent e m.
Definition holds_scene (s : scene) (a : asi) : Prop :=
  a_main a = 1 /\ z2b (a_idp a) = (match sc_id s with None => false | _ => true end) /\
  (forall i, sc_id s = Some i -> a_id a = i) /\
  map view_group (active_groups a) = Spec_Asi.sc_groups s /\
  map view_switch (active_switch a) = sc_switch s /\
  map view_preset (active_presets a) = sc_presets s /\
  a_types a = map fst (sc_blocks s) /\ a_max a = sc_max s.

(** The profile level that counts: of the levels the stream is also compatible with, the
    lowest baseline level (0x10 to 0x12), else the lowest low complexity level (0x0B to
    0x0D), else the level of the stream. *)
Definition lowest (lo hi : Z) (l : list Z) : option Z :=
  fold_left (fun o v => if (lo <=? v) && (v <=? hi) then
    match o with Some w => Some (Z.min v w) | None => Some v end else o) l None.
Definition level_used (prof : Z) (xs : list cext) : Z :=
  match last_of compat_of xs with
  | None => prof
  | Some l =>
    match lowest 0x10 0x12 l, lowest 0x0B 0x0D l with
    | Some b, _ => b
    | None, Some c => c
    | None, None => prof
    end
  end.

(** ** The whole configuration *)
(** A layout: one by name, a list of loudspeakers by number, or a flexible one
    (Spec_Flex.v). *)
Inductive reflay := RNamed (i : Z) | RListed (l : list Z) | RFlex (fine : bool) (l : list flexspk).
Definition enc_reflay (r : reflay) : list bool :=
  match r with
  | RNamed i => bits_of 2 0 ++ bits_of 6 i
  | RListed l => bits_of 2 1 ++ esc_enc 5 8 16 (Z.of_nat (length l) - 1) ++ concat (map (bits_of 7) l)
  | RFlex fine l => enc_flex_layout fine l
  end.
(** For a flexible layout see C107: at most 20 loudspeakers, and of those by number only the
    ones whose pair flag is found. *)
Definition valid_reflay (r : reflay) : Prop :=
  match r with
  | RNamed i => 1 <= i <= 20
  | RListed l => (1 <= length l <= 24)%nat /\ Forall (fun v => 0 <= v <= 42) l
  | RFlex fine l => (1 <= length (speakers l) <= 20)%nat /\ Forall (valid_flexspk fine) l /\
      Forall (fun x => plain_pos (fst x)) l
  end.
Definition reflay_ch (r : reflay) : Z := match r with RNamed i => num_ls i | RListed l => Z.of_nat (length l) | RFlex _ l => Z.of_nat (length (speakers l)) end.
Definition holds_reflay (r : reflay) (l : layout) : Prop :=
  match r with
  | RNamed i => l_type l = 0 /\ l_idx l = i
  | RListed v => l_type l = 1 /\ l_num l = Z.of_nat (length v) /\ firstn (length v) (l_spk l) = v
  | RFlex fine v => l_type l = 2 /\ l_num l = Z.of_nat (length (speakers v)) /\ holds_flex fine v l
  end.
(** The number of the named layout that is used, [old] from before: a flexible one takes the
    name that has the number of its loudspeakers. *)
Definition layout_name (r : reflay) (old : Z) : Z :=
  match r with RNamed i => i | RListed _ => old | RFlex _ l => Z.of_nat (length (speakers l)) end.

Record fcfg := mkFC {
  fc_prof : Z; fc_rate : Z + Z; fc_flen : Z; fc_rdc : Z; fc_lay : reflay;
  fc_groups : list (Z * Z); fc_elp : Z; fc_elems : list felem; fc_exts : list cext }.
Definition fc_core (c : fcfg) : Z := total 0 (fc_groups c) + total 1 (fc_groups c) + total 3 (fc_groups c).
Definition fc_counts (c : fcfg) : counts :=
  mkCnt (total 1 (fc_groups c)) (groups_of 1 (map fst (fc_groups c))) (groups_of 0 (map fst (fc_groups c)))
    (total 3 (fc_groups c)).
Definition enc_fconfig (c : fcfg) : list bool :=
  bits_of 8 (fc_prof c) ++
  match fc_rate c with inl i => bits_of 5 i | inr f => bits_of 5 31 ++ bits_of 24 f end ++
  bits_of 3 (fc_flen c) ++ bits_of 1 0 ++ bits_of 1 (fc_rdc c) ++ enc_reflay (fc_lay c) ++
  bits_of 5 (Z.of_nat (length (fc_groups c)) - 1) ++ concat (map Spec_Config.enc_group (fc_groups c)) ++
  esc_enc 4 8 16 (Z.of_nat (length (fc_elems c)) - 1) ++ bits_of 1 (fc_elp c) ++
  concat (map (enc_felem (fc_core c)) (fc_elems c)) ++
  match fc_exts c with
  | [] => bits_of 1 0
  | xs => bits_of 1 1 ++ esc_enc 2 4 8 (Z.of_nat (length xs) - 1) ++ concat (map enc_cext xs)
  end.

Definition valid_fconfig (c : fcfg) : Prop :=
  match fc_rate c with inl i => 3 <= i <= 8 | inr f => 0 < f <= 48000 end /\
  0 <= fc_flen c <= 4 /\ is_bit (fc_rdc c) /\ is_bit (fc_elp c) /\ valid_reflay (fc_lay c) /\
  (1 <= length (fc_groups c) <= 16)%nat /\
  Forall (fun g => (fst g = 0 \/ fst g = 1 \/ fst g = 3) /\ 1 <= snd g) (fc_groups c) /\
  (fc_rdc c = 1 \/ exists t, Forall (fun g => fst g = t) (fc_groups c)) /\
  (1 <= length (fc_elems c) <= 50)%nat /\
  (forall i e, nth_error (fc_elems c) i = Some e -> valid_felem (fc_core c) (fc_counts c) i e) /\
  (length (fc_exts c) <= 5)%nat /\ Forall valid_cext (fc_exts c) /\
  (length (filter (fun x => match scene_of x with Some _ => true | _ => false end) (fc_exts c)) <= 1)%nat /\
  0x0B <= fc_prof c < 256 /\
  exists lim, level_limit (level_used (fc_prof c) (fc_exts c)) = Some lim /\
    fc_core c <= lim /\ reflay_ch (fc_lay c) <= lim /\
    (16 < fc_core c \/ 16 < reflay_ch (fc_lay c) ->
       Forall simple_felem (fc_elems c) /\ Forall (fun g => fst g = 1) (fc_groups c)).

(** Conditions on the decoder before: no compatibility set of an earlier configuration is
    in force (C63), and the scene passes the checks against what an earlier scene left
    (C42); for a flexible layout, no direction to the right is left in its table (C107). *)
Definition fits_before (c : fcfg) (u : ucfg) : Prop :=
  d_compp (u_dec u) = 0 /\
  match fc_lay c with RFlex _ _ => unused (u_ref u) | _ => True end /\
  forall s, last_of scene_of (fc_exts c) = Some s ->
    preset_checks s (a_groups (u_asi u)) /\ (a_ns (u_asi u) <= 0 \/ fc_elp c = 1).

(** The number a sampling rate has in the tables of the core decoder; 0 for every other rate. *)
Definition rate_index (f : Z) : Z :=
  if f =? 48000 then 3 else if f =? 44100 then 4 else if f =? 32000 then 5 else if f =? 24000 then 6
  else if f =? 22050 then 7 else if f =? 16000 then 8 else if f =? 14700 then 9 else if f =? 29400 then 10
  else 0.

Definition holds_fconfig (cicp : Z) (c : fcfg) (u : ucfg) : Prop :=
  u_freq u = rate_of (fc_rate c) /\ u_sfi u = rate_index (rate_of (fc_rate c)) /\ u_flen u = fc_flen c /\ u_rdc u = fc_rdc c /\
  holds_reflay (fc_lay c) (u_ref u) /\
  q_num (u_sig u) = Z.of_nat (length (fc_groups c)) /\
  firstn (length (fc_groups c)) (q_type (u_sig u)) = map fst (fc_groups c) /\
  firstn (length (fc_groups c)) (q_nsig (u_sig u)) = map snd (fc_groups c) /\
  q_ch (u_sig u) = total 0 (fc_groups c) /\ q_obj (u_sig u) = total 1 (fc_groups c) /\
  q_hoa (u_sig u) = total 3 (fc_groups c) /\
  d_num (u_dec u) = Z.of_nat (length (fc_elems c)) /\ d_elp (u_dec u) = fc_elp c /\
  (forall i e, nth_error (fc_elems c) i = Some e -> holds_felem e i (u_dec u)) /\
  when (last_of obj_of (fc_elems c)) (fun o => holds_obj o (u_oam u)) /\
  when (last_of enh_of (fc_elems c)) (fun e => holds_enh e (u_enh u) /\ u_enhp u = 1) /\
  when (last_of prod_of (fc_elems c)) (fun p => holds_prod p (u_prod u)) /\
  when (last_of hoa_of (fc_elems c)) (fun h => holds_hoa (total 3 (fc_groups c)) h (d_hoa (u_dec u))) /\
  (fc_exts c <> [] -> d_cfgn (u_dec u) = Z.of_nat (length (fc_exts c)) /\ d_cicp (u_dec u) = cicp) /\
  (forall j x, nth_error (fc_exts c) j = Some x -> holds_cext x j (u_dec u)) /\
  when (last_of dmx_of (fc_exts c)) (fun l => d_dmxp (u_dec u) = 1 /\ holds_dmx cicp l (d_dmx (u_dec u))) /\
  when (last_of scene_of (fc_exts c)) (fun s => u_asip u = 1 /\ holds_scene s (u_asi u)) /\
  d_prof (u_dec u) = level_used (fc_prof c) (fc_exts c).
