(** * Spec_Config: vocabulary for the properties of the stream configuration *)

From Coq Require Import ZArith List Lia Bool.
From Verif Require Import Bits BitBuf BitWrite Prog Escape Asi Spec_Asi Cicp Mhas Hoa Config.
Import ListNotations.
Open Scope Z_scope.

(** Profile levels: low complexity 1-3 and baseline 1-3, with the largest number of core
    and reference-layout channels of each (ISO/IEC 23008-3). *)
Definition level_limit (lvl : Z) : option Z :=
  if (lvl =? 0x0B) || (lvl =? 0x10) then Some 5
  else if (lvl =? 0x0C) || (lvl =? 0x11) then Some 9
  else if (lvl =? 0x0D) || (lvl =? 0x12) then Some 24
  else None.

(** Number of signals of all groups of a type. *)
Fixpoint signals_of (ty : Z) (types nums : list Z) : Z :=
  match types, nums with
  | t :: ts, n :: ns => (if t =? ty then n else 0) + signals_of ty ts ns
  | _, _ => 0
  end.
Fixpoint groups_of (ty : Z) (types : list Z) : Z :=
  match types with t :: ts => (if t =? ty then 1 else 0) + groups_of ty ts | [] => 0 end.

(** Channels the core decoder produces, channels of the reference layout. *)
Definition core_channels (u : ucfg) : Z := q_hoa (u_sig u) + q_obj (u_sig u) + q_ch (u_sig u).
Definition ref_channels (u : ucfg) : Z :=
  if l_type (u_ref u) =? 0 then num_ls (l_idx (u_ref u)) else l_num (u_ref u).

(** Header of an extension element (ISO/IEC 23008-3, mpegh3daExtElementConfig): type,
    configuration length in bytes, default length, fragmentation flag. *)
Definition ext_element_header : prog (Z * Z) :=
  ty <- read_escape 4 8 16 ;;
  len <- read_escape 4 8 16 ;;
  flag <- rd 1 ;;
  (if flag =? 0 then Ret 0 else read_escape 8 16 0) ;;;
  rd 1 ;;;
  Ret (ty, len).

(** Header of a configuration extension: type, length in bytes. *)
Definition config_ext_header : prog (Z * Z) :=
  ty <- read_escape 4 8 16 ;;
  len <- read_escape 4 8 16 ;;
  Ret (ty, len).

(** ** Downmix configurations as values and their standard encoding
    (ISO/IEC 23008-3, downmixConfig). *)
Record mtx := mkMtx { t_groups : list Z; t_bits : list bool }.
(** An entry with matrices, or (None) one that only names the default downmix. *)
Record dent := mkDent { e_id : Z; e_lay : Z; e_mtx : option (list mtx) }.

Definition valid_mtx (t : mtx) : Prop :=
  (1 <= length (t_groups t) <= 16)%nat /\ Forall (fun g => 0 <= g < 32) (t_groups t) /\
  Z.of_nat (length (t_bits t)) <= 255 + 255 + 4095.
Definition valid_dent (e : dent) : Prop :=
  0 < e_id e < 127 /\ 0 <= e_lay e <= 20 /\
  match e_mtx e with None => True | Some l => (1 <= length l <= 8)%nat /\ Forall valid_mtx l end.

Definition enc_mtx (t : mtx) : list bool :=
  esc_enc 1 4 4 (Z.of_nat (length (t_groups t)) - 1) ++
  concat (map (bits_of 5) (t_groups t)) ++
  esc_enc 8 8 12 (Z.of_nat (length (t_bits t))) ++ t_bits t.
Definition enc_dent (e : dent) : list bool :=
  bits_of 7 (e_id e) ++
  match e_mtx e with
  | None => bits_of 2 0 ++ bits_of 6 (e_lay e)
  | Some l => bits_of 2 1 ++ bits_of 6 (e_lay e) ++
              esc_enc 1 3 0 (Z.of_nat (length l) - 1) ++ concat (map enc_mtx l)
  end.
(** Type 1: matrices only; type 2: also the active downmix settings (with phase alignment
    0, the only one of this profile). *)
Definition enc_dmx (l : list dent) : list bool :=
  bits_of 2 1 ++ bits_of 5 (Z.of_nat (length l)) ++ concat (map enc_dent l).

(** Column [j] of the stored table holds matrix [t]. *)
Definition holds_mtx (t : mtx) (j : nat) (m : dmat) : Prop :=
  nth_error (dm_ngrp m) j = Some (Z.of_nat (length (t_groups t))) /\
  (exists g, nth_error (dm_grp m) j = Some g /\ firstn (length (t_groups t)) g = t_groups t) /\
  nth_error (dm_len m) j = Some (Z.of_nat (length (t_bits t))) /\
  (exists b, nth_error (dm_bytes m) j = Some b /\ firstn (length (t_bits t)) (bytes_bits b) = t_bits t).
Definition holds_dent (e : dent) (m : dmat) : Prop :=
  dm_id m = e_id e /\ dm_lay m = e_lay e /\
  match e_mtx e with
  | None => dm_type m = 0
  | Some l => dm_type m = 1 /\ dm_cnt m = Z.of_nat (length l) /\
              forall j t, nth_error l j = Some t -> holds_mtx t j m
  end.
(** Every matrix fits the 256 bytes kept for it. *)
Definition dent_fits (e : dent) : Prop :=
  match e_mtx e with None => True | Some l => Forall (fun t => (length (t_bits t) <= 2048)%nat) l end.
(** The downmix meant for a layout: the last entry naming it, 0 when none does. *)
Definition chosen (cicp : Z) (l : list dent) : Z :=
  fold_left (fun d e => if cicp =? e_lay e then e_id e else d) l 0.
(** Head of a downmix matrix: number of signal groups less one, their ids, number of bits. *)
Definition mtx_header : prog (Z * Z) :=
  n <- read_escape 1 4 4 ;;
  forP (Z.to_nat (n + 1)) 0 (fun _ _ => rd 5 ;;; Ret tt) tt ;;;
  len <- read_escape 8 8 12 ;;
  Ret (n, len).

(** ** Positions inside a configuration
    The parser up to and including the signal groups; then up to the extension flag; then
    through the first [j] extensions.  They only name places in the stream for the
    properties: each is what [mpegh_3da_config] does up to that place. *)
Definition upto_signals (user : Z) (u : ucfg) : prog (Z * ucfg) :=
  rd 8 ;;;
  fi <- rd 5 ;;
  let u := s_u_fidx (s_u_3b u 0) fi in
  fr <- (if negb (fi =? 31) then aget sampling_rate_tbl fi else rd 24) ;;
  let u := s_u_sfi (s_u_freq u fr) (find_idx sample_freq_idx_tbl fr 0) in
  fl <- rd 3 ;;
  skip 1 ;;;
  rdc <- rd 1 ;;
  let u := s_u_rdc (s_u_flen u fl) rdc in
  ' (e, l) <- ref_layout (u_ref u) ;;
  if negb (e =? 0) then Ret (e, u) else signals (s_u_ref u l) user.
Definition upto_elements (user : Z) (u : ucfg) : prog (Z * ucfg) :=
  ' (e, u) <- upto_signals user u ;;
  if negb (e =? 0) then Ret (e, u) else decoder_config u.
Definition upto_ext (user : Z) (j : nat) (u : ucfg) : prog (Z * ucfg) :=
  ' (e, u) <- upto_elements user u ;;
  if negb (e =? 0) then Ret (e, u) else
  f <- rd 1 ;;
  n <- read_escape 2 4 8 ;;
  let cicp := if negb (user =? 0) then user else l_idx (u_ref u) in
  let d := s_d_cicp (u_dec u) cicp in
  let d := s_d_cfgn (s_d_cfgl (s_d_cfgp (s_d_dmxp d 0) (repeat 0 (length (d_cfgp d))))
                       (repeat 0 (length (d_cfgl d)))) (n + 1) in
  forE j 0 (config_ext_one cicp) (s_u_dec u d).

(** ** A freshly allocated configuration (all zero, impeghd_api.c:360-372) *)
Definition flex_zero := mkFx 0 0 0 0 0 0 0 0.
Definition lay_zero := mkLay 0 0 0 (repeat 0 24) 0 (repeat flex_zero 32).
Definition sigs_zero := mkSig 0 (repeat 0 32) (repeat 0 32) (repeat 0 32) (repeat lay_zero 32) (repeat 0 32)
  (repeat 0 32) 0 0 0 0 0 0 0 0.
Definition hoac_zero := mkHoa 0 0 0 0 0 0 [0; 0; 0; 0] 0 0 0 0 0 0 0 0 0 0 0 0 0 0 0 0 0 0 0 0 0 0 0 0 0 0 0 0 0 0.
Definition hmat_zero := mkHM 0 (repeat 0 32) 0 0 0 0 0 (repeat 0 7) (repeat 0 7) 0 (repeat 0 128) 0 0 0 0 0 0 0
  (repeat 0 128) (repeat 0 128) 0 (repeat 0 128) (repeat 0 128) (repeat 0 49) (repeat 0 49)
  (repeat GZ (Z.to_nat 1536)) (repeat 0 (Z.to_nat 1568)) 0 0.
Definition buf_zero := repeat 0 (Z.to_nat 1536).
Definition decc_zero := mkDec 0 (repeat 0 50) (repeat 0 50) (repeat 0 50) 0 (repeat elem0 50) (repeat 0 50)
  (repeat 0 50) (repeat buf_zero 50) 0 hoac_zero hmat_zero 0 0 dmxc0 0 0 0 0 0 (repeat 0 5) (repeat 0 5)
  (repeat 0 5) (repeat buf_zero 5) (mkCo 0 0 (repeat 0 16) 0 0) 0 0.
Definition config_zero := mkU 0 0 0 0 0 lay_zero 0 sigs_zero decc_zero (mkOC 0 0 0 0 0 (repeat 0 24) 0)
  (mkEn 0 0 0 0 0 0 (repeat 0 24) (repeat 0 24) (repeat 0 24) 0) 0 (mkPr 0 0 (repeat 0 32) (repeat 0 32))
  0 0 0 0 asi_zero 0.

(** Truncated binary code of [v] among [n] values: the first 2^(k+1)-n values take
    k = floor(log2 n) bits, the others one more. *)
Definition enc_trunc (n v : Z) : list bool :=
  let k := Z.log2 n in
  let u := 2 ^ (k + 1) - n in
  if v <? u then bits_of (Z.to_nat k) v else bits_of (Z.to_nat (k + 1)) (v + u).

(** ** Stream configurations as values, and their standard encoding
    (ISO/IEC 23008-3, mpegh3daConfig), for a loudspeaker layout given by its index, groups
    of channels (in the reference layout), objects and HOA transport channels, and single,
    pair and LFE elements without extensions. *)
Record core_tools := mkCT { ct_lpd : Z; ct_nf : Z; ct_igf : option (list Z) }.
Inductive celem :=
| CSce (t : core_tools)
| CCpe (t : core_tools) (lpds : Z)
| CLfe.
Record scfg := mkSC {
  sc_prof : Z; sc_rate : Z + Z; sc_flen : Z; sc_rdc : Z; sc_lay : Z;
  sc_groups : list (Z * Z); sc_elp : Z; sc_elems : list celem }.

Definition bit1 (v : Z) : list bool := bits_of 1 v.
Definition is_bit (v : Z) : Prop := 0 <= v <= 1.
(** The IGF parameters: 4 flags, start (5 bits), stop (4 bits), and for a pair a flag
    (1 is stored for a single element). *)
Definition igf_widths (pair : bool) : list nat := [1; 1; 1; 1; 5; 4]%nat ++ (if pair then [1%nat] else []).
Definition enc_igf (pair : bool) (l : list Z) : list bool :=
  concat (map (fun '(w, v) => bits_of w v) (combine (igf_widths pair) l)).
Definition valid_tools (pair : bool) (t : core_tools) : Prop :=
  is_bit (ct_lpd t) /\ is_bit (ct_nf t) /\
  match ct_igf t with
  | None => True
  | Some l => length l = 7%nat /\
      Forall (fun '(w, v) => 0 <= v < 2 ^ Z.of_nat w) (combine (igf_widths pair) l) /\
      (pair = false -> nth 6 l 0 = 1)
  end.
Definition enc_tools (pair : bool) (t : core_tools) : list bool :=
  bits_of 1 0 ++ bits_of 1 (ct_lpd t) ++ bits_of 1 (ct_nf t) ++
  match ct_igf t with None => bits_of 1 0 | Some l => bits_of 1 1 ++ enc_igf pair l end.
Definition enc_elem (e : celem) : list bool :=
  match e with
  | CSce t => bits_of 2 0 ++ enc_tools false t
  | CCpe t ls => bits_of 2 1 ++ enc_tools true t ++ bits_of 2 0 ++ bits_of 1 0 ++ bits_of 1 ls
  | CLfe => bits_of 2 2
  end.
Definition valid_elem (e : celem) : Prop :=
  match e with CSce t => valid_tools false t | CCpe t ls => valid_tools true t /\ is_bit ls | CLfe => True end.
Definition enc_group (g : Z * Z) : list bool :=
  bits_of 3 (fst g) ++ esc_enc 5 8 16 (snd g - 1) ++ (if fst g =? 0 then bits_of 1 0 else []).
Definition enc_config (c : scfg) : list bool :=
  bits_of 8 (sc_prof c) ++
  match sc_rate c with inl i => bits_of 5 i | inr f => bits_of 5 31 ++ bits_of 24 f end ++
  bits_of 3 (sc_flen c) ++ bits_of 1 0 ++ bits_of 1 (sc_rdc c) ++
  bits_of 2 0 ++ bits_of 6 (sc_lay c) ++
  bits_of 5 (Z.of_nat (length (sc_groups c)) - 1) ++ concat (map enc_group (sc_groups c)) ++
  esc_enc 4 8 16 (Z.of_nat (length (sc_elems c)) - 1) ++ bits_of 1 (sc_elp c) ++
  concat (map enc_elem (sc_elems c)) ++ bits_of 1 0.

(** Sampling rates by index (ISO/IEC 23003-3, table 67). *)
Definition std_rates : list Z := [96000; 88200; 64000; 48000; 44100; 32000; 24000; 22050; 16000].
Definition rate_of (r : Z + Z) : Z := match r with inl i => nth (Z.to_nat i) std_rates 0 | inr f => f end.
Definition total (ty : Z) (l : list (Z * Z)) : Z := signals_of ty (map fst l) (map snd l).

Definition valid_config (c : scfg) : Prop :=
  match sc_rate c with inl i => 3 <= i <= 8 | inr f => 0 < f <= 48000 end /\
  0 <= sc_flen c <= 4 /\ is_bit (sc_rdc c) /\ is_bit (sc_elp c) /\ 1 <= sc_lay c <= 20 /\
  (1 <= length (sc_groups c) <= 16)%nat /\
  Forall (fun g => (fst g = 0 \/ fst g = 1 \/ fst g = 3) /\ 1 <= snd g) (sc_groups c) /\
  (sc_rdc c = 1 \/ exists t, Forall (fun g => fst g = t) (sc_groups c)) /\
  (1 <= length (sc_elems c) <= 50)%nat /\ Forall valid_elem (sc_elems c) /\
  0 <= sc_prof c < 256 /\
  let n := total 0 (sc_groups c) + total 1 (sc_groups c) + total 3 (sc_groups c) in
  exists lim, level_limit (sc_prof c) = Some lim /\ n <= lim /\ n <= 16 /\
    num_ls (sc_lay c) <= lim /\ num_ls (sc_lay c) <= 16.

(** The stored element. *)
Definition holds_tools (t : core_tools) (el : elem) : Prop :=
  el_tw el = 0 /\ el_lpd el = ct_lpd t /\ el_nf el = ct_nf t /\
  match ct_igf t with None => el_enf el = 0 | Some l => el_enf el = 1 /\ el_igf el = l end.
Definition elem_type (e : celem) : Z := match e with CSce _ => 0 | CCpe _ _ => 1 | CLfe => 2 end.
Definition holds_elem (e : celem) (el : elem) : Prop :=
  match e with
  | CSce t => holds_tools t el
  | CCpe t ls => holds_tools t el /\ el_lpds el = ls
  | CLfe => el_tw el = 0 /\ el_nf el = 0
  end.
Definition holds_config (c : scfg) (u : ucfg) : Prop :=
  u_freq u = rate_of (sc_rate c) /\ u_flen u = sc_flen c /\ u_rdc u = sc_rdc c /\
  l_type (u_ref u) = 0 /\ l_idx (u_ref u) = sc_lay c /\
  q_num (u_sig u) = Z.of_nat (length (sc_groups c)) /\
  firstn (length (sc_groups c)) (q_type (u_sig u)) = map fst (sc_groups c) /\
  firstn (length (sc_groups c)) (q_nsig (u_sig u)) = map snd (sc_groups c) /\
  q_ch (u_sig u) = total 0 (sc_groups c) /\ q_obj (u_sig u) = total 1 (sc_groups c) /\
  q_hoa (u_sig u) = total 3 (sc_groups c) /\
  d_num (u_dec u) = Z.of_nat (length (sc_elems c)) /\ d_elp (u_dec u) = sc_elp c /\
  (forall i e, nth_error (sc_elems c) i = Some e ->
     nth_error (d_type (u_dec u)) i = Some (elem_type e) /\
     exists el, nth_error (d_elem (u_dec u)) i = Some el /\ holds_elem e el) /\
  d_prof (u_dec u) = sc_prof c.
