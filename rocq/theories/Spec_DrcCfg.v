(** * Spec_DrcCfg: what a DRC configuration says, independently of the parser

    Bit layout of ISO/IEC 23008-3 mpegh3daUniDrcConfig() (table names as in 23003-4) and
    what a decoder is to understand by it. *)

From Coq Require Import ZArith List Lia Bool.
From Verif Require Import Bits BitBuf Prog Spec_Asi DrcCfg.
Import ListNotations.
Open Scope Z_scope.

(** ** Gain sets *)
Record m_set := { ms_prof : Z; ms_full : bool; ms_align : bool;
                  ms_chars : list Z; ms_xover : bool; ms_borders : list Z }.

Definition n_bands (g : m_set) : Z := if ms_prof g =? 3 then 1 else Z.of_nat (length (ms_chars g)).

Definition enc_set (g : m_set) : list bool :=
  bits_of 2 (ms_prof g) ++ flag true ++ flag (ms_full g) ++ flag (ms_align g) ++ flag false ++
  (if ms_prof g =? 3 then [] else
   bits_of 4 (Z.of_nat (length (ms_chars g))) ++
   (if 1 <? Z.of_nat (length (ms_chars g)) then flag (ms_xover g) else []) ++
   concat (map (bits_of 7) (ms_chars g)) ++
   concat (map (bits_of (if ms_xover g then 4 else 10)) (ms_borders g))).

Definition valid_set (g : m_set) : Prop :=
  fits 2 (ms_prof g) /\
  if ms_prof g =? 3 then ms_chars g = [] /\ ms_borders g = [] /\ ms_xover g = false
  else (length (ms_chars g) <= 4)%nat /\ Forall (fits 7) (ms_chars g) /\
       length (ms_borders g) = Nat.pred (length (ms_chars g)) /\
       Forall (fits (if ms_xover g then 4 else 10)) (ms_borders g) /\
       ((length (ms_chars g) <= 1)%nat -> ms_xover g = false).

(** Borders that fit the decoder's field. *)
Definition narrow_set (g : m_set) : Prop := Forall (fun b => b < 128) (ms_borders g).

(** The stored gain set: sequences are numbered from [k]; [cut] is what happens to a
    border. *)
Definition stored_set (cut : Z -> Z) (k : Z) (m : m_set) (g : gset) : Prop :=
  gs_prof g = ms_prof m /\ gs_interp g = 1 /\ gs_full g = b2z (ms_full m) /\
  gs_align g = b2z (ms_align m) /\ gs_tflag g = 0 /\ gs_count g = n_bands m /\
  gs_btype g = b2z (ms_xover m) /\
  map snd (gs_bands g) = ms_chars m /\
  map fst (gs_bands g) = map (fun j => k + Z.of_nat j) (seq 0 (length (ms_chars m))) /\
  gs_edges g = map cut (ms_borders m).

Fixpoint stored_sets (cut : Z -> Z) (k : Z) (ms : list m_set) (gs : list gset) : Prop :=
  match ms, gs with
  | [], [] => True
  | m :: ms, g :: gs => stored_set cut k m g /\ stored_sets cut (k + n_bands m) ms gs
  | _, _ => False
  end.

Record m_coef := { mc_loc : Z; mc_sets : list m_set }.
Definition enc_coef (c : m_coef) : list bool :=
  bits_of 4 (mc_loc c) ++ flag false ++ bits_of 6 (Z.of_nat (length (mc_sets c))) ++
  concat (map enc_set (mc_sets c)).
Definition total_bands (l : list m_set) : Z := fold_right (fun g n => n_bands g + n) 0 l.
Definition valid_coef (c : m_coef) : Prop :=
  fits 4 (mc_loc c) /\ (length (mc_sets c) <= 24)%nat /\ Forall valid_set (mc_sets c) /\
  total_bands (mc_sets c) <= 24.
Definition stored_coef (cut : Z -> Z) (m : m_coef) (c : coef) : Prop :=
  co_loc c = mc_loc m /\ stored_sets cut 0 (mc_sets m) (co_sets c).

(** ** Instruction blocks *)
Inductive m_scope := EverySet | OfGroup (g : Z) | OfPreset (p : Z).
(** Scale factors in eighths; offset in quarters of a decibel, with sign. *)
Record m_mod := { mm_scale : option (Z * Z); mm_off : option (bool * Z) }.
(** One entry of the channel list: a value for one channel, or for [n + 2] channels. *)
Definition m_run (A : Type) : Type := A * option Z.
Definition expand {A} (l : list (m_run A)) : list A :=
  concat (map (fun r => fst r :: match snd r with None => [] | Some n => repeat (fst r) (Z.to_nat (n + 1)) end) l).
Inductive m_body :=
| Plain (runs : list (m_run (option Z))) (mods : list m_mod)
| Duck (runs : list (m_run (option Z * option (bool * Z)))).

Record m_instr := {
  mi_scope : m_scope; mi_set : Z; mi_loc : Z; mi_dmx : list Z; mi_effect : Z;
  mi_lim : option Z; mi_range : option (Z * option Z); mi_dep : option Z; mi_noind : bool;
  mi_body : m_body }.

Definition index_code (o : option Z) : Z := match o with None => 0 | Some k => k + 1 end.
Definition enc_more (o : option Z) : list bool :=
  match o with None => flag false | Some n => flag true ++ bits_of 5 n end.
Definition enc_mod (m : m_mod) : list bool :=
  (match mm_scale m with None => flag false | Some (a, b) => flag true ++ bits_of 4 a ++ bits_of 4 b end) ++
  (match mm_off m with None => flag false | Some (s, v) => flag true ++ flag s ++ bits_of 5 v end).
Definition enc_scaling (o : option (bool * Z)) : list bool :=
  match o with None => flag false | Some (s, v) => flag true ++ flag s ++ bits_of 3 v end.

Definition is_duck (e : Z) : bool := Z.testbit e 10 || Z.testbit e 11.

Definition enc_instr (i : m_instr) : list bool :=
  (match mi_scope i with
   | EverySet => flag false
   | OfGroup g => flag true ++ flag false ++ bits_of 7 g
   | OfPreset p => flag true ++ flag true ++ bits_of 5 p end) ++
  bits_of 6 (mi_set i) ++ bits_of 4 (mi_loc i) ++
  bits_of 7 (hd 0 (mi_dmx i)) ++
  (match tl (mi_dmx i) with
   | [] => flag false
   | t => flag true ++ bits_of 3 (Z.of_nat (length t)) ++ concat (map (bits_of 7) t) end) ++
  bits_of 16 (mi_effect i) ++
  (if is_duck (mi_effect i) then [] else
   match mi_lim i with None => flag false | Some v => flag true ++ bits_of 8 v end) ++
  (match mi_range i with
   | None => flag false
   | Some (u, l) => flag true ++ bits_of 6 (u + 63) ++
       match l with None => flag false | Some v => flag true ++ bits_of 6 (v + 63) end end) ++
  (match mi_dep i with None => flag false ++ flag (mi_noind i) | Some d => flag true ++ bits_of 6 d end) ++
  match mi_body i with
  | Plain runs mods =>
      concat (map (fun r => bits_of 6 (index_code (fst r)) ++ enc_more (snd r)) runs) ++
      concat (map enc_mod mods)
  | Duck runs =>
      concat (map (fun r => bits_of 6 (index_code (fst (fst r))) ++ enc_scaling (snd (fst r)) ++ enc_more (snd r)) runs)
  end.

Definition used_indices (l : list (option Z)) : list Z :=
  nodup Z.eq_dec (flat_map (fun o => match o with None => [] | Some k => [k] end) l).

Definition fits_opt (n : Z) (o : option Z) : Prop := match o with None => True | Some v => fits n v end.
Definition fits_signed5 (n : Z) (o : option (bool * Z)) : Prop := match o with None => True | Some (_, v) => fits n v end.
Definition index_in (n : Z) (o : option Z) : Prop := match o with None => True | Some k => 0 <= k < n end.

(** The channels the block is about, as in [Spec_Drc.spec_channels]. *)
Definition channels_of (dmxs : list (Z * Z)) (base : Z) (i : m_instr) : option Z :=
  if is_duck (mi_effect i) then Some base
  else match mi_dmx i with
       | [d] => if d =? 0 then Some base
                else if d =? 127 then Some 1
                else option_map snd (find (fun x => fst x =? d) dmxs)
       | _ => Some 1
       end.

(** Ducking of other channels names one gain set, ducking of the channel itself any. *)
Definition valid_duck (e : Z) (chs : list (option Z * option (bool * Z))) : Prop :=
  if Z.testbit e 11 then Z.testbit e 10 = false
  else exists k, (exists c, In c chs /\ fst c = Some k) /\ forall c j, In c chs -> fst c = Some j -> j = k.

(** The scaling of a ducked channel in eighths. *)
Definition scaling_of (o : option (bool * Z)) : Z :=
  match o with None => 8 | Some (true, v) => 8 - (1 + v) | Some (false, v) => 8 + (1 + v) end.

(** The number of groups a ducking block makes. *)
Definition n_groups (e : Z) (chs : list (option Z * option (bool * Z))) : nat :=
  if Z.testbit e 11 then
    length (nodup (fun a b : Z * Z => ltac:(decide equality; apply Z.eq_dec) : {a = b} + {a <> b})
      (flat_map (fun c => match fst c with None => [] | Some k => [(k, scaling_of (snd c))] end) chs))
  else
    length (nodup Z.eq_dec (flat_map (fun c => match fst c with None => [scaling_of (snd c)] | Some _ => [] end) chs)).

Definition valid_instr (dmxs : list (Z * Z)) (base : Z) (cs : list m_coef) (i : m_instr) : Prop :=
  (match mi_scope i with EverySet => True | OfGroup g => fits 7 g | OfPreset p => fits 5 p end) /\
  0 <= mi_set i < 32 /\ fits 4 (mi_loc i) /\
  (1 <= length (mi_dmx i) <= 8)%nat /\ Forall (fits 7) (mi_dmx i) /\
  fits 16 (mi_effect i) /\ fits_opt 8 (mi_lim i) /\
  (is_duck (mi_effect i) = true -> mi_lim i = None) /\
  (match mi_range i with None => True | Some (u, l) => -63 <= u <= 0 /\ match l with None => True | Some v => -63 <= v <= 0 end end) /\
  (match mi_dep i with None => True | Some d => fits 6 d /\ hd 0 (mi_dmx i) <> 0 /\ mi_noind i = false end) /\
  (exists c, In c cs /\ mc_loc c = mi_loc i /\
    match mi_body i with
    | Plain runs mods =>
        is_duck (mi_effect i) = false /\
        Forall (fun r => index_in (Z.of_nat (length (mc_sets c))) (fst r) /\ fits_opt 5 (snd r)) runs /\
        channels_of dmxs base i = Some (Z.of_nat (length (expand runs))) /\
        (length (expand runs) <= 16)%nat /\
        Forall (fun m => match mm_scale m with None => True | Some (a, b) => fits 4 a /\ fits 4 b end /\
                         fits_signed5 5 (mm_off m)) mods /\
        length mods = length (used_indices (expand runs)) /\
        (hd 0 (mi_dmx i) <> 0 -> length mods = 1%nat)
    | Duck runs =>
        is_duck (mi_effect i) = true /\
        Forall (fun r => index_in (Z.of_nat (length (mc_sets c))) (fst (fst r)) /\
                         fits_signed5 3 (snd (fst r)) /\ fits_opt 5 (snd r)) runs /\
        valid_duck (mi_effect i) (expand runs) /\
        base = Z.of_nat (length (expand runs)) /\
        (hd 0 (mi_dmx i) <> 0 -> n_groups (mi_effect i) (expand runs) = 1%nat)
    end).

Definition index_of (o : option Z) : Z := match o with None => -1 | Some k => k end.

(** The stored block.  How the channels are grouped is said by [Spec_Drc.groups_right]. *)
Definition stored_instr (tdef : Z) (cs : list m_coef) (m : m_instr) (i : instr) : Prop :=
  (match mi_scope m with
   | EverySet => in_type i = 0
   | OfGroup g => in_type i = 2 /\ in_group i = g
   | OfPreset p => in_type i = 3 /\ in_preset i = p end) /\
  in_set i = mi_set m /\ in_loc i = mi_loc m /\ in_dmx i = mi_dmx m /\ in_effect i = mi_effect m /\
  in_lim i = (match mi_lim m with None => -1 | Some v => v end) /\
  (match mi_range m with
   | None => in_tflag i = 0
   | Some (u, l) => in_tflag i = 1 /\ in_upper i = u /\ in_lower i = match l with None => -63 | Some v => v end end) /\
  (match mi_dep m with None => in_dep i = -1 /\ in_noind i = b2z (mi_noind m) | Some d => in_dep i = d end) /\
  exists c, In c cs /\ mc_loc c = mi_loc m /\
  (match mi_body m with
   | Plain runs mods =>
       in_gsi i = map index_of (expand runs) /\
       map (fun g => (gm_att g, gm_amp g)) (in_mods i) =
         map (fun x => match mm_scale x with None => (8, 8) | Some p => p end) mods /\
       map gm_off (in_mods i) =
         map (fun x => match mm_off x with None => 0 | Some (true, v) => - (1 + v) | Some (false, v) => 1 + v end) mods /\
       Forall2 (fun g k => exists s, nth_error (mc_sets c) (Z.to_nat k) = Some s /\ gm_bands g = n_bands s)
         (in_mods i) (in_sets i)
   | Duck runs =>
       in_gsi i = map (fun x => index_of (fst x)) (expand runs) /\
       in_duck i = map (fun x => scaling_of (snd x)) (expand runs)
   end) /\
  Forall2 (fun d k => exists s, nth_error (mc_sets c) (Z.to_nat k) = Some s /\
      gd_interp d = 1 /\ gd_tmin d = tdef /\ gd_align d = b2z (ms_align s) /\
      gd_bands d = (if is_duck (mi_effect m) then 1 else n_bands s)) (in_der i) (in_sets i).

(** ** The configuration *)
Record m_cfg := { mf_base : Z; mf_coefs : list m_coef; mf_instr : list m_instr;
                  mf_ext : option (Z * Z * list bool) }.
Definition enc_cfg (m : m_cfg) : list bool :=
  bits_of 3 (Z.of_nat (length (mf_coefs m))) ++ bits_of 6 (Z.of_nat (length (mf_instr m))) ++
  bits_of 7 (mf_base m) ++
  concat (map enc_coef (mf_coefs m)) ++ concat (map enc_instr (mf_instr m)) ++
  (match mf_ext m with
   | None => flag false
   | Some (ty, l, payload) => flag true ++ bits_of 4 ty ++ bits_of 4 l ++
       bits_of (Z.to_nat (l + 4)) (Z.of_nat (length payload) - 1) ++ payload ++ bits_of 4 0
   end) ++
  flag false.
Definition valid_cfg (dmxs : list (Z * Z)) (m : m_cfg) : Prop :=
  (length (mf_coefs m) <= 4)%nat /\ (length (mf_instr m) <= 30)%nat /\ 0 <= mf_base m <= 16 /\
  Forall valid_coef (mf_coefs m) /\ NoDup (map mc_loc (mf_coefs m)) /\
  Forall (valid_instr dmxs (mf_base m) (mf_coefs m)) (mf_instr m) /\
  match mf_ext m with
  | None => True
  | Some (ty, l, payload) => 0 < ty < 16 /\ fits 4 l /\ 1 <= Z.of_nat (length payload) <= 2 ^ (l + 4)
  end.
Definition stored_cfg (cut : Z -> Z) (tdef : Z) (m : m_cfg) (c : drccfg) : Prop :=
  dc_base c = mf_base m /\
  Forall2 (stored_coef cut) (mf_coefs m) (dc_coefs c) /\
  Forall2 (stored_instr tdef (mf_coefs m)) (mf_instr m) (dc_instr c).
Definition narrow_cfg (m : m_cfg) : Prop :=
  Forall (fun c => Forall narrow_set (mc_sets c)) (mf_coefs m).
