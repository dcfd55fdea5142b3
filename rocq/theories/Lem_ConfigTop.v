(** * Lem_ConfigTop: round trip of whole stream configurations, with all parts *)

From Coq Require Import ZArith List Lia Bool.
From Verif Require Import Bits BitBuf BitWrite Prog Asi Escape Wp Wlp Loops Frame Cicp Hoa Mhas Config Leaf Spec_Config
  Spec_Asi Lem_MhasProps Lem_Config Lem_ConfigSafe Lem_Hoa Lem_HoaMat Lem_ConfigMem Lem_Dmx Lem_Scan Lem_AsiRT
  Lem_ConfigRT Spec_ConfigFull Lem_ConfigFull Lem_ConfigElem Lem_ConfigAll Spec_Flex Lem_Flex.
Import ListNotations.
Open Scope Z_scope.

Lemma last_of_app {A B} (f : A -> option B) l m :
  last_of f (l ++ m) = match last_of f m with Some y => Some y | None => last_of f l end.
Proof.
  induction m as [|x m IH] using rev_ind.
  - rewrite app_nil_r, last_of_nil. reflexivity.
  - rewrite app_assoc, !last_of_snoc. destruct (f x); [reflexivity|exact IH].
Qed.
Definition has {A B} (f : A -> option B) (x : A) : bool := match f x with Some _ => true | _ => false end.
Lemma last_of_none {A B} (f : A -> option B) l : filter (has f) l = [] -> last_of f l = None.
Proof.
  induction l as [|x l IH] using rev_ind; [reflexivity|]. rewrite filter_app, last_of_snoc. cbn [filter]. unfold has at 2.
  intros H. apply app_eq_nil in H. destruct H as [H1 H2]. destruct (f x); [discriminate|]. auto.
Qed.
Lemma last_of_one {A B} (f : A -> option B) l i x y : (length (filter (has f) l) <= 1)%nat ->
  nth_error l i = Some x -> f x = Some y -> last_of f (firstn i l) = None /\ last_of f l = Some y.
Proof.
  intros L H F. destruct (nth_error_split _ _ H) as (a & b & -> & <-).
  rewrite filter_app, app_length in L. cbn [filter] in L. unfold has at 2 in L. rewrite F in L. cbn [length] in L.
  assert (N1 : filter (has f) a = []) by (destruct (filter (has f) a); [reflexivity|cbn in L; lia]).
  assert (N2 : filter (has f) b = []) by (destruct (filter (has f) b); [reflexivity|cbn in L; lia]).
  rewrite firstn_app, Nat.sub_diag, firstn_all. cbn [firstn]. rewrite app_nil_r.
  split; [apply last_of_none; exact N1|].
  change (x :: b) with ([x] ++ b). rewrite !last_of_app, (last_of_none f b N2). unfold last_of at 1. cbn. rewrite F. reflexivity.
Qed.

Record exts_inv (cicp : Z) (u0 : ucfg) (xs : list cext) (i : nat) (u : ucfg) : Prop := {
  ei_dim : cdim u; ei_u : cuproj u = cuproj u0; ei_d : cdproj (u_dec u) = cdproj (u_dec u0);
  ei_rest : forall j, (i <= j < 5)%nat -> nth_error (d_cfgp (u_dec u)) j = Some 0 /\ nth_error (d_cfgl (u_dec u)) j = Some 0;
  ei_all : forall j x, (j < i)%nat -> nth_error xs j = Some x -> holds_cext x j (u_dec u);
  ei_dmx : when (last_of dmx_of (firstn i xs)) (fun l => d_dmxp (u_dec u) = 1 /\ holds_dmx cicp l (d_dmx (u_dec u)));
  ei_scene : match last_of scene_of (firstn i xs) with Some s => u_asip u = 1 /\ holds_scene s (u_asi u)
    | None => u_asi u = u_asi u0 end;
  ei_comp : match last_of compat_of (firstn i xs) with Some l => comp_is l (u_dec u)
    | None => d_compp (u_dec u) = d_compp (u_dec u0) /\ d_compat (u_dec u) = d_compat (u_dec u0) end }.

Lemma holds_ctabs x j d d' : ctabs d' j = ctabs d j -> holds_cext x j d -> holds_cext x j d'.
Proof. unfold ctabs. intros E. inversion E as [[E1 E2 E3 E4]]. unfold holds_cext. rewrite E1, E2, E3, E4. auto. Qed.

Lemma exts_run cicp u xs rest : (length xs <= 5)%nat -> cdim u -> Forall valid_cext xs ->
  (length (filter (has scene_of) xs) <= 1)%nat ->
  (forall j, (j < 5)%nat -> nth_error (d_cfgp (u_dec u)) j = Some 0 /\ nth_error (d_cfgl (u_dec u)) j = Some 0) ->
  shape (u_asi u) ->
  (forall s, last_of scene_of xs = Some s -> preset_checks s (a_groups (u_asi u)) /\ (a_ns (u_asi u) <= 0 \/ d_elp (u_dec u) = 1)) ->
  exists u', runA (forE (length xs) 0 (config_ext_one cicp) u) (concat (map enc_cext xs) ++ rest) = Done ((0, u'), rest) /\
    exts_inv cicp u xs (length xs) u'.
Proof.
  intros L D V F Z0 SH SC.
  destruct (forE_tab (config_ext_one cicp) enc_cext (exts_inv cicp u xs) xs)
    with (ys := xs) (i := 0%nat) (t := u) (rest := rest) as (t & E & I); [|reflexivity| |exists t; split; [exact E|exact I]].
  - intros i t x r Hx [ID IU IDD IR IA IM IS IC].
    assert (Hi : (i < length xs)%nat) by (apply nth_error_Some; congruence).
    destruct (IR i ltac:(lia)) as [R1 R2].
    destruct (cext_run cicp i t x r ltac:(lia) ID (nth_error_Forall _ _ _ _ V Hx) R1 R2) as (t' & E & [sd su sdd st sh sm ss sc]).
    { intros s Hs. destruct (last_of_one scene_of xs i x s F Hx Hs) as [N1 N2]. rewrite N1 in IS. rewrite IS.
      destruct (SC s N2) as [SC1 SC2]. split; [exact SH|]. split; [exact SC1|].
      assert (EL : d_elp (u_dec t) = d_elp (u_dec u)) by (unfold cdproj in IDD; inversion IDD; congruence). rewrite EL. exact SC2. }
    exists t'. split; [exact E|].
    assert (SN := firstn_snoc_err xs i x Hx).
    constructor; try congruence; auto; try rewrite SN, last_of_snoc.
    + intros j Hj. assert (T := st j ltac:(lia)). unfold ctabs in T. inversion T as [[T1 T2 T3 T4]]. rewrite T2, T3. apply IR. lia.
    + intros j y Hj Hy. destruct (Nat.eq_dec j i) as [->|Ne].
      * rewrite Hx in Hy. injection Hy as <-. exact sh.
      * apply (holds_ctabs _ _ _ _ (st j Ne)). apply IA; [lia|exact Hy].
    + destruct (dmx_of x); [exact sm|]. destruct sm as [-> ->]. exact IM.
    + destruct (scene_of x); [exact ss|]. destruct ss as [-> ->]. exact IS.
    + destruct (compat_of x); [exact sc|]. unfold comp_is. destruct sc as [-> ->]. exact IC.
  - constructor; cbn [firstn]; rewrite ?last_of_nil; cbn; auto; [intros j Hj; apply Z0; lia|intros; lia].
Qed.

(** ** The reference layout *)
Record spk_inv (l0 : layout) (vs : list Z) (i : nat) (l : layout) : Prop := {
  si_len : length (l_spk l) = 24%nat; si_t : l_type l = l_type l0; si_n : l_num l = l_num l0; si_i : l_idx l = l_idx l0;
  si_v : firstn i (l_spk l) = firstn i vs }.
Lemma spk_run l vs rest : (length vs <= 24)%nat -> Forall (fun v => 0 <= v <= 42) vs -> length (l_spk l) = 24%nat ->
  exists l', runA (spk_list l (Z.of_nat (length vs))) (concat (map (bits_of 7) vs) ++ rest) = Done ((0, l'), rest) /\
    spk_inv l vs (length vs) l'.
Proof.
  intros L V HL. unfold spk_list. rewrite Nat2Z.id.
  match goal with |- context [forE _ _ ?b _] => set (body := b) end.
  destruct (forE_tab body (bits_of 7) (spk_inv l vs) vs) with (ys := vs) (i := 0%nat) (t := l) (rest := rest) as (t & E & I);
    [|reflexivity| |exists t; split; [exact E|exact I]].
  - intros i t v r Hv [A B C D F]. assert (Hi : (i < length vs)%nat) by (apply nth_error_Some; congruence).
    assert (HV := nth_error_Forall _ _ _ _ V Hv). cbv beta in HV.
    unfold body. rewrite (runA_rdb 7 7) by lia. rewrite runA_aset by lia. rewrite Nat2Z.id. cbv zeta.
    destruct (Z.ltb_spec 42 v); [lia|]. eexists. split; [reflexivity|].
    constructor; cbn -[firstn skipn app]; auto.
    + rewrite set_len; lia.
    + rewrite firstn_aset by lia. rewrite F. symmetry. apply firstn_snoc_err. exact Hv.
  - constructor; auto.
Qed.

Lemma ref_run l r rest : lay_ok l -> valid_reflay r -> match r with RFlex _ _ => unused l | _ => True end ->
  exists l', runA (ref_layout l) (enc_reflay r ++ rest) = Done ((0, l'), rest) /\ holds_reflay r l' /\ l_type l' <> 3 /\
    l_idx l' = layout_name r (l_idx l).
Proof.
  intros LO V UU. destruct r as [i|vs|fine xs].
  3:{ destruct V as (V1 & V2 & V3). destruct (ref_flex_run fine xs l rest LO UU V1 V2 V3) as (l' & E & A & B & D & F & _).
    exists l'. cbn [enc_reflay holds_reflay layout_name]. repeat split; auto; try apply D; lia. }
  all: destruct LO as [O1 O2 O3]; unfold ref_layout; cbv zeta; cbn [enc_reflay valid_reflay holds_reflay] in *; rewrite <- !app_assoc.
  - rewrite (runA_rdb 2 2) by lia. change (negb (0 =? 0)) with false. cbv iota. rewrite (runA_rdb 6 6) by lia.
    destruct (Z.leb_spec i 0); [lia|]. destruct (Z.ltb_spec 20 i); [lia|]. cbn [orb runA].
    eexists. split; [reflexivity|]. cbn. repeat split; lia.
  - destruct V as [V1 V2]. rewrite (runA_rdb 2 2) by lia. change (negb (1 =? 0)) with true. cbv iota.
    rewrite (read_escape_enc 5 8 16) by (try (cbn; lia); change (esc_max 5 8 16) with 65821; lia).
    replace (Z.of_nat (length vs) - 1 + 1) with (Z.of_nat (length vs)) by lia.
    destruct (Z.ltb_spec 24 (Z.of_nat (length vs))); [lia|]. change (1 =? 2) with false. change (1 =? 1) with true. cbv iota.
    cbn [l_num s_l_num].
    destruct (spk_run (s_l_num (s_l_type l 1) (Z.of_nat (length vs))) vs rest) as (l' & E & [A B C D F]); [lia|exact V2|exact O1|].
    exists l'. split; [exact E|]. rewrite firstn_all in F. cbn in B, C, D. repeat split; auto; lia.
Qed.

(** ** Level limits and element restrictions *)
Lemma limit_check2 p core ref gch ghoa lim : level_limit p = Some lim -> core <= lim -> ref <= lim ->
  (16 < core \/ 16 < ref -> gch = 0 /\ ghoa = 0) -> profile_check p core ref gch ghoa = 0.
Proof.
  unfold level_limit, profile_check. intros H H1 H2 H3.
  destruct ((p =? 11) || (p =? 16)) eqn:E1.
  { injection H as <-. destruct (Z.ltb_spec 5 core); [lia|]. destruct (Z.ltb_spec 5 ref); [lia|]. reflexivity. }
  destruct ((p =? 12) || (p =? 17)) eqn:E2.
  { injection H as <-. destruct (Z.ltb_spec 9 core); [lia|]. destruct (Z.ltb_spec 9 ref); [lia|]. reflexivity. }
  destruct ((p =? 13) || (p =? 18)) eqn:E3; [|discriminate]. rewrite orb_comm in E3. rewrite E3. injection H as <-.
  destruct (Z.ltb_spec 24 core); [lia|]. destruct (Z.ltb_spec 24 ref); [lia|]. cbn [orb].
  destruct (Z.ltb_spec 16 core) as [C|C], (Z.ltb_spec 16 ref) as [R|R]; cbn [andb orb]; try reflexivity;
    destruct H3 as [-> ->]; auto.
Qed.
Lemma no_groups t (gs : list (Z * Z)) : Forall (fun g => fst g = 1) gs -> t <> 1 -> groups_of t (map fst gs) = 0.
Proof.
  induction 1 as [|g gs E _ IH]; intros N; [reflexivity|]. cbn [map groups_of]. rewrite IH by exact N.
  destruct (Z.eqb_spec (fst g) t); [congruence|reflexivity].
Qed.

Lemma simple_allowed n cn e i d : valid_felem n cn i e -> simple_felem e -> holds_felem e i d -> elem_allowed d i = true.
Proof.
  intros VE V [H1 H2]. unfold elem_allowed. rewrite (nth_error_nth _ _ _ H1).
  destruct e as [t|t sh ls| |x]; cbn [simple_felem ftype] in *; try contradiction.
  - destruct H2 as (el & E & HT). rewrite (nth_error_nth _ _ _ E). change (0 =? 0) with true. cbv iota.
    destruct V as [V1 V2]. unfold holds_tools in HT. rewrite V1, V2 in HT.
    destruct HT as (_ & _ & -> & ->). reflexivity.
  - change (3 =? 0) with false. change (3 =? 3) with true. cbv iota. destruct H2 as [E _].
    rewrite (nth_error_nth _ _ _ E). cbn [valid_felem] in VE. unfold valid_ext in VE.
    destruct (xe_kind x) as [ | | | | | | | |ty bs]; cbn [xtype]; try contradiction; try reflexivity.
    destruct (Z.eqb_spec ty 9) as [->|]; [|reflexivity]. exfalso. destruct VE as (VE & _). cbn [valid_kind] in VE.
    destruct VE as (_ & _ & VE). apply VE. unfold known_types. cbn. auto 12.
Qed.

(** Without the extensions. *)
Definition base (c : fcfg) (u : ucfg) : Prop :=
  u_freq u = rate_of (fc_rate c) /\ u_sfi u = rate_index (rate_of (fc_rate c)) /\ u_flen u = fc_flen c /\ u_rdc u = fc_rdc c /\
  holds_reflay (fc_lay c) (u_ref u) /\
  q_num (u_sig u) = Z.of_nat (length (fc_groups c)) /\
  firstn (length (fc_groups c)) (q_type (u_sig u)) = map fst (fc_groups c) /\
  firstn (length (fc_groups c)) (q_nsig (u_sig u)) = map snd (fc_groups c) /\
  q_ch (u_sig u) = total 0 (fc_groups c) /\ q_obj (u_sig u) = total 1 (fc_groups c) /\
  q_hoa (u_sig u) = total 3 (fc_groups c) /\
  d_num (u_dec u) = Z.of_nat (length (fc_elems c)) /\ d_elp (u_dec u) = fc_elp c /\
  (forall i e, nth_error (fc_elems c) i = Some e -> holds_felem e i (u_dec u)) /\
  when (last_of obj_of (fc_elems c)) (fun o => holds_obj o (u_oam u)) /\
  when (last_of enh_of (fc_elems c)) (fun e => holds_enh e (u_enh u) /\ u_enhp u = 1) /\
  when (last_of prod_of (fc_elems c)) (fun p => holds_prod p (u_prod u)) /\
  when (last_of hoa_of (fc_elems c)) (fun h => holds_hoa (total 3 (fc_groups c)) h (d_hoa (u_dec u))).
Definition eproj (u : ucfg) :=
  (u_freq u, u_sfi u, u_flen u, u_rdc u, u_ref u, (q_num (u_sig u), q_type (u_sig u), q_nsig (u_sig u), q_ch (u_sig u), q_obj (u_sig u), q_hoa (u_sig u)),
   (d_num (u_dec u), d_elp (u_dec u), d_type (u_dec u), d_etype (u_dec u), d_elem (u_dec u), d_plen (u_dec u), d_ppres (u_dec u),
    d_pbuf (u_dec u), d_hoa (u_dec u)), (u_oam u, u_enh u, u_enhp u, u_prod u)).
Lemma base_same c u u' : eproj u' = eproj u -> base c u -> base c u'.
Proof.
  unfold eproj. intros E. injection E as e1 e2 e3 e4 e5 e6 e7 e8 e9 e10 e11 e12 e13 e14 e15 e16 e17 e18 e19 e20 e21 e22 e23 e24.
  unfold base, holds_felem, holds_ext.
  rewrite e1, e2, e3, e4, e5, e6, e7, e8, e9, e10, e11, e12, e13, e14, e15, e16, e17, e18, e19, e20, e21, e22, e23, e24. auto.
Qed.

Lemma rate_index_ok f : 0 < f -> find_idx sample_freq_idx_tbl f 0 = rate_index f.
Proof.
  intros H. unfold sample_freq_idx_tbl, rate_index. cbn [find_idx]. rewrite !(Z.eqb_sym f).
  destruct (Z.eqb_spec (-1) f); [lia|]. destruct (Z.eqb_spec 0 f); [lia|].
  repeat match goal with |- context [Z.eqb ?k f] => destruct (Z.eqb_spec k f); [reflexivity|] end.
  reflexivity.
Qed.

(** All but the profile level. *)
Definition stored (cicp : Z) (c : fcfg) (u : ucfg) : Prop :=
  base c u /\
  (fc_exts c <> [] -> d_cfgn (u_dec u) = Z.of_nat (length (fc_exts c)) /\ d_cicp (u_dec u) = cicp) /\
  (forall j x, nth_error (fc_exts c) j = Some x -> holds_cext x j (u_dec u)) /\
  when (last_of dmx_of (fc_exts c)) (fun l => d_dmxp (u_dec u) = 1 /\ holds_dmx cicp l (d_dmx (u_dec u))) /\
  when (last_of scene_of (fc_exts c)) (fun s => u_asip u = 1 /\ holds_scene s (u_asi u)).
Lemma stored_prof cicp c u v b : stored cicp c u -> v = level_used (fc_prof c) (fc_exts c) ->
  holds_fconfig cicp c (s_u_dec (s_u_3b u b) (s_d_prof (u_dec u) v)).
Proof. unfold stored, base, holds_fconfig, holds_felem, holds_ext, holds_cext. intros H ->. cbn. intuition. Qed.

Lemma fconfig_run user u c rest : cfg_ok u -> 0 <= user <= 20 -> valid_fconfig c -> fits_before c u ->
  exists u', runA (mpegh_3da_config user u) (enc_fconfig c ++ rest) = Done ((0, u'), rest) /\
    holds_fconfig (if user =? 0 then layout_name (fc_lay c) (l_idx (u_ref u)) else user) c u'.
Proof.
  intros C HU (V1 & V2 & V3 & V4 & V5 & V6 & V7 & V8 & V9 & V10 & V11 & V12 & V13 & V14 & lim & V15 & V16 & V17 & V18) (FB1 & FB0 & FB2).
  unfold is_bit in *. unfold fc_core in V16, V18.
  assert (G0 := total_ge 0 _ V7). assert (G1 := total_ge 1 _ V7). assert (G3 := total_ge 3 _ V7).
  assert (LM : lim <= 24).
  { unfold level_limit in V15. repeat match type of V15 with context [if ?b then _ else _] => destruct b end;
      inversion V15; lia. }
  assert (RR := rate_range (fc_rate c) V1).
  unfold mpegh_3da_config, enc_fconfig. cbv zeta. rewrite <- !app_assoc. rewrite (runA_rdb 8 8) by lia.
  rewrite rate_run by exact V1.
  destruct (Z.ltb_spec 48000 (rate_of (fc_rate c))); [lia|]. destruct (Z.eqb_spec (rate_of (fc_rate c)) 0); [lia|]. cbn [orb].
  rewrite (runA_rdb 3 3) by lia. destruct (Z.ltb_spec 4 (fc_flen c)); [lia|].
  rewrite (runA_skipb 1 _ (bits_of 1 0)) by reflexivity.
  rewrite (runA_rdb 1 1) by lia.
  cbn [u_ref s_u_rdc s_u_flen s_u_sfi s_u_freq s_u_fidx s_u_3b].
  rewrite runA_bind.
  edestruct (ref_run (u_ref u) (fc_lay c)) as (l' & EL & HL & HL3 & HLi); [destruct C; exact cg_ref|exact V5|exact FB0|rewrite EL].
  cbv beta iota. change (negb (0 =? 0)) with false. cbv iota.
  match goal with |- context [signals ?x user] => set (u0 := x) end.
  rewrite runA_bind.
  edestruct (signals_run2 u0 user (fc_groups c)) as (u1 & E1 & N1 & I1); [exact V6|exact V7|lia|lia|lia| | | |rewrite E1].
  { destruct C. exact cg_sig. } { exact HL3. } { exact V8. }
  cbv beta iota. change (negb (0 =? 0)) with false. cbv iota.
  destruct I1 as [KU [h KD] KN lt ln ld Ty Ns CH OB HO NO GC GO GH NT]. rewrite firstn_all in *.
  unfold uproj2 in KU. cbn -[find_idx sample_freq_idx_tbl] in KU. injection KU as k1 k2 k3 k4 k5 k6 k7 k8 k9 k10 k11 k12 k13.
  assert (K3 : u_sfi u1 = rate_index (rate_of (fc_rate c))) by (rewrite <- rate_index_ok by lia; exact k3).
  rewrite k6.
  assert (RF : forall r, runA (if l_type l' =? 0 then aget num_ls_tbl (l_idx l') else Ret (l_num l')) r = Done (reflay_ch (fc_lay c), r)).
  { intros r. destruct (fc_lay c) as [i|vs|fine xs]; cbn [holds_reflay valid_reflay reflay_ch] in *.
    - destruct HL as [-> ->]. change (0 =? 0) with true. cbv iota.
      unfold aget. destruct (Z.leb_spec 0 i); [|lia]. rewrite num_ls_get by lia. reflexivity.
    - destruct HL as (-> & -> & _). reflexivity.
    - destruct HL as (-> & -> & _). reflexivity. }
  rewrite runA_bind, RF. cbv beta iota.
  unfold decoder_config. cbv zeta. rewrite bind_assoc.
  rewrite enc_esc by lia.
  replace (Z.of_nat (length (fc_elems c)) - 1 + 1) with (Z.of_nat (length (fc_elems c))) by lia.
  destruct (Z.ltb_spec 50 (Z.of_nat (length (fc_elems c)))); [lia|].
  rewrite bind_assoc, (runA_rdb 1 1) by lia. rewrite runA_bind, Nat2Z.id.
  match goal with |- context [forE _ 0 dec_element ?x] => set (u2 := x) end.
  destruct C as [cs cr cd c1 c2 c3 c4 c5 c6 ca]. destruct cd as [d1 d2 d3 d4 d5 d6 d7 d8 d9 d10 d11 d12 d13 d14 d15 d16 d17].
  edestruct (felems_run (fc_counts c) (fc_core c) u2 (fc_elems c)) as (u3 & E3 & [ID IU IDD IN IA IO IE IP IH]); [lia| | | |exact V10|rewrite E3].
  { unfold u2. constructor; cbn; rewrite ?KD; cbn; rewrite ?k7, ?k8, ?k10; auto. rewrite repeat_length. auto. }
  { unfold u2, fc_counts. constructor; cbn; auto; try lia.
    - pose proof (groups_of_range 1 (map fst (fc_groups c))) as X. rewrite map_length in X. lia.
    - pose proof (groups_of_range 0 (map fst (fc_groups c))) as X. rewrite map_length in X. lia. }
  { unfold u2, fc_core. cbn. lia. }
  cbv beta iota. change (negb (0 =? 0)) with false. cbv iota.
  unfold uproj in IU. injection IU as w1 w2 w3 w4 w5 w6 w7 w8 w9 w10 w11 w12 w13 w14.
  unfold dproj in IDD. injection IDD as p1 p2 p3 p4 p5 p6 p7 p8 p9 p10 p11 p12 p13 p14 p15 p16 p17 p18.
  unfold u2 in w1, w2, w3, w4, w5, w6, w7, w8, w9, w10, w11, w12, w13, w14, p1, p2, p3, p4, p5, p6, p7, p8, p9, p10, p11, p12, p13, p14, p15, p16, p17, p18.
  cbn in w1, w2, w3, w4, w5, w6, w7, w8, w9, w10, w11, w12, w13, w14, p1, p2, p3, p4, p5, p6, p7, p8, p9, p10, p11, p12, p13, p14, p15, p16, p17, p18.
  rewrite KD in *. cbn in p3, p4, p5, p6, p7, p8, p9, p10, p11, p12, p13, p14, p15, p16, p17, p18.
  set (core := q_hoa (u_sig u1) + q_obj (u_sig u1) + q_ch (u_sig u1)) in *.
  assert (EC : core = total 0 (fc_groups c) + total 1 (fc_groups c) + total 3 (fc_groups c)) by (unfold core; lia).
  assert (AL : ((16 <? core) || (16 <? reflay_ch (fc_lay c))) &&
     negb (forallb (elem_allowed (u_dec u3)) (seq 0 (Z.to_nat (d_num (u_dec u3))))) = false).
  { destruct ((16 <? core) || (16 <? reflay_ch (fc_lay c))) eqn:B; [|reflexivity]. cbn [andb].
    destruct V18 as [V18 _]; [lia|]. rewrite p1, Nat2Z.id. apply negb_false_iff, forallb_forall. intros i Hi. apply in_seq in Hi.
    destruct (nth_error_Some_ex (fc_elems c) i ltac:(lia)) as [e He].
    apply (simple_allowed _ _ e i _ (V10 i e He)); [exact (nth_error_Forall _ _ _ _ V18 He)|]. apply IA; [lia|exact He]. }
  rewrite AL.
  set (cicp := if user =? 0 then layout_name (fc_lay c) (l_idx (u_ref u)) else user).
  assert (FIN : forall u4, stored cicp c u4 ->
    profile_used (fc_prof c) (d_compp (u_dec u4)) (d_compat (u_dec u4)) = level_used (fc_prof c) (fc_exts c) ->
    exists u' : ucfg, runA (if fc_prof c <? 11 then Ret (E_PROFILE, u4) else
       let d := u_dec u4 in
       let p := profile_used (fc_prof c) (d_compp d) (d_compat d) in
       let u := if negb (d_compp d =? 0) && bp_supported (d_compat d) && (16 <? core) then s_u_3b u4 1 else u4 in
       let e := profile_check p core (reflay_ch (fc_lay c)) (q_gch (u_sig u1)) (q_ghoa (u_sig u1)) in
       if negb (e =? 0) then Ret (e, u) else
       let u := if (16 <=? p) && (p <=? 18) && (16 <? core) then s_u_3b u 0 else u in
       Ret (0, s_u_dec u (s_d_prof d p))) rest = Done ((0, u'), rest) /\ holds_fconfig cicp c u').
  { intros u4 HS HP. cbv zeta. destruct (Z.ltb_spec (fc_prof c) 11); [lia|]. rewrite HP.
    rewrite (limit_check2 _ _ _ _ _ lim V15); [|lia|lia|].
    2:{ intros B. destruct V18 as [_ V18]; [lia|]. rewrite GC, GH, !no_groups by (auto; lia). auto. }
    change (negb (0 =? 0)) with false. cbv iota. cbn [runA].
    assert (U3 : s_u_3b u4 (u_3b u4) = u4) by (destruct u4; reflexivity).
    destruct ((16 <=? _) && _ && _), (negb _ && _ && _); (eexists; split; [reflexivity|]).
    - exact (stored_prof cicp c u4 _ 0 HS eq_refl).
    - exact (stored_prof cicp c u4 _ 0 HS eq_refl).
    - exact (stored_prof cicp c u4 _ 1 HS eq_refl).
    - rewrite <- U3 at 1. exact (stored_prof cicp c u4 _ _ HS eq_refl). }
  assert (BS : base c u3).
  { unfold base. rewrite w2, w3, w4, w5, w6, w8, p1, p2, k2, K3, k4, k5, k6, Ty, Ns. rewrite firstn_all in *.
    repeat match goal with |- _ /\ _ => split end; auto; try lia.
    intros i e He. apply IA; [apply nth_error_Some; congruence|exact He]. }
  destruct (fc_exts c) as [|x0 xs] eqn:EX.
  - cbn [app]. rewrite (runA_rdb 1 1) by lia. change (negb (0 =? 0)) with false. cbv iota.
    assert (F4 : forall f, stored cicp c (s_u_sig u3 (s_q_fce (u_sig u3) f)) /\ stored cicp c u3).
    { intros f. unfold stored. rewrite EX, !last_of_nil. cbn [when].
      split; (split; [apply (base_same c u3); [reflexivity|exact BS]|]); (split; [congruence|]); (split; [|auto]);
        intros j x Hx; destruct j; discriminate. }
    assert (P4 : profile_used (fc_prof c) (d_compp (u_dec u3)) (d_compat (u_dec u3)) = level_used (fc_prof c) []).
    { rewrite p17, FB1. reflexivity. }
    destruct (1 <? q_gch (u_sig u3)); cbn [bind]; cbv beta iota; change (negb (0 =? 0)) with false; cbv iota; apply FIN; auto; apply (F4 1).
  - set (ys := x0 :: xs) in *. rewrite <- !app_assoc, (runA_rdb 1 1) by lia. change (negb (1 =? 0)) with true. cbv iota.
    assert (EI : (if negb (user =? 0) then user else l_idx (u_ref u3)) = cicp).
    { unfold cicp. rewrite w6, k6, HLi. destruct (user =? 0); reflexivity. }
    rewrite EI.
    assert (CR : 0 <= cicp <= 20).
    { unfold cicp. destruct cr. destruct (user =? 0); [|lia]. destruct (fc_lay c); cbn [valid_reflay layout_name] in *; lia. }
    destruct (Z.ltb_spec cicp 0); [lia|]. destruct (Z.ltb_spec 20 cicp); [lia|]. cbn [orb].
    unfold config_extension. cbv zeta. rewrite !bind_assoc.
    assert (LY : (1 <= length ys <= 5)%nat) by (unfold ys in *; cbn [length] in *; lia).
    rewrite (read_escape_enc 2 4 8) by (try (cbn; lia); change (esc_max 2 4 8) with 273; lia).
    replace (Z.of_nat (length ys) - 1 + 1) with (Z.of_nat (length ys)) by lia.
    destruct (Z.ltb_spec 5 (Z.of_nat (length ys))); [lia|]. rewrite Nat2Z.id.
    match goal with |- context [forE _ 0 (config_ext_one cicp) ?x] => set (u4 := x) end.
    rewrite runA_bind.
    edestruct (exts_run cicp u4 ys) as (u5 & E5 & [JD JU JDD JR JA JM JS JC]); [lia| |exact V12|exact V13| | | |rewrite E5].
    { unfold u4. constructor; cbn -[repeat]; rewrite ?repeat_length; congruence. }
    { intros j Hj. unfold u4. cbn -[repeat]. rewrite p12, p13, d9, d10. split; apply nth_error_repeat'; lia. }
    { unfold u4. cbn. rewrite w13, k12. exact ca. }
    { intros s Hs. unfold u4. cbn. rewrite w13, k12, p2. apply FB2. exact Hs. }
    cbv beta iota. change (negb (0 =? 0)) with false. cbv iota.
    unfold cuproj in JU. injection JU as y1 y2 y3 y4 y5 y6 y7 y8 y9 y10 y11 y12 y13 y14 y15 y16.
    unfold cdproj in JDD. injection JDD as z1 z2 z3 z4 z5 z6 z7 z8 z9 z10 z11 z12 z13 z14 z15 z16.
    unfold u4 in y1, y2, y3, y4, y5, y6, y7, y8, y9, y10, y11, y12, y13, y14, y15, y16, z1, z2, z3, z4, z5, z6, z7, z8, z9, z10, z11, z12, z13, z14, z15, z16.
    cbn in y1, y2, y3, y4, y5, y6, y7, y8, y9, y10, y11, y12, y13, y14, y15, y16, z1, z2, z3, z4, z5, z6, z7, z8, z9, z10, z11, z12, z13, z14, z15, z16.
    rewrite firstn_all in *.
    destruct (nth_error_Some_ex num_ls_tbl (Z.to_nat cicp) ltac:(change (length num_ls_tbl) with 21%nat; lia)) as [nl Hnl].
    rewrite !bind_assoc, (runA_aget num_ls_tbl cicp nl) by (try lia; exact Hnl).
    cbn [bind]. cbv beta iota. change (negb (0 =? 0)) with false. cbv iota.
    apply FIN.
    + unfold stored. rewrite EX. fold ys. split.
      { apply (base_same c u3); [|exact BS]. unfold eproj. cbn. congruence. }
      cbn. split; [intros _; split; [congruence|congruence]|].
      split; [|split; [exact JM|]].
      * intros j x Hx. apply JA; [apply nth_error_Some; congruence|exact Hx].
      * change (when (last_of scene_of ys) (fun s : scene => u_asip u5 = 1 /\ holds_scene s (u_asi u5))).
        destruct (last_of scene_of ys); [exact JS|exact I].
    + cbn. unfold level_used. fold ys. destruct (last_of compat_of ys) as [l|] eqn:LC.
      * destruct JC as (-> & J1 & J2). apply level_used_ok; auto.
      * destruct JC as [-> ->]. unfold u4. cbn. rewrite p17, FB1. reflexivity.
Qed.

Lemma fconfig_exec user u c s rest : cfg_ok u -> 0 <= user <= 20 -> valid_fconfig c -> fits_before c u -> wf s ->
  rest_bits s = enc_fconfig c ++ rest ->
  exists u' s', exec (mpegh_3da_config user u) s = Done ((0, u'), s') /\ rest_bits s' = rest /\
    holds_fconfig (if user =? 0 then layout_name (fc_lay c) (l_idx (u_ref u)) else user) c u'.
Proof.
  intros C U V F W E. destruct (fconfig_run user u c rest C U V F) as (u' & R & H).
  rewrite <- E in R. destruct (exec_of_run _ _ _ _ W R) as (s' & X & Y & Z0). exists u', s'. auto.
Qed.
