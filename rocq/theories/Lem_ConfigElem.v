(** * Lem_ConfigElem: round trip of the elements of a configuration, extensions included *)

From Coq Require Import ZArith List Lia Bool.
From Verif Require Import Bits BitBuf BitWrite Prog Asi Escape Wp Wlp Loops Frame Cicp Hoa Mhas Config Leaf Spec_Config
  Spec_Asi Lem_MhasProps Lem_Config Lem_ConfigSafe Lem_Hoa Lem_HoaMat Lem_ConfigMem Lem_Dmx Lem_Scan Lem_AsiRT
  Lem_ConfigRT Spec_ConfigFull Lem_ConfigFull.
Import ListNotations.
Open Scope Z_scope.

Lemma framed_strict_run {X} len (p : prog (Z * X)) body pad rest x :
  runA p (body ++ pad ++ rest) = Done ((0, x), pad ++ rest) -> Z.of_nat (length (body ++ pad)) = 8 * len ->
  runA (framed_strict len p) ((body ++ pad) ++ rest) = Done ((0, x), rest).
Proof.
  intros E L. rewrite app_length in L. unfold framed_strict, avail. cbn [bind runA]. rewrite <- app_assoc, runA_bind, E.
  cbv beta iota. change (negb (0 =? 0)) with false. cbv iota. cbn [bind runA].
  rewrite !app_length.
  destruct (Z.ltb_spec (len * 8) (Z.of_nat (length body + (length pad + length rest)) - Z.of_nat (length pad + length rest))); [lia|].
  destruct (Z.ltb_spec (Z.of_nat (length body + (length pad + length rest)) - Z.of_nat (length pad + length rest)) (len * 8)).
  - rewrite (runA_skipb _ _ pad) by lia. reflexivity.
  - destruct pad; [reflexivity|]. cbn [length] in *. lia.
Qed.

Record edim (u : ucfg) : Prop := {
  ed_type : length (d_type (u_dec u)) = 50%nat;
  ed_etype : length (d_etype (u_dec u)) = 50%nat;
  ed_elem : length (d_elem (u_dec u)) = 50%nat;
  ed_plen : length (d_plen (u_dec u)) = 50%nat;
  ed_ppres : length (d_ppres (u_dec u)) = 50%nat;
  ed_pbuf : length (d_pbuf (u_dec u)) = 50%nat;
  ed_outch : length (d_outch (u_dec u)) = 50%nat;
  ed_pbufs : Forall (fun b => Z.of_nat (length b) = 1536) (d_pbuf (u_dec u));
  ed_rel : length (oc_rel (u_oam u)) = 24%nat;
  ed_div : length (en_div (u_enh u)) = 24%nat;
  ed_az : length (en_az (u_enh u)) = 24%nat;
  ed_pre : length (en_pre (u_enh u)) = 24%nat;
  ed_pobj : length (pr_obj (u_prod u)) = 32%nat;
  ed_phead : length (pr_head (u_prod u)) = 32%nat }.

(** What the elements leave alone. *)
Definition uproj (u : ucfg) :=
  (u_fidx u, u_freq u, u_sfi u, u_flen u, u_rdc u, u_ref u, u_nout u, u_sig u, u_hoap u, u_oamp u, u_chp u, u_3b u, u_asi u, u_asip u).
Definition dproj (d : decc) :=
  (d_num d, d_elp d, d_hm d, d_hmp d, d_cicp d, d_dmx d, d_dmxp d, d_dmxi d, d_loudp d, d_loudi d, d_cfgn d, d_cfgp d, d_cfgl d,
   d_cfgt d, d_cfgb d, d_compat d, d_compp d, d_prof d).
Definition tabs (d : decc) (j : nat) :=
  (nth_error (d_type d) j, nth_error (d_etype d) j, nth_error (d_elem d) j, nth_error (d_plen d) j, nth_error (d_ppres d) j,
   nth_error (d_pbuf d) j).

Record estep (ntc : Z) (i : nat) (e : felem) (u u' : ucfg) : Prop := {
  es_dim : edim u'; es_u : uproj u' = uproj u; es_d : dproj (u_dec u') = dproj (u_dec u);
  es_ntc : h_ntc (d_hoa (u_dec u')) = h_ntc (d_hoa (u_dec u));
  es_tabs : forall j, j <> i -> tabs (u_dec u') j = tabs (u_dec u) j;
  es_holds : holds_felem e i (u_dec u');
  es_obj : match obj_of e with Some o => holds_obj o (u_oam u') | None => u_oam u' = u_oam u end;
  es_enh : match enh_of e with Some o => holds_enh o (u_enh u') /\ u_enhp u' = 1 | None => u_enh u' = u_enh u /\ u_enhp u' = u_enhp u end;
  es_prod : match prod_of e with Some o => holds_prod o (u_prod u') | None => u_prod u' = u_prod u end;
  es_hoa : match hoa_of e with Some h => holds_hoa ntc h (d_hoa (u_dec u')) | None => d_hoa (u_dec u') = d_hoa (u_dec u) end }.

(** The counts of the signal groups, as the element parser sees them. *)
Record sees (n : counts) (u : ucfg) : Prop := {
  se_obj : q_obj (u_sig u) = n_obj n; se_gobj : q_gobj (u_sig u) = n_gobj n; se_gch : q_gch (u_sig u) = n_gch n;
  se_ntc : 0 < n_ntc n -> h_ntc (d_hoa (u_dec u)) = n_ntc n;
  se_r1 : 0 <= n_obj n <= 24; se_r2 : 0 <= n_gobj n <= 32; se_r3 : 0 <= n_gch n <= 32; se_r4 : n_ntc n <= 24 }.

Lemma enc_esc {B} v (k : Z -> prog B) rest : 0 <= v <= 65805 ->
  runA (bind (read_escape 4 8 16) k) (esc_enc 4 8 16 v ++ rest) = runA (k v) rest.
Proof.
  intros H. apply (read_escape_enc 4 8 16); try (cbn; lia).
Qed.

(** The header of an extension element. *)
Definition hdr_dec (d : decc) (i : nat) (ty : Z) (def : Z) (frag : bool) (el : elem) : decc :=
  s_d_elem (s_d_plen (s_d_etype d (firstn i (d_etype d) ++ ty :: skipn (S i) (d_etype d)))
     (firstn i (d_plen d) ++ 0 :: skipn (S i) (d_plen d)))
     (firstn i (d_elem d) ++ s_el_frag (s_el_def el def) (b2z frag) :: skipn (S i) (d_elem d)).

Definition ext_body (i : nat) (u : ucfg) (ty len flag frag : Z) : prog (Z * ucfg) :=
  let iz := Z.of_nat i in
  let d := u_dec u in
  let nobj := q_obj (u_sig u) in
  if ty =? 14 then
    framed_strict len
      (p <- prod_config (u_prod u) (q_gobj (u_sig u)) (q_gch (u_sig u)) ;;
       Ret (0, s_u_prod u p))
  else if ty =? 13 then
    if 24 <? nobj then Ret (E_OAM_NUM, u) else
    ' (e, u') <-
      framed_strict len (' (e, c) <- enh_md_config (u_enh u) nobj ;; Ret (e, s_u_enh u c)) ;;
    if negb (e =? 0) then Ret (e, u') else Ret (0, s_u_enhp u' 1)
  else if ty =? 7 then
    pl <- aset (d_plen d) iz len ;;
    let d := s_d_plen d pl in
    let h := d_hoa d in
    framed_strict len
      (r <- fill_config (mkHoa (h_ntc h) 1024 (h_order h) (h_coef h) (h_screen h) (h_nfc h)
              (h_ref h) (h_minamb h) (h_minco h) (h_addl h) (h_single h) (h_cit h) (h_sim h)
              (h_cvv h) (h_mgc h) (h_fli h) (h_maxord h) (h_dob h) (h_do h) (h_maxco h)
              (h_maxadd h) (h_vqb h) (h_nvv h) (h_psd h) (h_pds h) (h_bps h) (h_psi h)
              (h_pst h) (h_fl h) (h_sit h) (h_aab h) (h_apb h) (h_napb h) (h_gcb h) (h_off h)
              (h_vvl h) (h_il h)) ;;
       match r with
       | Er e => Ret (e, s_u_dec u d)
       | Ok h' => Ret (0, s_u_dec u (s_d_hoa d h'))
       end)
  else if ty =? 5 then
    pl <- aset (d_plen d) iz len ;;
    let u := s_u_dec u (s_d_plen d pl) in
    framed_strict len
      (' (_, c) <- obj_md_cfg (u_oam u) 1024 nobj ;; Ret (0, s_u_oam u c))
  else if (ty =? 4) || (ty =? 9) then
    if negb (frag =? 0) then Ret (E_EXT_ELEM, u) else
    pl <- aset (d_plen d) iz len ;;
    let d := s_d_plen d pl in
    if (ty =? 9) && (len =? 0) then Ret (E_EXT_ELEM, s_u_dec u d) else
    b <- aget (d_pbuf d) iz ;;
    b' <- rd_bytes len b ;;
    bs <- aset (d_pbuf d) iz b' ;;
    Ret (0, s_u_dec u (s_d_pbuf d bs))
  else if ty =? 3 then
    if negb (iz =? 0) || negb (frag =? 0) || negb (flag =? 0) || negb (len =? 0)
    then Ret (E_EXT_ELEM, u) else Ret (0, s_u_dec u (s_d_preroll d 1))
  else if ty =? 0 then
    if negb (len =? 0) || negb (frag =? 0) then Ret (E_EXT_ELEM, u) else Ret (0, u)
  else
    c <- avail ;;
    if c / 8 <? len then Ret (E_FRAME, u) else skip (len * 8) ;;; Ret (0, u).

Lemma hdr_run i u x el rest : (i < 50)%nat -> edim u -> nth_error (d_elem (u_dec u)) i = Some el ->
  0 <= xtype (xe_kind x) <= 65805 -> 0 <= xlen x < 1536 ->
  match xe_def x with None => True | Some v => 1 <= v <= 65791 end ->
  runA (ext_element i u) (enc_ext x ++ rest) =
  runA (ext_body i (s_u_dec u (hdr_dec (u_dec u) i (xtype (xe_kind x)) (match xe_def x with None => 0 | Some v => v end) (xe_frag x) el))
     (xtype (xe_kind x)) (xlen x) (match xe_def x with None => 0 | Some v => 1 end) (b2z (xe_frag x))) (xbody x ++ rest).
Proof.
  intros Hi D El T L V. unfold ext_element, enc_ext. rewrite <- !app_assoc. rewrite enc_esc by lia.
  destruct D. rewrite runA_aset by lia. rewrite enc_esc by lia.
  destruct (Z.leb_spec 1536 (xlen x)); [lia|]. rewrite runA_aset by lia. unfold enc_opt.
  destruct (xe_def x) as [v|]; rewrite <- ?app_assoc, runA_flag; cbn [b2z].
  - change (1 =? 0) with false. cbv iota. rewrite bind_assoc.
    rewrite (read_escape_enc 8 16 0) by (try (cbn; lia); change (esc_max 8 16 0) with 65790; lia).
    cbn [bind]. rewrite runA_flag. rewrite (runA_aget _ _ el) by (try lia; rewrite Nat2Z.id; exact El).
    rewrite runA_aset by lia. rewrite Nat2Z.id.
    replace (v - 1 + 1) with v by lia. replace (u32 v) with v; [reflexivity|].
    unfold u32. symmetry. apply Z.mod_small. lia.
  - change (0 =? 0) with true. cbv iota. cbn [bind]. rewrite runA_flag. rewrite (runA_aget _ _ el) by (try lia; rewrite Nat2Z.id; exact El).
    rewrite runA_aset by lia. rewrite Nat2Z.id. reflexivity.
Qed.

Definition kept_len (x : extel) : Z := match xe_kind x with KObj _ | KHoa _ | KDrc _ | KMct _ => xlen x | _ => 0 end.
Record xstep (ntc : Z) (i : nat) (x : extel) (u u' : ucfg) : Prop := {
  xs_dim : edim u'; xs_u : uproj u' = uproj u; xs_d : dproj (u_dec u') = dproj (u_dec u);
  xs_ntc : h_ntc (d_hoa (u_dec u')) = h_ntc (d_hoa (u_dec u));
  xs_tabs : forall j, j <> i -> tabs (u_dec u') j = tabs (u_dec u) j;
  xs_type : d_type (u_dec u') = d_type (u_dec u);
  xs_etype : nth_error (d_etype (u_dec u')) i = Some (xtype (xe_kind x));
  xs_elem : exists el, nth_error (d_elem (u_dec u')) i = Some el /\
     el_def el = (match xe_def x with None => 0 | Some v => v end) /\ el_frag el = b2z (xe_frag x);
  xs_plen : nth_error (d_plen (u_dec u')) i = Some (kept_len x);
  xs_pbuf : match xe_kind x with
    | KDrc bs | KMct bs => exists b, nth_error (d_pbuf (u_dec u')) i = Some b /\ firstn (length bs) b = bs
    | _ => True end;
  xs_obj : match obj_of (FExt x) with Some o => holds_obj o (u_oam u') | None => u_oam u' = u_oam u end;
  xs_enh : match enh_of (FExt x) with Some o => holds_enh o (u_enh u') /\ u_enhp u' = 1 | None => u_enh u' = u_enh u /\ u_enhp u' = u_enhp u end;
  xs_prod : match prod_of (FExt x) with Some o => holds_prod o (u_prod u') | None => u_prod u' = u_prod u end;
  xs_hoa : match hoa_of (FExt x) with Some h => holds_hoa ntc h (d_hoa (u_dec u')) | None => d_hoa (u_dec u') = d_hoa (u_dec u) end }.

Lemma len8 x : Z.of_nat (length (xbody x)) mod 8 = 0 -> Z.of_nat (length (xbody x)) = 8 * xlen x /\ 0 <= xlen x.
Proof. intros H. unfold xlen. split; [|apply Z.div_pos; lia]. apply Z.div_exact in H; lia. Qed.

Lemma set_other {A} (l : list A) i v j : (i < length l)%nat -> j <> i ->
  nth_error (firstn i l ++ v :: skipn (S i) l) j = nth_error l j.
Proof. intros H N. apply nth_aset_neq; lia. Qed.
Lemma set_this {A} (l : list A) i v : (i < length l)%nat -> nth_error (firstn i l ++ v :: skipn (S i) l) i = Some v.
Proof. intros H. apply nth_aset_eq; lia. Qed.
Lemma set_len {A} (l : list A) i v : (i < length l)%nat -> length (firstn i l ++ v :: skipn (S i) l) = length l.
Proof. intros H. apply aset_len; lia. Qed.
Lemma set_Forall {A} (P : A -> Prop) (l : list A) i v : (i < length l)%nat -> Forall P l -> P v -> Forall P (firstn i l ++ v :: skipn (S i) l).
Proof.
  intros H F V. apply Forall_app. split; [|constructor; [exact V|]].
  - apply Forall_forall. intros y Hy. rewrite Forall_forall in F. apply F. rewrite <- (firstn_skipn i). apply in_or_app. auto.
  - apply Forall_forall. intros y Hy. rewrite Forall_forall in F. apply F. rewrite <- (firstn_skipn (S i)). apply in_or_app. auto.
Qed.

Ltac efrag := first [reflexivity | match goal with H : xe_frag _ = false |- _ => rewrite H; reflexivity end].
Ltac sets := cbn -[firstn skipn app nth_error] in *; repeat (rewrite set_len in * by (rewrite ?set_len; lia)).
Ltac xstep_tac x HK :=
  constructor; unfold obj_of, enh_of, prod_of, hoa_of, kept_len, tabs, uproj, dproj, hdr_dec; rewrite ?HK;
   cbn -[firstn skipn app nth_error];
   [ constructor; cbn -[firstn skipn app nth_error]; rewrite ?set_len by (rewrite ?set_len; lia); auto
   | reflexivity | reflexivity | auto
   | intros j Hj; rewrite !set_other by (rewrite ?set_len by lia; lia); reflexivity
   | reflexivity
   | apply set_this; lia
   | eexists; split; [apply set_this; lia|split; [reflexivity|efrag]]
   | apply set_this; rewrite ?set_len by lia; lia
   | auto | auto | auto | auto | auto ].

Lemma ext_run n i u x rest : (i < 50)%nat -> edim u -> sees n u -> valid_ext n i x ->
  exists u', runA (ext_element i u) (enc_ext x ++ rest) = Done ((0, u'), rest) /\ xstep (n_ntc n) i x u u'.
Proof.
  intros Hi D Se (VK & V8 & VL & VD & VX).
  destruct (len8 x V8) as [L8 L0].
  destruct (nth_error_Some_ex (d_elem (u_dec u)) i ltac:(destruct D; lia)) as [el Hel].
  assert (T : 0 <= xtype (xe_kind x) <= 65805).
  { destruct (xe_kind x); cbn [xtype]; try lia. destruct VK as (_ & VK & _). lia. }
  rewrite (hdr_run i u x el rest Hi D Hel T ltac:(lia) VD).
  assert (D0 := D). destruct D. destruct Se as [s1 s2 s3 s4 r1 r2 r3 r4].
  set (def := match xe_def x with None => 0 | Some v => v end) in *.
  unfold ext_body. cbv zeta. unfold xbody in *.
  destruct (xe_kind x) as [| |o|e|p|h|bs|bs|ty bs] eqn:HK; cbn [xtype Z.eqb Pos.eqb orb] in *; cbv iota.
  - (* fill *) destruct VX as (F & P). cbn [xcontents] in *. rewrite P in *. cbn [app length] in *.
    replace (xlen x) with 0 by lia. rewrite F. cbn [b2z Z.eqb negb orb runA]. cbv iota. cbn [runA].
    eexists. split; [reflexivity|]. xstep_tac x HK.
  - (* pre-roll *) destruct VX as (F & P & Q & ->). cbn [xcontents] in *. rewrite P in *. cbn [app length] in *.
    replace (xlen x) with 0 by lia. rewrite F, Q. cbn [b2z Z.eqb negb orb runA]. cbv iota. cbn [runA Z.of_nat Z.eqb negb orb].
    eexists. split; [reflexivity|]. xstep_tac x HK.
  - (* object metadata *)
    rewrite runA_aset by (cbn -[firstn skipn app]; rewrite set_len; lia).
    cbn [u_dec s_u_dec u_sig u_oam]. rewrite s1. cbn [xcontents] in *. cbn [valid_kind] in VK.
    destruct (obj_run (u_oam u) (n_obj n) o (xe_pad x ++ rest) ed_rel0 r1 VK) as (c' & E & H & L').
    eexists. split.
    { apply framed_strict_run; [|exact L8]. rewrite runA_bind. rewrite E. reflexivity. }
    rewrite Nat2Z.id. xstep_tac x HK.
  - (* enhanced object metadata *)
    cbn [u_dec s_u_dec u_sig u_enh]. rewrite s1. destruct (Z.ltb_spec 24 (n_obj n)); [lia|]. cbn [xcontents] in *. cbn [valid_kind] in VK.
    destruct (enh_run (u_enh u) (n_obj n) e (xe_pad x ++ rest) ed_div0 ed_az0 ed_pre0 r1 VK) as (c' & E & H' & L1' & L2' & L3').
    eexists. split.
    { rewrite runA_bind. erewrite framed_strict_run; [|rewrite runA_bind, E; reflexivity|exact L8].
      cbv beta iota. change (negb (0 =? 0)) with false. cbv iota. reflexivity. }
    xstep_tac x HK.
  - (* production metadata *)
    cbn [u_dec s_u_dec u_sig u_prod]. rewrite s2, s3. cbn [xcontents] in *. cbn [valid_kind] in VK.
    destruct (prod_run (u_prod u) (n_gobj n) (n_gch n) p (xe_pad x ++ rest) ed_pobj0 ed_phead0 ltac:(lia) ltac:(lia) VK) as (c' & E & H' & L1' & L2').
    eexists. split.
    { apply framed_strict_run; [|exact L8]. rewrite runA_bind. rewrite E. reflexivity. }
    xstep_tac x HK.
  - (* HOA *)
    rewrite runA_aset by (cbn -[firstn skipn app]; rewrite set_len; lia).
    cbn [valid_kind] in VK. destruct VK as [N0 VK]. specialize (s4 N0). cbn [xcontents] in *.
    match goal with |- context [fill_config ?h0] => destruct (hoa_run h0 (n_ntc n) h (xe_pad x ++ rest)) as (h' & E & H' & L1' & L2') end;
      [exact s4|reflexivity|lia|exact VK|].
    eexists. split.
    { apply framed_strict_run; [|exact L8]. rewrite runA_bind. rewrite E. reflexivity. }
    rewrite Nat2Z.id. xstep_tac x HK. congruence.
  - (* DRC *)
    destruct VX as (F & P). rewrite F. cbn [b2z Z.eqb negb]. cbv iota. cbn [valid_kind xcontents] in *. rewrite P in *. rewrite app_nil_r in *.
    rewrite runA_aset by (cbn -[firstn skipn app]; rewrite set_len; lia). cbn [andb]. cbv iota.
    destruct (nth_error_Some_ex (d_pbuf (u_dec u)) i ltac:(lia)) as [b Hb].
    cbn -[firstn skipn app runA rd_bytes xlen aset aget bind Z.of_nat].
    rewrite (runA_aget _ _ b) by (try lia; rewrite Nat2Z.id; exact Hb).
    assert (Lb := nth_error_Forall _ _ _ _ ed_pbufs0 Hb). cbv beta in Lb.
    rewrite bytes_bits_length in L8. replace (xlen x) with (Z.of_nat (length bs)) by lia.
    rewrite runA_bind, rd_bytes_run by (auto; lia). rewrite runA_aset by lia. cbn [runA]. rewrite Nat2Z.id.
    eexists. split; [reflexivity|].
    assert (LB : Z.of_nat (length (bs ++ skipn (length bs) b)) = 1536) by (rewrite app_length, skipn_length; lia).
    constructor; unfold obj_of, enh_of, prod_of, hoa_of, kept_len, tabs, uproj, dproj, hdr_dec; rewrite ?HK;
     cbn -[firstn skipn app nth_error xlen];
     [ constructor; cbn -[firstn skipn app nth_error]; rewrite ?set_len by (rewrite ?set_len; lia); auto
     | reflexivity | reflexivity | auto
     | intros j Hj; rewrite !set_other by (rewrite ?set_len by lia; lia); reflexivity
     | reflexivity
     | apply set_this; lia
     | eexists; split; [apply set_this; lia|split; [reflexivity|efrag]]
     | rewrite set_this by (rewrite ?set_len by lia; lia); f_equal; lia
     | eexists; split; [apply set_this; lia|apply firstn_map_app; reflexivity] | auto | auto | auto | auto ].
    apply set_Forall; auto; lia.
  - (* multichannel coding tool *)
    destruct VX as (F & P). rewrite F. cbn [b2z Z.eqb negb]. cbv iota. cbn [valid_kind xcontents] in *. rewrite P in *. rewrite app_nil_r in *.
    destruct VK as [VK NE].
    rewrite runA_aset by (cbn -[firstn skipn app]; rewrite set_len; lia). cbn [andb].
    rewrite bytes_bits_length in L8.
    assert (length bs <> 0%nat) by (destruct bs; [congruence|discriminate]).
    destruct (Z.eqb_spec (xlen x) 0); [lia|].
    destruct (nth_error_Some_ex (d_pbuf (u_dec u)) i ltac:(lia)) as [b Hb].
    cbn -[firstn skipn app runA rd_bytes xlen aset aget bind Z.of_nat].
    rewrite (runA_aget _ _ b) by (try lia; rewrite Nat2Z.id; exact Hb).
    assert (Lb := nth_error_Forall _ _ _ _ ed_pbufs0 Hb). cbv beta in Lb.
    replace (xlen x) with (Z.of_nat (length bs)) by lia.
    rewrite runA_bind, rd_bytes_run by (auto; lia). rewrite runA_aset by lia. cbn [runA]. rewrite Nat2Z.id.
    eexists. split; [reflexivity|].
    assert (LB : Z.of_nat (length (bs ++ skipn (length bs) b)) = 1536) by (rewrite app_length, skipn_length; lia).
    constructor; unfold obj_of, enh_of, prod_of, hoa_of, kept_len, tabs, uproj, dproj, hdr_dec; rewrite ?HK;
     cbn -[firstn skipn app nth_error xlen];
     [ constructor; cbn -[firstn skipn app nth_error]; rewrite ?set_len by (rewrite ?set_len; lia); auto
     | reflexivity | reflexivity | auto
     | intros j Hj; rewrite !set_other by (rewrite ?set_len by lia; lia); reflexivity
     | reflexivity
     | apply set_this; lia
     | eexists; split; [apply set_this; lia|split; [reflexivity|efrag]]
     | rewrite set_this by (rewrite ?set_len by lia; lia); f_equal; lia
     | eexists; split; [apply set_this; lia|apply firstn_map_app; reflexivity] | auto | auto | auto | auto ].
    apply set_Forall; auto; lia.
  - (* anything else *)
    cbn [valid_kind xcontents] in *. destruct VK as (VB & VT & VN). rewrite VX in *. rewrite app_nil_r in *. rewrite bytes_bits_length in L8.
    unfold known_types in VN. cbn [In] in VN.
    destruct (Z.eqb_spec ty 14); [exfalso; apply VN; auto 12|]. destruct (Z.eqb_spec ty 13); [exfalso; apply VN; auto 12|].
    destruct (Z.eqb_spec ty 7); [exfalso; apply VN; auto 12|]. destruct (Z.eqb_spec ty 5); [exfalso; apply VN; auto 12|].
    destruct (Z.eqb_spec ty 4); [exfalso; apply VN; auto 12|]. destruct (Z.eqb_spec ty 9); [exfalso; apply VN; auto 12|].
    destruct (Z.eqb_spec ty 3); [exfalso; apply VN; auto 12|]. destruct (Z.eqb_spec ty 0); [exfalso; apply VN; auto 12|].
    cbn [orb]. unfold avail. cbn [bind runA]. rewrite app_length, bytes_bits_length.
    match goal with |- context [?a / 8 <? xlen x] => destruct (Z.ltb_spec (a / 8) (xlen x)) as [X|_] end.
    { assert (xlen x <= Z.of_nat (8 * length bs + length rest) / 8); [|lia]. apply Z.div_le_lower_bound; lia. }
    rewrite (runA_skipb _ _ (bytes_bits bs)) by (rewrite bytes_bits_length; lia). cbn [runA].
    eexists. split; [reflexivity|]. xstep_tac x HK.
Qed.

Lemma map_ele_run2 l si sc : length l = 50%nat -> 0 <= sc -> (si <= 0 -> sc = 0) ->
  exists l' i, (forall B (k : list Z * Z -> prog B) rest, runA (bind (map_ele l si sc) k) rest = runA (k (l', i)) rest) /\ length l' = 50%nat /\
    0 <= i < 50 /\ exists v, nth_error l' (Z.to_nat i) = Some v /\ sc <= v /\ 0 <= v.
Proof.
  intros L S0 SI. unfold map_ele.
  set (i := match first_neg (firstn 24 l) 0 with Some k => k | None => 0 end).
  assert (Hi : 0 <= i < 50).
  { unfold i. destruct (first_neg (firstn 24 l) 0) as [z|] eqn:E; [|lia].
    apply first_neg_range in E; [|lia]. rewrite firstn_length in E. lia. }
  exists (firstn (Z.to_nat i) l ++ (if si <=? 0 then next_channel l else next_channel l + sc + 1) :: skipn (S (Z.to_nat i)) l), i.
  assert (N := next_channel_ge l).
  split; [|split; [|split; [exact Hi|]]].
  - intros. rewrite bind_assoc, runA_aset by lia. reflexivity.
  - rewrite aset_len; lia.
  - eexists. split; [apply nth_aset_eq; lia|]. destruct (Z.leb_spec si 0); lia.
Qed.

Lemma shift_widths n : 2 <= n <= 16 -> shift_bits n = shift_width n /\ 1 <= shift_width n <= 4.
Proof.
  intros H. assert (X : n = 2 \/ n = 3 \/ n = 4 \/ n = 5 \/ n = 6 \/ n = 7 \/ n = 8 \/ n = 9 \/ n = 10 \/ n = 11 \/ n = 12 \/ n = 13 \/ n = 14 \/ n = 15 \/ n = 16) by lia.
  decompose [or] X; subst n; vm_compute; intuition congruence.
Qed.

Ltac estep_tac EG :=
  constructor; unfold tabs, uproj, dproj, obj_of, enh_of, prod_of, hoa_of; cbn -[firstn skipn app nth_error];
   [ constructor; cbn -[firstn skipn app nth_error]; rewrite ?set_len by lia; auto
   | reflexivity | reflexivity | reflexivity
   | intros jj Hjj; rewrite !set_other by lia; reflexivity
   | split; cbn -[firstn skipn app nth_error]; [apply set_this; lia|eexists; split; [apply set_this; lia|]]
   | reflexivity | split; reflexivity | reflexivity | reflexivity ].

Lemma felem_run n tot i u e rest : (i < 50)%nat -> edim u -> sees n u ->
  tot = q_hoa (u_sig u) + q_ch (u_sig u) + q_obj (u_sig u) -> valid_felem tot n i e ->
  exists u', runA (dec_element i u) (enc_felem tot e ++ rest) = Done ((0, u'), rest) /\ estep (n_ntc n) i e u u'.
Proof.
  intros Hi D Se Ht V. unfold dec_element.
  assert (D0 := D). destruct D0.
  destruct (nth_error_Some_ex (d_elem (u_dec u)) i ltac:(lia)) as [el0 Hel].
  destruct e as [t|t sh ls| |x]; unfold enc_felem; rewrite <- ?app_assoc.
  - rewrite (runA_rdb 2 2) by lia. rewrite runA_aset by lia. rewrite Nat2Z.id. cbv zeta.
    cbn [u_dec s_u_dec d_elem s_d_type].
    rewrite (runA_aget (d_elem (u_dec u)) (Z.of_nat i) el0) by (try lia; rewrite Nat2Z.id; exact Hel).
    change (0 =? 3) with false. change (0 =? 2) with false. change (0 =? 1) with false. cbv iota.
    destruct (map_ele_run (d_outch (u_dec u)) ed_outch0) as (l' & j & E & L & _).
    cbn [valid_felem] in V. tools V t EG;
    rewrite runA_aset by (cbn [d_elem s_d_type]; lia); cbn [d_outch s_d_type];
    rewrite E; cbn [runA]; rewrite Nat2Z.id; cbn [d_elem s_d_type];
    (eexists; split; [reflexivity|]; estep_tac EG; unfold holds_tools; rewrite EG; cbn; auto 6).
  - destruct V as (V & Hls & Hsh). unfold is_bit in Hls.
    rewrite (runA_rdb 2 2) by lia. rewrite runA_aset by lia. rewrite Nat2Z.id. cbv zeta.
    cbn [u_dec s_u_dec d_elem s_d_type].
    rewrite (runA_aget (d_elem (u_dec u)) (Z.of_nat i) el0) by (try lia; rewrite Nat2Z.id; exact Hel).
    change (1 =? 3) with false. change (1 =? 2) with false. change (1 =? 1) with true. cbv iota.
    rewrite runA_bind. cbn [u_sig s_u_dec]. rewrite <- Ht. unfold cpe_config. cbv zeta.
    cbn [d_outch s_d_type].
    destruct (map_ele_run (d_outch (u_dec u)) ed_outch0) as (l1 & j1 & E1 & L1 & J1 & v1 & N1 & P1).
    set (si := match sh with None => 0 | Some _ => 1 end). set (sc := match sh with None => 0 | Some s => s end).
    assert (SC : 0 <= sc) by (unfold sc; destruct sh; lia).
    assert (SI : si <= 0 -> sc = 0) by (unfold si, sc; destruct sh; lia).
    destruct (map_ele_run2 l1 si sc L1 SC SI) as (l2 & j2 & E2 & L2 & J2 & v2 & N2 & P2 & P3).
    assert (ES : forall B (k : Z -> Z -> prog B) r, runA (si <- rd 1 ;; sc <- (if 0 <? si then rd (shift_bits tot) else Ret 0) ;; k si sc)
       (enc_opt (bits_of (Z.to_nat (shift_width tot))) sh ++ r) = runA (k si sc) r).
    { intros B k r. unfold enc_opt, si, sc. destruct sh as [s|]; rewrite <- ?app_assoc, runA_flag; cbn [b2z].
      - change (0 <? 1) with true. cbv iota. destruct Hsh as [H1 H2]. destruct (shift_widths tot H1) as [W1 W2]. rewrite W1.
        rewrite (runA_rdb _ (Z.to_nat (shift_width tot))) by lia. reflexivity.
      - change (0 <? 0) with false. cbv iota. reflexivity. }
    tools V t EG;
    rewrite (runA_rdb 2 2) by lia; change (negb (0 =? 0)) with false; cbv iota;
    rewrite E1; cbv beta iota; rewrite (runA_aget l1 j1 v1) by (auto; lia);
    (destruct (Z.ltb_spec v1 0); [lia|]); rewrite ES;
    rewrite E2; cbv beta iota; rewrite (runA_aget l2 j2 v2) by (auto; lia);
    (destruct (Z.ltb_spec v2 sc); [lia|]); rewrite (runA_rdb 1 1) by lia; cbn [runA];
    rewrite runA_aset by (cbn [d_elem s_d_type]; lia); rewrite Nat2Z.id; cbn [runA d_elem s_d_type];
    (eexists; split; [reflexivity|]; estep_tac EG; unfold holds_tools; rewrite EG; cbn; auto 8).
  - rewrite (runA_rdb 2 2) by lia. rewrite runA_aset by lia. rewrite Nat2Z.id. cbv zeta.
    cbn [u_dec s_u_dec d_elem s_d_type].
    rewrite (runA_aget (d_elem (u_dec u)) (Z.of_nat i) el0) by (try lia; rewrite Nat2Z.id; exact Hel).
    change (2 =? 3) with false. change (2 =? 2) with true. cbv iota.
    rewrite runA_aset by (cbn [d_elem s_d_type]; lia). cbn [d_outch s_d_type].
    destruct (map_ele_run (d_outch (u_dec u)) ed_outch0) as (l' & j & E & L & _).
    rewrite E. cbn [runA]. rewrite Nat2Z.id. cbn [d_elem s_d_type].
    eexists. split; [reflexivity|]. estep_tac tt. split; reflexivity.
  - cbn [valid_felem] in V. rewrite (runA_rdb 2 2) by lia. rewrite runA_aset by lia. rewrite Nat2Z.id. cbv zeta.
    cbn [u_dec s_u_dec d_elem s_d_type].
    rewrite (runA_aget (d_elem (u_dec u)) (Z.of_nat i) el0) by (try lia; rewrite Nat2Z.id; exact Hel).
    change (3 =? 3) with true. cbv iota. rewrite runA_bind.
    match goal with |- context [ext_element i ?w] => set (u1 := w) end.
    destruct (ext_run n i u1 x rest Hi) as (u2 & E & X).
    { constructor; cbn -[firstn skipn app]; rewrite ?set_len by lia; auto. }
    { destruct Se. constructor; auto. }
    { exact V. }
    rewrite E. cbv beta iota. change (negb (0 =? 0)) with false. cbv iota.
    destruct X as [xd xu xdd xn xt xty xet xel xpl xpb xo xe xp xh].
    rewrite (runA_aget _ _ (kept_len x)) by (try lia; rewrite Nat2Z.id; exact xpl).
    destruct xd. rewrite runA_aset by lia. cbn [runA]. rewrite Nat2Z.id.
    eexists. split; [reflexivity|].
    destruct V as (_ & V8 & _). destruct (len8 x V8) as [_ X0].
    constructor; cbn -[firstn skipn app nth_error obj_of enh_of prod_of hoa_of].
    + constructor; cbn -[firstn skipn app nth_error]; rewrite ?set_len by lia; auto.
    + exact xu.
    + unfold dproj in *. exact xdd.
    + exact xn.
    + intros j Hj. specialize (xt j Hj). unfold tabs in *. cbn -[firstn skipn app nth_error] in *.
      rewrite !set_other in * by lia. exact xt.
    + unfold holds_felem. cbn -[firstn skipn app nth_error holds_ext]. split.
      * rewrite xty. unfold u1. cbn -[firstn skipn app nth_error]. apply set_this. lia.
      * unfold holds_ext. cbn -[firstn skipn app nth_error]. split; [exact xet|]. split; [exact xel|]. split; [|exact xpb].
        rewrite set_this by lia. rewrite xpl. unfold kept_len.
        destruct (xe_kind x); split; try reflexivity; f_equal;
          (destruct (Z.leb_spec (xlen x) 0), (Z.ltb_spec 0 (xlen x)); cbn [b2z]; lia).
    + exact xo.
    + exact xe.
    + exact xp.
    + exact xh.
Qed.
