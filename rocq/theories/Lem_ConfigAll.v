(** * Lem_ConfigAll: round trip of whole stream configurations *)

From Coq Require Import ZArith List Lia Bool.
From Verif Require Import Bits BitBuf BitWrite Prog Asi Escape Wp Wlp Loops Frame Cicp Hoa Mhas Config Leaf Spec_Config
  Spec_Asi Lem_MhasProps Lem_Config Lem_ConfigSafe Lem_Hoa Lem_HoaMat Lem_ConfigMem Lem_Dmx Lem_Scan Lem_AsiRT
  Lem_ConfigRT Spec_ConfigFull Lem_ConfigFull Lem_ConfigElem.
Import ListNotations.
Open Scope Z_scope.

(** ** The list of elements *)
Lemma last_of_nil {A B} (f : A -> option B) : last_of f [] = None.
Proof. reflexivity. Qed.
Lemma last_of_snoc {A B} (f : A -> option B) l x : last_of f (l ++ [x]) = match f x with Some y => Some y | None => last_of f l end.
Proof. unfold last_of. rewrite fold_left_app. reflexivity. Qed.

Lemma holds_tabs e i d d' : tabs d' i = tabs d i -> holds_felem e i d -> holds_felem e i d'.
Proof.
  unfold tabs. intros E. inversion E as [[E1 E2 E3 E4 E5 E6]]. unfold holds_felem, holds_ext. rewrite E1, E2, E3, E4, E5, E6. auto.
Qed.

Record els_inv (ntc : Z) (u0 : ucfg) (es : list felem) (i : nat) (u : ucfg) : Prop := {
  xi_dim : edim u; xi_u : uproj u = uproj u0; xi_d : dproj (u_dec u) = dproj (u_dec u0);
  xi_ntc : h_ntc (d_hoa (u_dec u)) = h_ntc (d_hoa (u_dec u0));
  xi_all : forall j e, (j < i)%nat -> nth_error es j = Some e -> holds_felem e j (u_dec u);
  xi_obj : when (last_of obj_of (firstn i es)) (fun o => holds_obj o (u_oam u));
  xi_enh : when (last_of enh_of (firstn i es)) (fun e => holds_enh e (u_enh u) /\ u_enhp u = 1);
  xi_prod : when (last_of prod_of (firstn i es)) (fun p => holds_prod p (u_prod u));
  xi_hoa : when (last_of hoa_of (firstn i es)) (fun h => holds_hoa ntc h (d_hoa (u_dec u))) }.

Lemma sees_same n u u' : uproj u' = uproj u -> h_ntc (d_hoa (u_dec u')) = h_ntc (d_hoa (u_dec u)) -> sees n u -> sees n u'.
Proof. unfold uproj. intros E H []. inversion E. constructor; auto; try congruence. rewrite H. auto. Qed.

Lemma felems_run n tot u es rest : (length es <= 50)%nat -> edim u -> sees n u ->
  tot = q_hoa (u_sig u) + q_ch (u_sig u) + q_obj (u_sig u) ->
  (forall i e, nth_error es i = Some e -> valid_felem tot n i e) ->
  exists u', runA (forE (length es) 0 dec_element u) (concat (map (enc_felem tot) es) ++ rest) = Done ((0, u'), rest) /\
    els_inv (n_ntc n) u es (length es) u'.
Proof.
  intros L D Se Ht V.
  destruct (forE_tab dec_element (enc_felem tot) (els_inv (n_ntc n) u es) es)
    with (ys := es) (i := 0%nat) (t := u) (rest := rest) as (t & E & I); [|reflexivity| |exists t; split; [exact E|exact I]].
  - intros i t e r He [ID IU IDD IN IA IO IE IP IH].
    assert (Hi : (i < length es)%nat) by (apply nth_error_Some; congruence).
    assert (Ht' : tot = q_hoa (u_sig t) + q_ch (u_sig t) + q_obj (u_sig t)).
    { unfold uproj in IU. inversion IU. congruence. }
    destruct (felem_run n tot i t e r ltac:(lia) ID (sees_same n u t IU IN Se) Ht' (V i e He)) as (t' & E & S1).
    exists t'. split; [exact E|]. destruct S1 as [sd su sdd sn st sh so se sp sho].
    assert (SN := firstn_snoc_err es i e He).
    constructor; try congruence; auto; try rewrite SN, last_of_snoc.
    + intros j x Hj Hx. destruct (Nat.eq_dec j i) as [->|Ne].
      * rewrite He in Hx. injection Hx as <-. exact sh.
      * apply (holds_tabs _ _ _ _ (st j Ne)). apply IA; [lia|exact Hx].
    + destruct (obj_of e); [exact so|]. rewrite so. exact IO.
    + destruct (enh_of e); [exact se|]. destruct se as [-> ->]. exact IE.
    + destruct (prod_of e); [exact sp|]. rewrite sp. exact IP.
    + destruct (hoa_of e); [exact sho|]. rewrite sho. exact IH.
  - constructor; cbn [firstn]; rewrite ?last_of_nil; cbn; auto. intros; lia.
Qed.

(** ** Signal groups *)
Definition uproj2 (u : ucfg) :=
  (u_fidx u, u_freq u, u_sfi u, u_flen u, u_rdc u, u_ref u, u_oam u, u_enh u, u_enhp u, u_prod u, u_3b u, u_asi u, u_asip u).
Record grps_inv (u0 : ucfg) (gs : list (Z * Z)) (i : nat) (u : ucfg) : Prop := {
  gj_u : uproj2 u = uproj2 u0;
  gj_d : exists h, u_dec u = s_d_hoa (u_dec u0) h;
  gj_num : q_num (u_sig u) = q_num (u_sig u0);
  gj_lt : length (q_type (u_sig u)) = 32%nat; gj_ln : length (q_nsig (u_sig u)) = 32%nat;
  gj_ld : length (q_differs (u_sig u)) = 32%nat;
  gj_ty : firstn i (q_type (u_sig u)) = map fst (firstn i gs);
  gj_ns : firstn i (q_nsig (u_sig u)) = map snd (firstn i gs);
  gj_ch : q_ch (u_sig u) = total 0 (firstn i gs); gj_obj : q_obj (u_sig u) = total 1 (firstn i gs);
  gj_hoa : q_hoa (u_sig u) = total 3 (firstn i gs); gj_out : u_nout u = total 0 (firstn i gs);
  gj_gch : q_gch (u_sig u) = groups_of 0 (map fst (firstn i gs));
  gj_gobj : q_gobj (u_sig u) = groups_of 1 (map fst (firstn i gs));
  gj_ghoa : q_ghoa (u_sig u) = groups_of 3 (map fst (firstn i gs));
  gj_ntc : 0 < total 3 (firstn i gs) -> h_ntc (d_hoa (u_dec u)) = total 3 (firstn i gs) }.

Lemma groups_of_snoc' ty l t : groups_of ty (l ++ [t]) = groups_of ty l + (if t =? ty then 1 else 0).
Proof. induction l as [|x l IH]; cbn [app groups_of]; [lia|]. rewrite IH. lia. Qed.
Lemma groups_of_range ty l : 0 <= groups_of ty l <= Z.of_nat (length l).
Proof. induction l as [|x l IH]; cbn [groups_of length]; [lia|]. destruct (x =? ty); lia. Qed.

Lemma sig_group_run2 u0 gs i u cn g rest : (length gs <= 16)%nat -> good_groups gs ->
  total 0 gs <= 24 -> total 1 gs <= 24 -> total 3 gs <= 24 -> nth_error gs i = Some g -> grps_inv u0 gs i u ->
  exists t', runA (sig_group i (u, cn)) (Spec_Config.enc_group g ++ rest) = Done ((0, t'), rest) /\ grps_inv u0 gs (S i) (fst t').
Proof.
  intros L G T0 T1 T3 Hg [KU KD KN lt ln ld Ty Ns C O H N Gc Go Gh Nt].
  assert (Hi : (i < length gs)%nat) by (apply nth_error_Some; congruence).
  pose proof (nth_error_Forall _ _ _ _ G Hg) as [HT HP].
  assert (SN := firstn_snoc_err gs i g Hg).
  assert (B : forall ty, total ty gs = total ty (firstn i gs) + (if fst g =? ty then snd g else 0) + total ty (skipn (S i) gs)).
  { intros ty. rewrite <- total_snoc, <- SN, <- total_app, firstn_skipn. reflexivity. }
  assert (G2 : forall ty, 0 <= total ty (skipn (S i) gs)).
  { intros ty. apply total_ge. apply Forall_forall. intros x Hx. apply (proj1 (Forall_forall _ _) G).
    rewrite <- (firstn_skipn (S i)). apply in_or_app. auto. }
  assert (G1 : forall ty, 0 <= total ty (firstn i gs)).
  { intros ty. apply total_ge. apply Forall_forall. intros x Hx. apply (proj1 (Forall_forall _ _) G).
    rewrite <- (firstn_skipn i). apply in_or_app. auto. }
  assert (S24 : snd g <= 24).
  { destruct HT as [E|[E|E]]; [specialize (B 0)|specialize (B 1)|specialize (B 3)]; rewrite E in B; cbn [Z.eqb Pos.eqb] in B;
      [specialize (G2 0); specialize (G1 0)|specialize (G2 1); specialize (G1 1)|specialize (G2 3); specialize (G1 3)]; lia. }
  unfold sig_group, Spec_Config.enc_group. cbv zeta. rewrite <- !app_assoc. rewrite (runA_rdb 3 3) by lia.
  rewrite runA_aset by lia. rewrite Nat2Z.id.
  rewrite (read_escape_enc 5 8 16) by (try (cbn; lia); change (esc_max 5 8 16) with 65821; lia).
  replace (snd g - 1 + 1) with (snd g) by lia.
  rewrite runA_aset by lia. rewrite Nat2Z.id.
  assert (E1 : firstn (S i) (firstn i (q_type (u_sig u)) ++ fst g :: skipn (S i) (q_type (u_sig u))) = map fst (firstn (S i) gs)).
  { rewrite firstn_aset by lia. rewrite Ty, SN, map_app. reflexivity. }
  assert (E2 : firstn (S i) (firstn i (q_nsig (u_sig u)) ++ snd g :: skipn (S i) (q_nsig (u_sig u))) = map snd (firstn (S i) gs)).
  { rewrite firstn_aset by lia. rewrite Ns, SN, map_app. reflexivity. }
  assert (TS : forall ty, total ty (firstn (S i) gs) = total ty (firstn i gs) + (if fst g =? ty then snd g else 0)).
  { intros ty. rewrite SN. apply total_snoc. }
  assert (GS : forall ty, groups_of ty (map fst (firstn (S i) gs)) = groups_of ty (map fst (firstn i gs)) + (if fst g =? ty then 1 else 0)).
  { intros ty. rewrite SN, map_app. cbn [map]. apply groups_of_snoc'. }
  destruct HT as [E|[E|E]]; rewrite E in *.
  - change (0 =? 3) with false. change (0 =? 2) with false. change (0 =? 1) with false. change (0 =? 0) with true. cbv iota.
    specialize (B 0). cbn [Z.eqb] in B. specialize (G2 0). specialize (G1 0).
    cbn [q_ch s_q_ch s_q_gch s_q_nsig s_q_type u_nout s_u_nout s_u_sig].
    destruct (Z.ltb_spec 24 (q_ch (u_sig u) + snd g)); [lia|].
    destruct (Z.ltb_spec 24 (u_nout u + snd g)); [lia|]. cbn [orb].
      rewrite (runA_rdb 1 1) by lia. rewrite runA_aset by (cbn; lia). rewrite Nat2Z.id. change (0 =? 1) with false. cbv iota. cbn [runA].
    eexists. split; [reflexivity|].
    constructor; cbn -[firstn skipn app total groups_of map]; try (rewrite aset_len; lia); auto;
      rewrite ?TS, ?GS; cbn [Z.eqb Pos.eqb]; lia.
  - change (1 =? 3) with false. change (1 =? 2) with false. change (1 =? 1) with true. cbv iota.
    destruct (Z.ltb_spec 24 (snd g)); [lia|]. cbn [runA]. change (1 =? 0) with false. cbv iota. cbn [app].
    eexists. split; [reflexivity|].
    constructor; cbn -[firstn skipn app total groups_of map]; try (rewrite aset_len; lia); auto;
      rewrite ?TS, ?GS; cbn [Z.eqb Pos.eqb]; lia.
  - change (3 =? 3) with true. cbv iota.
    destruct (Z.ltb_spec 24 (snd g)); [lia|]. cbn [runA]. change (3 =? 0) with false. cbv iota. cbn [app].
    eexists. split; [reflexivity|]. destruct KD as [h0 KD].
    constructor; cbn -[firstn skipn app total groups_of map]; try (rewrite aset_len; lia); auto;
      rewrite ?TS, ?GS; cbn [Z.eqb Pos.eqb]; try lia. rewrite KD. eexists. reflexivity.
Qed.

Lemma signals_run2 u user gs rest : (1 <= length gs <= 16)%nat -> good_groups gs ->
  total 0 gs <= 24 -> total 1 gs <= 24 -> total 3 gs <= 24 ->
  sig_ok (u_sig u) -> l_type (u_ref u) <> 3 -> (u_rdc u = 1 \/ exists t, Forall (fun g => fst g = t) gs) ->
  exists u', runA (signals u user) (bits_of 5 (Z.of_nat (length gs) - 1) ++ concat (map Spec_Config.enc_group gs) ++ rest) = Done ((0, u'), rest) /\
    q_num (u_sig u') = Z.of_nat (length gs) /\
    grps_inv (s_u_sig u (s_q_num (u_sig u) (Z.of_nat (length gs)))) gs (length gs) u'.
Proof.
  intros L G T0 T1 T3 [S1 S2 S3 S4 S5 S6 S7] R D. unfold signals. cbv zeta.
  rewrite (runA_rdb 5 5) by lia. replace (Z.of_nat (length gs) - 1 + 1) with (Z.of_nat (length gs)) by lia.
  destruct (Z.ltb_spec 16 (Z.of_nat (length gs))); [lia|].
  cbn [u_ref s_u_nout s_u_sig]. destruct (Z.eqb_spec (l_type (u_ref u)) 3); [congruence|]. cbn [andb].
  rewrite runA_bind, Nat2Z.id.
  set (u1 := s_u_nout _ 0).
  destruct (forE_tab sig_group Spec_Config.enc_group
     (fun i t => grps_inv (s_u_sig u (s_q_num (u_sig u) (Z.of_nat (length gs)))) gs i (fst t)) gs) with (ys := gs) (i := 0%nat) (t := (u1, 0)) (rest := rest)
    as ([u2 cn] & E & I).
  - intros i [t cn] x r Hx HI. apply sig_group_run2 with (u0 := s_u_sig u (s_q_num (u_sig u) (Z.of_nat (length gs)))); auto; lia.
  - reflexivity.
  - constructor; cbn; auto; try lia. exists (d_hoa (u_dec u)). destruct (u_dec u); reflexivity.
  - rewrite E. cbv beta iota. change (negb (0 =? 0)) with false. cbv iota. cbn [Nat.add fst] in I.
    assert (I' := I). destruct I' as [KU KD KN lt ln ld Ty Ns C O HH N Gc Go Gh Nt].
    rewrite Ty. rewrite firstn_all in *.
    assert (X : (1 <? Z.of_nat (length gs)) && (u_rdc u2 =? 0)
       && negb (forallb (fun t => t =? nth 0 (map fst gs) 0) (map fst gs)) = false).
    { destruct D as [D|D].
      - unfold uproj2 in KU. cbn in KU. assert (RD : u_rdc u2 = u_rdc u) by (inversion KU; congruence). rewrite RD, D. cbn. now rewrite !andb_false_r.
      - rewrite all_same_types by exact D. cbn. now rewrite !andb_false_r. }
    rewrite X. cbn [runA]. eexists. split; [reflexivity|].
    assert (KK : forall u', uproj2 u' = uproj2 u2 -> u_dec u' = u_dec u2 -> u_nout u' = u_nout u2 ->
       (q_num (u_sig u'), q_type (u_sig u'), q_nsig (u_sig u'), q_ch (u_sig u'), q_obj (u_sig u'), q_hoa (u_sig u'), q_differs (u_sig u'),
        q_gch (u_sig u'), q_gobj (u_sig u'), q_ghoa (u_sig u')) =
       (q_num (u_sig u2), q_type (u_sig u2), q_nsig (u_sig u2), q_ch (u_sig u2), q_obj (u_sig u2), q_hoa (u_sig u2), q_differs (u_sig u2),
        q_gch (u_sig u2), q_gobj (u_sig u2), q_ghoa (u_sig u2)) ->
       q_num (u_sig u') = Z.of_nat (length gs) /\ grps_inv (s_u_sig u (s_q_num (u_sig u) (Z.of_nat (length gs)))) gs (length gs) u').
    { intros u' A1 A2 A3 B. inversion B as [[B1 B2 B3 B4 B5 B6 B7 B8 B9 B10]]. cbn in KN.
      split; [congruence|]. constructor; rewrite ?firstn_all; rewrite ?A2; auto; try congruence.
      cbn. congruence. }
    apply KK; destruct (0 <? q_ghoa _), (0 <? q_gobj _), (0 <? q_gch _); reflexivity.
Qed.

(** ** Configuration extensions *)
Lemma framed_lax_run {X} len (p : prog (Z * X)) body pad rest x :
  runA p (body ++ pad ++ rest) = Done ((0, x), pad ++ rest) -> Z.of_nat (length (body ++ pad)) = 8 * len ->
  runA (framed_lax len p) ((body ++ pad) ++ rest) = Done ((0, x), rest).
Proof.
  intros E L. rewrite app_length in L. unfold framed_lax, avail. cbn [bind runA]. rewrite <- app_assoc, runA_bind, E.
  cbv beta iota. change (negb (0 =? 0)) with false. cbv iota. cbn [bind runA].
  rewrite !app_length.
  destruct (Z.ltb_spec (Z.of_nat (length body + (length pad + length rest)) - Z.of_nat (length pad + length rest)) (len * 8)).
  - rewrite (runA_skipb _ _ pad) by lia. reflexivity.
  - destruct pad; [reflexivity|]. cbn [length] in *. lia.
Qed.

Lemma cxlen8 x : Z.of_nat (length (cxbody x)) mod 8 = 0 -> Z.of_nat (length (cxbody x)) = 8 * cxlen x /\ 0 <= cxlen x.
Proof. intros H. unfold cxlen. split; [|apply Z.div_pos; lia]. apply Z.div_exact in H; lia. Qed.

Lemma fill_run n : forall i u rest,
  runA (forE n i (fun _ u => v <- rd 8 ;; if negb (v =? 0xA5) then Ret (E_FILLBYTE, u) else Ret (0, u)) u)
    (bytes_bits (repeat 0xA5 n) ++ rest) = Done ((0, u : ucfg), rest).
Proof.
  induction n as [|n IH]; intros i u rest; cbn [forE repeat]; [reflexivity|].
  change (bytes_bits (165 :: repeat 165 n)) with (bits_of 8 165 ++ bytes_bits (repeat 165 n)). rewrite <- app_assoc.
  rewrite runA_bind, (runA_rdb 8 8) by lia. change (negb (165 =? 165)) with false. cbv iota. cbn [runA].
  change (0 =? 0) with true. cbn [negb]. cbv iota. apply IH.
Qed.

Lemma skip_run bs : forall i rest, runA (forP (length bs) i (fun _ _ => skip 8) tt) (bytes_bits bs ++ rest) = Done (tt, rest).
Proof.
  induction bs as [|b bs IH]; intros i rest; cbn [length forP]; [reflexivity|].
  change (bytes_bits (b :: bs)) with (bits_of 8 b ++ bytes_bits bs). rewrite <- app_assoc.
  rewrite (runA_skipb _ _ (bits_of 8 b)) by reflexivity. apply IH.
Qed.

(** The compatibility set. *)
Definition cmin (lo hi : Z) (v w : Z) : Z := if (lo <=? v) && (v <=? hi) then Z.min w v else w.
Lemma compat_loop bs : are_bytes bs -> forall i (ind : list Z) lc bp rest, (i + length bs <= length ind)%nat ->
  exists ind', length ind' = length ind /\ runA (forP (length bs) i (fun i '(ind, lc, bp) =>
      v <- rd 8 ;;
      let lc' := if (0x0B <=? v) && (v <=? 0x0F) then Z.min lc v else lc in
      let bp' := if (0x10 <=? v) && (v <=? 0x14) then Z.min bp v else bp in
      ind' <- aset ind (Z.of_nat i) v ;;
      Ret (ind', lc', bp')) (ind, lc, bp)) (bytes_bits bs ++ rest) =
    Done ((ind', fold_left (fun w v => cmin 0x0B 0x0F v w) bs lc, fold_left (fun w v => cmin 0x10 0x14 v w) bs bp), rest).
Proof.
  induction 1 as [|b bs Hb _ IH]; intros i ind lc bp rest L; cbn [length forP fold_left].
  - exists ind. split; reflexivity.
  - cbn [length] in L. change (bytes_bits (b :: bs)) with (bits_of 8 b ++ bytes_bits bs). rewrite <- app_assoc.
    unfold is_byte in Hb. rewrite runA_bind, (runA_rdb 8 8) by lia. cbv zeta. rewrite runA_aset by lia. cbn [runA]. rewrite Nat2Z.id.
    destruct (IH (S i) (firstn i ind ++ b :: skipn (S i) ind) (cmin 11 15 b lc) (cmin 16 20 b bp) rest) as (ind' & L' & E).
    { rewrite set_len; lia. }
    exists ind'. rewrite set_len in L' by lia. split; [exact L'|]. exact E.
Qed.

Lemma low_fold lo hi top l : lo <= hi -> hi <= top -> forall w o, w <= top -> lo <= w ->
  match o with Some v => w = v /\ v <= hi | None => hi < w end ->
  let r := fold_left (fun w v => cmin lo top v w) l w in
  match fold_left (fun o v => if (lo <=? v) && (v <=? hi) then
    match o with Some w => Some (Z.min v w) | None => Some v end else o) l o with
  | Some v => r = v /\ lo <= v <= hi
  | None => hi < r
  end.
Proof.
  intros H1 H2. induction l as [|x l IH]; intros w o Hw Hl HI; cbn [fold_left].
  - destruct o; [|exact HI]. lia.
  - cbv zeta in *. apply IH; unfold cmin.
    + destruct ((lo <=? x) && (x <=? top)); lia.
    + destruct (Z.leb_spec lo x), (Z.leb_spec x top); cbn [andb]; lia.
    + destruct (Z.leb_spec lo x), (Z.leb_spec x top), (Z.leb_spec x hi); cbn [andb]; try lia; destruct o; lia.
Qed.

Lemma level_used_ok prof l c :
  co_lc c = fold_left (fun w v => cmin 0x0B 0x0F v w) l 0x0F -> co_bp c = fold_left (fun w v => cmin 0x10 0x14 v w) l 0x14 ->
  profile_used prof 1 c = match lowest 0x10 0x12 l, lowest 0x0B 0x0D l with
    | Some b, _ => b | None, Some c => c | None, None => prof end.
Proof.
  intros E1 E2. unfold profile_used, bp_supported, lowest. change (1 =? 0) with false. cbv iota. rewrite E1, E2.
  assert (A := low_fold 16 18 20 l ltac:(lia) ltac:(lia) 20 None ltac:(lia) ltac:(lia) ltac:(cbv iota beta; lia)). cbv zeta in A.
  assert (B := low_fold 11 13 15 l ltac:(lia) ltac:(lia) 15 None ltac:(lia) ltac:(lia) ltac:(cbv iota beta; lia)). cbv zeta in B.
  destruct (fold_left _ l None) as [v|].
  - destruct A as [-> A]. destruct (Z.leb_spec v 18), (Z.leb_spec 16 v); cbn [andb]; lia.
  - destruct (Z.leb_spec (fold_left (fun w v => cmin 16 20 v w) l 20) 18); [lia|]. cbn [andb].
    destruct (fold_left _ l None) as [v|].
    + destruct B as [-> B]. destruct (Z.leb_spec v 13), (Z.leb_spec 11 v); cbn [andb]; lia.
    + destruct (Z.leb_spec (fold_left (fun w v => cmin 11 15 v w) l 15) 13); [lia|]. reflexivity.
Qed.

Record cdim (u : ucfg) : Prop := {
  cd_p : length (d_cfgp (u_dec u)) = 5%nat; cd_l : length (d_cfgl (u_dec u)) = 5%nat;
  cd_t : length (d_cfgt (u_dec u)) = 5%nat; cd_b : length (d_cfgb (u_dec u)) = 5%nat;
  cd_bs : Forall (fun b => Z.of_nat (length b) = 1536) (d_cfgb (u_dec u));
  cd_ind : length (co_ind (d_compat (u_dec u))) = 16%nat }.
(** What an extension leaves alone. *)
Definition cuproj (u : ucfg) :=
  (u_fidx u, u_freq u, u_sfi u, u_flen u, u_rdc u, u_ref u, u_nout u, u_sig u, u_oam u, u_enh u, u_enhp u, u_prod u,
   u_hoap u, u_oamp u, u_chp u, u_3b u).
Definition cdproj (d : decc) :=
  (d_num d, d_type d, d_etype d, d_outch d, d_elp d, d_elem d, d_plen d, d_ppres d, d_pbuf d, d_preroll d, d_hoa d, d_hm d, d_hmp d,
   d_cicp d, d_cfgn d, d_prof d).
Definition ctabs (d : decc) (j : nat) :=
  (nth_error (d_cfgt d) j, nth_error (d_cfgp d) j, nth_error (d_cfgl d) j, nth_error (d_cfgb d) j).

Definition comp_is (l : list Z) (d : decc) : Prop :=
  d_compp d = 1 /\ co_lc (d_compat d) = fold_left (fun w v => cmin 0x0B 0x0F v w) l 0x0F /\
  co_bp (d_compat d) = fold_left (fun w v => cmin 0x10 0x14 v w) l 0x14.

Record cstep (cicp : Z) (i : nat) (x : cext) (u u' : ucfg) : Prop := {
  cs_dim : cdim u'; cs_u : cuproj u' = cuproj u; cs_d : cdproj (u_dec u') = cdproj (u_dec u);
  cs_tabs : forall j, j <> i -> ctabs (u_dec u') j = ctabs (u_dec u) j;
  cs_holds : holds_cext x i (u_dec u');
  cs_dmx : match dmx_of x with Some l => d_dmxp (u_dec u') = 1 /\ holds_dmx cicp l (d_dmx (u_dec u'))
    | None => d_dmxp (u_dec u') = d_dmxp (u_dec u) /\ d_dmx (u_dec u') = d_dmx (u_dec u) end;
  cs_scene : match scene_of x with Some s => u_asip u' = 1 /\ holds_scene s (u_asi u')
    | None => u_asip u' = u_asip u /\ u_asi u' = u_asi u end;
  cs_comp : match compat_of x with Some l => comp_is l (u_dec u')
    | None => d_compp (u_dec u') = d_compp (u_dec u) /\ d_compat (u_dec u') = d_compat (u_dec u) end }.

Ltac cstep_tac :=
  constructor; unfold cuproj, cdproj, ctabs, dmx_of, scene_of, compat_of; cbn -[firstn skipn app nth_error cxlen];
  [ constructor; cbn -[firstn skipn app nth_error]; rewrite ?set_len by lia; auto
  | reflexivity | reflexivity
  | intros jj Hjj; rewrite ?set_other by lia; reflexivity
  | split; cbn -[firstn skipn app nth_error cxlen]; [apply set_this; lia|auto]
  | auto | auto | auto ].

Lemma cext_run cicp i u x rest : (i < 5)%nat -> cdim u -> valid_cext x ->
  nth_error (d_cfgp (u_dec u)) i = Some 0 -> nth_error (d_cfgl (u_dec u)) i = Some 0 ->
  (forall s, scene_of x = Some s -> shape (u_asi u) /\ preset_checks s (a_groups (u_asi u)) /\ (a_ns (u_asi u) <= 0 \/ d_elp (u_dec u) = 1)) ->
  exists u', runA (config_ext_one cicp i u) (enc_cext x ++ rest) = Done ((0, u'), rest) /\ cstep cicp i x u u'.
Proof.
  intros Hi D (V8 & VL & V) Hp Hl HS. destruct (cxlen8 x V8) as [L8 L0].
  assert (D0 := D). destruct D0.
  assert (T : 0 <= cxtype x <= 65805).
  { destruct x; cbn [cxtype]; lia. }
  unfold config_ext_one, enc_cext. rewrite <- !app_assoc. rewrite enc_esc by lia. rewrite enc_esc by lia.
  rewrite runA_aset by lia. rewrite Nat2Z.id. cbv zeta.
  destruct (Z.ltb_spec 1536 (cxlen x)); [lia|].
  destruct x as [n|l pad|bs|s pad|ls|ty bs]; cbn [cxtype Z.eqb Pos.eqb] in *; cbv iota.
  - (* fill *)
    assert (EL : cxlen (XFill n) = Z.of_nat n).
    { cbn [cxbody] in L8. rewrite bytes_bits_length, repeat_length in L8. lia. }
    rewrite EL, Nat2Z.id. cbn [cxbody]. rewrite fill_run. eexists. split; [reflexivity|]. cstep_tac.
  - (* downmix *)
    destruct V as (V1 & V2 & V3). cbn [cxbody] in *.
    destruct (dmx_config_run cicp l (pad ++ rest) V1 V2 V3) as (y & E & H').
    eexists. split.
    { apply framed_lax_run; [|exact L8]. rewrite runA_bind, E. cbv beta iota zeta. change (negb (0 =? 0)) with false. cbv iota.
      unfold mark_ext. rewrite bind_assoc, runA_aset by (cbn; lia). rewrite bind_assoc, runA_aset by (cbn; lia). cbn [bind runA]. reflexivity. }
    rewrite Nat2Z.id. cstep_tac; rewrite ?set_this by lia; auto.
  - (* loudness *)
    cbn [cxbody] in *. rewrite bytes_bits_length in L8.
    unfold mark_ext. rewrite bind_assoc, runA_aset by (cbn; lia). rewrite bind_assoc, runA_aset by (cbn; lia). cbn [bind].
    destruct (nth_error_Some_ex (d_cfgb (u_dec u)) i ltac:(lia)) as [b Hb].
    rewrite (runA_aget _ _ b) by (try lia; rewrite Nat2Z.id; exact Hb).
    assert (Lb := nth_error_Forall _ _ _ _ cd_bs0 Hb). cbv beta in Lb.
    assert (EL : cxlen (XLoud bs) = Z.of_nat (length bs)) by lia. rewrite EL in *.
    rewrite runA_bind, rd_bytes_run by (auto; lia). rewrite runA_aset by (cbn; lia). cbn [runA]. rewrite Nat2Z.id.
    eexists. split; [reflexivity|].
    assert (LB : Z.of_nat (length (bs ++ skipn (length bs) b)) = 1536) by (rewrite app_length, skipn_length; lia).
    cstep_tac.
    + apply set_Forall; auto; lia.
    + rewrite !set_this by lia. rewrite EL. split; [reflexivity|]. split; [reflexivity|]. eexists. split; [reflexivity|]. apply firstn_map_app. reflexivity.
  - (* scene *)
    destruct V as (V1 & V2). destruct (HS s eq_refl) as (S1 & S2 & S3). cbn [cxbody] in *.
    cbn [u_asi u_dec s_u_dec d_elp s_d_cfgt].
    assert (X : (0 <? a_ns (u_asi u)) && negb (d_elp (u_dec u) =? 1) = false).
    { destruct S3 as [S3| ->]; [|now rewrite andb_false_r]. destruct (Z.ltb_spec 0 (a_ns (u_asi u))); [lia|reflexivity]. }
    rewrite X.
    destruct (asi_parse_rt (u_asi u) s (pad ++ rest) S1 V1 V2 S2) as (a' & E & Sh & H').
    eexists. split.
    { apply framed_lax_run; [|exact L8]. rewrite runA_bind. cbn [u_asi s_u_asip s_u_dec]. rewrite E. reflexivity. }
    cstep_tac. split; [reflexivity|]. unfold holds_scene. intuition.
  - (* compatibility set *)
    destruct V as (V1 & V2). cbn [cxbody] in *. unfold compatible_set.
    rewrite <- !app_assoc. rewrite bind_assoc, (runA_rdb 4 4) by (try lia; change (2 ^ 4) with 16; lia).
    rewrite bind_assoc, (runA_rdb 4 4) by lia. replace (Z.of_nat (length ls) - 1 + 1) with (Z.of_nat (length ls)) by lia. rewrite Nat2Z.id.
    destruct (compat_loop ls V2 0 (co_ind (d_compat (u_dec u))) 15 20 rest ltac:(lia)) as (ind' & LI & E).
    rewrite bind_assoc, runA_bind. cbn [u_dec s_u_dec d_compat s_d_cfgt]. cbv zeta in E. rewrite E. cbn [bind runA]. eexists. split; [reflexivity|].
    cstep_tac.
    + congruence.
    + split; [reflexivity|]. split; reflexivity.
  - (* anything else *)
    destruct V as (V1 & V2 & VN). cbn [In] in VN. cbn [cxbody] in *. rewrite bytes_bits_length in L8.
    destruct (Z.eqb_spec ty 7); [exfalso; apply VN; auto 12|]. destruct (Z.eqb_spec ty 4); [exfalso; apply VN; auto 12|].
    destruct (Z.eqb_spec ty 1); [exfalso; apply VN; auto 12|]. destruct (Z.eqb_spec ty 2); [exfalso; apply VN; auto 12|].
    destruct (Z.eqb_spec ty 3); [exfalso; apply VN; auto 12|]. destruct (Z.eqb_spec ty 6); [exfalso; apply VN; auto 12|].
    destruct (Z.eqb_spec ty 0); [exfalso; apply VN; auto 12|].
    unfold avail. cbn [bind runA]. rewrite app_length, bytes_bits_length.
    assert (EL : cxlen (XOther ty bs) = Z.of_nat (length bs)) by lia. rewrite EL.
    match goal with |- context [?a / 8 <? ?b] => destruct (Z.ltb_spec (a / 8) b) as [X|_] end.
    { assert (Z.of_nat (length bs) <= Z.of_nat (8 * length bs + length rest) / 8); [|lia]. apply Z.div_le_lower_bound; lia. }
    rewrite Nat2Z.id, runA_bind, skip_run. cbn [runA]. eexists. split; [reflexivity|]. cstep_tac.
Qed.
