(** * Lem_ConfigRT: a stream configuration is stored as it was sent *)

From Coq Require Import ZArith List Lia Bool.
From Verif Require Import Bits BitBuf BitWrite Prog Asi Escape Wp Wlp Loops Frame Cicp Hoa Mhas Config Leaf Spec_Config
  Spec_Asi Lem_MhasProps Lem_Config Lem_ConfigSafe Lem_Hoa Lem_HoaMat Lem_ConfigMem Lem_Dmx Lem_Scan.
Import ListNotations.
Open Scope Z_scope.

Ltac rdb n := rewrite (runA_rdb (Z.of_nat n) n) by (try lia; cbn; lia).

(** ** Elements *)
Lemma igf_run {B} igf pair l (k : list Z -> prog B) rest :
  length l = 7%nat -> Forall (fun '(w, v) => 0 <= v < 2 ^ Z.of_nat w) (combine (igf_widths pair) l) ->
  (pair = false -> nth 6 l 0 = 1) ->
  runA (bind (igf_config igf 1 pair) k) (enc_igf pair l ++ rest) = runA (k l) rest.
Proof.
  intros L F H.
  destruct l as [|a [|b [|c [|d [|e [|f [|g [|? ?]]]]]]]]; try discriminate L. clear L.
  unfold igf_config, enc_igf, igf_widths in *. change (1 =? 0) with false. cbv iota.
  destruct pair; cbn [app combine map concat] in *; rewrite !app_nil_r, <- !app_assoc.
  - repeat match goal with H : Forall _ (_ :: _) |- _ => inversion H; clear H; subst end.
    rewrite !bind_assoc. rewrite (runA_rdb 1 1) by (auto; lia).
    do 3 (rewrite bind_assoc, (runA_rdb 1 1) by (auto; lia)).
    rewrite bind_assoc, (runA_rdb 5 5) by (auto; lia). rewrite bind_assoc, (runA_rdb 4 4) by (auto; lia).
    rewrite bind_assoc, (runA_rdb 1 1) by (auto; lia). reflexivity.
  - repeat match goal with H : Forall _ (_ :: _) |- _ => inversion H; clear H; subst end.
    specialize (H eq_refl). cbn [nth] in H. subst g.
    rewrite !bind_assoc. rewrite (runA_rdb 1 1) by (auto; lia).
    do 3 (rewrite bind_assoc, (runA_rdb 1 1) by (auto; lia)).
    rewrite bind_assoc, (runA_rdb 5 5) by (auto; lia). rewrite bind_assoc, (runA_rdb 4 4) by (auto; lia).
    reflexivity.
Qed.

Lemma fold_count_ge l : forall c, 0 <= c -> 0 <= fold_left (fun c v => if v =? c then c + 1 else c) l c.
Proof. induction l as [|v l IH]; intros c Hc; cbn; [exact Hc|]. apply IH. destruct (v =? c); lia. Qed.
Lemma next_channel_ge l : 0 <= next_channel l.
Proof.
  unfold next_channel. generalize 24%nat. intros n. induction n as [|n IH]; cbn [Nat.iter nat_rect]; [lia|].
  apply fold_count_ge, IH.
Qed.

Lemma map_ele_run l : length l = 50%nat ->
  exists l' i, (forall B (k : list Z * Z -> prog B) rest, runA (bind (map_ele l 0 0) k) rest = runA (k (l', i)) rest) /\ length l' = 50%nat /\
    0 <= i < 50 /\ exists v, nth_error l' (Z.to_nat i) = Some v /\ 0 <= v.
Proof.
  intros L. unfold map_ele.
  set (i := match first_neg (firstn 24 l) 0 with Some k => k | None => 0 end).
  assert (Hi : 0 <= i < 50).
  { unfold i. destruct (first_neg (firstn 24 l) 0) as [z|] eqn:E; [|lia].
    apply first_neg_range in E; [|lia]. rewrite firstn_length in E. lia. }
  exists (firstn (Z.to_nat i) l ++ next_channel l :: skipn (S (Z.to_nat i)) l), i.
  split; [|split; [|split; [exact Hi|]]].
  - intros. rewrite bind_assoc, runA_aset by lia. reflexivity.
  - rewrite aset_len; lia.
  - exists (next_channel l). split; [apply nth_aset_eq; lia|apply next_channel_ge].
Qed.

(** What the elements keep. *)
Definition keep_dec (d d' : decc) : Prop :=
  d_num d' = d_num d /\ d_elp d' = d_elp d /\ d_compp d' = d_compp d /\ d_compat d' = d_compat d.
Definition dec_dim (d : decc) : Prop :=
  length (d_type d) = 50%nat /\ length (d_elem d) = 50%nat /\ length (d_outch d) = 50%nat.

(** Reading the tools of an element, up to the IGF parameters. *)
Ltac tools V t EG :=
  let V1 := fresh in let V2 := fresh in let V3 := fresh in let L0 := fresh in let F0 := fresh in let H0 := fresh in
  destruct V as (V1 & V2 & V3); unfold is_bit in *; unfold enc_tools; rewrite <- !app_assoc;
  rewrite (runA_rdb 1 1) by lia; change (negb (0 =? 0)) with false; cbv iota;
  rewrite (runA_rdb 1 1) by lia; rewrite (runA_rdb 1 1) by lia;
  destruct (ct_igf t) as [?|] eqn:EG;
  [destruct V3 as (L0 & F0 & H0); rewrite <- app_assoc; rewrite (runA_rdb 1 1) by lia; rewrite igf_run by auto
  |rewrite (runA_rdb 1 1) by lia;
   match goal with |- context [igf_config ?x 0 ?p] => change (igf_config x 0 p) with (Ret x) end; cbn [bind]].

Lemma dec_element_run i u e rest : (i < 50)%nat -> dec_dim (u_dec u) -> valid_elem e ->
  exists d' el, runA (dec_element i u) (enc_elem e ++ rest) = Done ((0, s_u_dec u d'), rest) /\ dec_dim d' /\
    keep_dec (u_dec u) d' /\
    d_type d' = firstn i (d_type (u_dec u)) ++ elem_type e :: skipn (S i) (d_type (u_dec u)) /\
    d_elem d' = firstn i (d_elem (u_dec u)) ++ el :: skipn (S i) (d_elem (u_dec u)) /\ holds_elem e el.
Proof.
  intros Hi (D1 & D2 & D3) V. unfold dec_element.
  destruct (nth_error_Some_ex (d_elem (u_dec u)) i ltac:(lia)) as [el0 Hel].
  destruct e as [t|t ls|]; unfold enc_elem; rewrite <- ?app_assoc.
  - rewrite (runA_rdb 2 2) by lia. rewrite runA_aset by lia. rewrite Nat2Z.id. cbv zeta.
    cbn [u_dec s_u_dec d_elem s_d_type].
    rewrite (runA_aget (d_elem (u_dec u)) (Z.of_nat i) el0) by (try lia; rewrite Nat2Z.id; exact Hel).
    change (0 =? 3) with false. change (0 =? 2) with false. change (0 =? 1) with false. cbv iota.
    destruct (map_ele_run (d_outch (u_dec u)) D3) as (l' & j & E & L & _).
    cbn [valid_elem] in V. tools V t EG;
    rewrite runA_aset by (cbn [d_elem s_d_type]; lia); cbn [d_outch s_d_type];
    rewrite E; cbn [runA]; rewrite Nat2Z.id; cbn [d_elem s_d_type];
    (eexists _, _; split; [reflexivity|]; split; [|split; [repeat split|]];
     [repeat split; cbn -[firstn skipn app]; try (rewrite aset_len; lia); exact L
     |split; [reflexivity|]; split; [reflexivity|]; cbn [holds_elem]; unfold holds_tools; rewrite EG; cbn; auto 6]).
  - destruct V as [V Hls]. unfold is_bit in Hls.
    rewrite (runA_rdb 2 2) by lia. rewrite runA_aset by lia. rewrite Nat2Z.id. cbv zeta.
    cbn [u_dec s_u_dec d_elem s_d_type].
    rewrite (runA_aget (d_elem (u_dec u)) (Z.of_nat i) el0) by (try lia; rewrite Nat2Z.id; exact Hel).
    change (1 =? 3) with false. change (1 =? 2) with false. change (1 =? 1) with true. cbv iota.
    rewrite runA_bind. unfold cpe_config. cbv zeta.
    set (tot := _ + _ + _).
    cbn [d_outch s_d_type].
    destruct (map_ele_run (d_outch (u_dec u)) D3) as (l1 & j1 & E1 & L1 & J1 & v1 & N1 & P1).
    destruct (map_ele_run l1 L1) as (l2 & j2 & E2 & L2 & J2 & v2 & N2 & P2).
    tools V t EG;
    rewrite (runA_rdb 2 2) by lia; change (negb (0 =? 0)) with false; cbv iota;
    rewrite E1; cbv beta iota; rewrite (runA_aget l1 j1 v1) by (auto; lia);
    (destruct (Z.ltb_spec v1 0); [lia|]); rewrite (runA_rdb 1 1) by lia; change (0 <? 0) with false; cbv iota; cbn [bind];
    rewrite E2; cbv beta iota; rewrite (runA_aget l2 j2 v2) by (auto; lia);
    (destruct (Z.ltb_spec v2 0); [lia|]); rewrite (runA_rdb 1 1) by lia; cbn [runA];
    rewrite runA_aset by (cbn [d_elem s_d_type]; lia); rewrite Nat2Z.id; cbn [runA d_elem s_d_type];
    (eexists _, _; split; [reflexivity|]; split; [|split; [repeat split|]];
     [repeat split; cbn -[firstn skipn app]; try (rewrite aset_len; lia); exact L2
     |split; [reflexivity|]; split; [reflexivity|]; cbn [holds_elem]; unfold holds_tools; rewrite EG; cbn; auto 8]).
  - rewrite (runA_rdb 2 2) by lia. rewrite runA_aset by lia. rewrite Nat2Z.id. cbv zeta.
    cbn [u_dec s_u_dec d_elem s_d_type].
    rewrite (runA_aget (d_elem (u_dec u)) (Z.of_nat i) el0) by (try lia; rewrite Nat2Z.id; exact Hel).
    change (2 =? 3) with false. change (2 =? 2) with true. cbv iota.
    rewrite runA_aset by (cbn [d_elem s_d_type]; lia). cbn [d_outch s_d_type].
    destruct (map_ele_run (d_outch (u_dec u)) D3) as (l' & j & E & L & _).
    rewrite E. cbn [runA]. rewrite Nat2Z.id. cbn [d_elem s_d_type].
    eexists _, _. split; [reflexivity|]. split; [|split; [repeat split|]].
    + repeat split; cbn -[firstn skipn app]; try (rewrite aset_len; lia); exact L.
    + split; [reflexivity|]. split; [reflexivity|]. split; reflexivity.
Qed.

(** ** Signal groups *)
Lemma total_nil ty : total ty [] = 0.
Proof. reflexivity. Qed.
Lemma total_snoc ty l g : total ty (l ++ [g]) = total ty l + (if fst g =? ty then snd g else 0).
Proof. unfold total. rewrite !map_app. cbn [map]. apply signals_of_snoc. now rewrite !map_length. Qed.
Lemma total_cons ty g l : total ty (g :: l) = (if fst g =? ty then snd g else 0) + total ty l.
Proof. reflexivity. Qed.
Lemma total_app ty l1 l2 : total ty (l1 ++ l2) = total ty l1 + total ty l2.
Proof. induction l1 as [|g l IH]; cbn [app]; rewrite ?total_nil, ?total_cons; [lia|]. rewrite IH. lia. Qed.
Lemma total_ge ty l : Forall (fun g => (fst g = 0 \/ fst g = 1 \/ fst g = 3) /\ 1 <= snd g) l -> 0 <= total ty l.
Proof.
  induction 1 as [|g l [_ H] _ IH]; rewrite ?total_nil, ?total_cons; [lia|]. destruct (fst g =? ty); lia.
Qed.

Definition good_groups := Forall (fun g : Z * Z => (fst g = 0 \/ fst g = 1 \/ fst g = 3) /\ 1 <= snd g).

(** What the groups keep. *)
Record kept (u u' : ucfg) : Prop := {
  kp_freq : u_freq u' = u_freq u; kp_flen : u_flen u' = u_flen u; kp_rdc : u_rdc u' = u_rdc u;
  kp_ref : u_ref u' = u_ref u; kp_num : q_num (u_sig u') = q_num (u_sig u);
  kp_type : d_type (u_dec u') = d_type (u_dec u); kp_elem : d_elem (u_dec u') = d_elem (u_dec u);
  kp_out : d_outch (u_dec u') = d_outch (u_dec u); kp_compp : d_compp (u_dec u') = d_compp (u_dec u) }.

Record grp_inv (u0 : ucfg) (gs : list (Z * Z)) (i : nat) (u : ucfg) : Prop := {
  gi_kept : kept u0 u;
  gi_lt : length (q_type (u_sig u)) = 32%nat; gi_ln : length (q_nsig (u_sig u)) = 32%nat;
  gi_ld : length (q_differs (u_sig u)) = 32%nat;
  gi_ty : firstn i (q_type (u_sig u)) = map fst (firstn i gs);
  gi_ns : firstn i (q_nsig (u_sig u)) = map snd (firstn i gs);
  gi_ch : q_ch (u_sig u) = total 0 (firstn i gs); gi_obj : q_obj (u_sig u) = total 1 (firstn i gs);
  gi_hoa : q_hoa (u_sig u) = total 3 (firstn i gs); gi_out : u_nout u = total 0 (firstn i gs) }.

Lemma sig_group_run u0 gs i u cn g rest : (length gs <= 16)%nat -> good_groups gs ->
  total 0 gs <= 16 -> total 1 gs <= 16 -> total 3 gs <= 16 -> nth_error gs i = Some g -> grp_inv u0 gs i u ->
  exists t', runA (sig_group i (u, cn)) (Spec_Config.enc_group g ++ rest) = Done ((0, t'), rest) /\ grp_inv u0 gs (S i) (fst t').
Proof.
  intros L G T0 T1 T3 Hg [K lt ln ld Ty Ns C O H N].
  assert (Hi : (i < length gs)%nat) by (apply nth_error_Some; congruence).
  pose proof (nth_error_Forall _ _ _ _ G Hg) as [HT HP].
  assert (SN := firstn_snoc_err gs i g Hg).
  assert (B : forall ty, total ty gs = total ty (firstn i gs) + (if fst g =? ty then snd g else 0) + total ty (skipn (S i) gs)).
  { intros ty. rewrite <- total_snoc, <- SN, <- total_app, firstn_skipn. reflexivity. }
  assert (G2 : forall ty, 0 <= total ty (skipn (S i) gs)).
  { intros ty. apply total_ge. apply Forall_forall. intros x Hx. apply (proj1 (Forall_forall _ _) G).
    rewrite <- (firstn_skipn (S i)). apply in_or_app. auto. }
  assert (G1 : forall ty, 0 <= total ty (firstn i gs)).
  { intros ty. apply total_ge. apply Forall_forall. intros x Hx. apply (proj1 (Forall_forall _ _) G).
    rewrite <- (firstn_skipn i). apply in_or_app. auto. }
  assert (S16 : snd g <= 16).
  { destruct HT as [E|[E|E]]; [specialize (B 0)|specialize (B 1)|specialize (B 3)]; rewrite E in B; cbn [Z.eqb Pos.eqb] in B;
      [specialize (G2 0); specialize (G1 0)|specialize (G2 1); specialize (G1 1)|specialize (G2 3); specialize (G1 3)]; lia. }
  unfold sig_group, Spec_Config.enc_group. cbv zeta. rewrite <- !app_assoc. rewrite (runA_rdb 3 3) by lia.
  rewrite runA_aset by lia. rewrite Nat2Z.id.
  rewrite (read_escape_enc 5 8 16) by (try (cbn; lia); change (esc_max 5 8 16) with 65821; lia).
  replace (snd g - 1 + 1) with (snd g) by lia.
  rewrite runA_aset by lia. rewrite Nat2Z.id.
  assert (E1 : firstn (S i) (firstn i (q_type (u_sig u)) ++ fst g :: skipn (S i) (q_type (u_sig u))) = map fst (firstn (S i) gs)).
  { rewrite firstn_aset by lia. rewrite Ty, SN, map_app. reflexivity. }
  assert (E2 : firstn (S i) (firstn i (q_nsig (u_sig u)) ++ snd g :: skipn (S i) (q_nsig (u_sig u))) = map snd (firstn (S i) gs)).
  { rewrite firstn_aset by lia. rewrite Ns, SN, map_app. reflexivity. }
  assert (TS : forall ty, total ty (firstn (S i) gs) = total ty (firstn i gs) + (if fst g =? ty then snd g else 0)).
  { intros ty. rewrite SN. apply total_snoc. }
  destruct HT as [E|[E|E]]; rewrite E in *.
  - change (0 =? 3) with false. change (0 =? 2) with false. change (0 =? 1) with false. change (0 =? 0) with true. cbv iota.
    specialize (B 0). cbn [Z.eqb] in B. specialize (G2 0). specialize (G1 0).
    cbn [q_ch s_q_ch s_q_gch s_q_nsig s_q_type u_nout s_u_nout s_u_sig].
    destruct (Z.ltb_spec 24 (q_ch (u_sig u) + snd g)); [lia|].
    destruct (Z.ltb_spec 24 (u_nout u + snd g)); [lia|]. cbn [orb].
      rewrite (runA_rdb 1 1) by lia. rewrite runA_aset by (cbn; lia). rewrite Nat2Z.id. change (0 =? 1) with false. cbv iota. cbn [runA].
    eexists. split; [reflexivity|]. destruct K.
    constructor; cbn -[firstn skipn app total]; try (rewrite aset_len; lia); auto;
      try (constructor; cbn; auto); rewrite TS; cbn [Z.eqb]; lia.
  - change (1 =? 3) with false. change (1 =? 2) with false. change (1 =? 1) with true. cbv iota.
    destruct (Z.ltb_spec 24 (snd g)); [lia|]. cbn [runA]. change (1 =? 0) with false. cbv iota. cbn [app].
    eexists. split; [reflexivity|]. destruct K.
    constructor; cbn -[firstn skipn app total]; try (rewrite aset_len; lia); auto;
      try (constructor; cbn; auto); rewrite TS; cbn [Z.eqb Pos.eqb]; lia.
  - change (3 =? 3) with true. cbv iota.
    destruct (Z.ltb_spec 24 (snd g)); [lia|]. cbn [runA]. change (3 =? 0) with false. cbv iota. cbn [app].
    eexists. split; [reflexivity|]. destruct K.
    constructor; cbn -[firstn skipn app total]; try (rewrite aset_len; lia); auto;
      try (constructor; cbn; auto); rewrite TS; cbn [Z.eqb Pos.eqb]; lia.
Qed.

Lemma all_same_types gs : (exists t, Forall (fun g : Z * Z => fst g = t) gs) ->
  forallb (fun t => t =? nth 0 (map fst gs) 0) (map fst gs) = true.
Proof.
  intros [t F]. apply forallb_forall. intros x Hx. apply in_map_iff in Hx. destruct Hx as (g & <- & Hg).
  rewrite Forall_forall in F. destruct gs as [|g0 gs]; [destruct Hg|]. cbn. apply Z.eqb_eq.
  rewrite (F g Hg), (F g0 (or_introl eq_refl)). reflexivity.
Qed.

Lemma signals_run u user gs rest : (1 <= length gs <= 16)%nat -> good_groups gs ->
  total 0 gs <= 16 -> total 1 gs <= 16 -> total 3 gs <= 16 ->
  sig_ok (u_sig u) -> l_type (u_ref u) = 0 -> (u_rdc u = 1 \/ exists t, Forall (fun g => fst g = t) gs) ->
  exists u', runA (signals u user) (bits_of 5 (Z.of_nat (length gs) - 1) ++ concat (map Spec_Config.enc_group gs) ++ rest) = Done ((0, u'), rest) /\
    q_num (u_sig u') = Z.of_nat (length gs) /\
    grp_inv (s_u_sig u (s_q_num (u_sig u) (Z.of_nat (length gs)))) gs (length gs) u'.
Proof.
  intros L G T0 T1 T3 [S1 S2 S3 S4 S5 S6 S7] R D. unfold signals. cbv zeta.
  rewrite (runA_rdb 5 5) by lia. replace (Z.of_nat (length gs) - 1 + 1) with (Z.of_nat (length gs)) by lia.
  destruct (Z.ltb_spec 16 (Z.of_nat (length gs))); [lia|].
  cbn [u_ref s_u_nout s_u_sig]. rewrite R. change (0 =? 3) with false. cbn [andb].
  rewrite runA_bind, Nat2Z.id.
  set (u1 := s_u_nout _ 0).
  destruct (forE_tab sig_group Spec_Config.enc_group
     (fun i t => grp_inv (s_u_sig u (s_q_num (u_sig u) (Z.of_nat (length gs)))) gs i (fst t)) gs) with (ys := gs) (i := 0%nat) (t := (u1, 0)) (rest := rest)
    as ([u2 cn] & E & I).
  - intros i [t cn] x r Hx HI. apply sig_group_run with (u0 := s_u_sig u (s_q_num (u_sig u) (Z.of_nat (length gs)))); auto; lia.
  - reflexivity.
  - constructor; cbn; auto. constructor; reflexivity.
  - rewrite E. cbv beta iota. change (negb (0 =? 0)) with false. cbv iota. cbn [Nat.add fst] in I.
    assert (I' := I). destruct I' as [K lt ln ld Ty Ns C O HH N].
    rewrite Ty. rewrite firstn_all.
    assert (X : (1 <? Z.of_nat (length gs)) && (u_rdc u2 =? 0)
       && negb (forallb (fun t => t =? nth 0 (map fst gs) 0) (map fst gs)) = false).
    { destruct D as [D|D].
      - rewrite (kp_rdc _ _ K). cbn. rewrite D. cbn. now rewrite !andb_false_r.
      - rewrite all_same_types by exact D. cbn. now rewrite !andb_false_r. }
    rewrite X. cbn [runA]. eexists. split; [reflexivity|].
    destruct K as [k1 k2 k3 k4 k5 k6 k7 k8 k9]. cbn in k1, k2, k3, k4, k5, k6, k7, k8, k9.
    assert (KK : forall u', (u_freq u', u_flen u', u_rdc u', u_ref u', u_dec u', u_nout u') = (u_freq u2, u_flen u2, u_rdc u2, u_ref u2, u_dec u2, u_nout u2) ->
       (q_num (u_sig u'), q_type (u_sig u'), q_nsig (u_sig u'), q_ch (u_sig u'), q_obj (u_sig u'), q_hoa (u_sig u'), q_differs (u_sig u')) =
       (q_num (u_sig u2), q_type (u_sig u2), q_nsig (u_sig u2), q_ch (u_sig u2), q_obj (u_sig u2), q_hoa (u_sig u2), q_differs (u_sig u2)) ->
       q_num (u_sig u') = Z.of_nat (length gs) /\ grp_inv (s_u_sig u (s_q_num (u_sig u) (Z.of_nat (length gs)))) gs (length gs) u').
    { intros u' A B. inversion A as [[A1 A2 A3 A4 A5 A6]]. inversion B as [[B1 B2 B3 B4 B5 B6 B7]].
      split; [congruence|]. constructor; try congruence. constructor; cbn; congruence. }
    apply KK; destruct (0 <? q_ghoa _), (0 <? q_gobj _), (0 <? q_gch _); reflexivity.
Qed.

(** ** The elements *)
Record el_inv (d0 : decc) (es : list celem) (i : nat) (d : decc) : Prop := {
  ei_dim : dec_dim d; ei_keep : keep_dec d0 d;
  ei_all : forall j e, (j < i)%nat -> nth_error es j = Some e ->
     nth_error (d_type d) j = Some (elem_type e) /\ exists el, nth_error (d_elem d) j = Some el /\ holds_elem e el }.

Lemma elements_run u es rest : (length es <= 50)%nat -> Forall valid_elem es -> dec_dim (u_dec u) ->
  exists d', runA (forE (length es) 0 dec_element u) (concat (map enc_elem es) ++ rest) = Done ((0, s_u_dec u d'), rest) /\
    el_inv (u_dec u) es (length es) d'.
Proof.
  intros L F D.
  destruct (forE_tab dec_element enc_elem (fun i t => exists d, t = s_u_dec u d /\ el_inv (u_dec u) es i d) es)
    with (ys := es) (i := 0%nat) (t := u) (rest := rest) as (t & E & d & -> & I).
  - intros i t e r He (d & -> & [D1 K1 A1]).
    assert (Hi : (i < length es)%nat) by (apply nth_error_Some; congruence).
    destruct (dec_element_run i (s_u_dec u d) e r) as (d' & el & E & D2 & K2 & T2 & L2 & H2).
    + lia.
    + exact D1.
    + apply (nth_error_Forall _ _ _ _ F He).
    + exists (s_u_dec u d'). split; [exact E|]. exists d'. split; [reflexivity|]. cbn [u_dec s_u_dec] in *. constructor.
      * exact D2.
      * unfold keep_dec in *. intuition congruence.
      * intros j x Hj Hx. destruct D1 as (a1 & a2 & a3). destruct (Nat.eq_dec j i) as [->|N].
        -- rewrite He in Hx. injection Hx as <-. rewrite T2, L2. rewrite !nth_aset_eq by lia. split; [reflexivity|eauto].
        -- rewrite T2, L2. rewrite !nth_aset_neq by lia. apply A1; [lia|exact Hx].
  - reflexivity.
  - exists (u_dec u). split; [destruct u; reflexivity|]. constructor; [exact D|repeat split|intros; lia].
  - exists d. split; [exact E|]. exact I.
Qed.

(** ** The whole configuration *)
Definition fi_of (r : Z + Z) : Z := match r with inl i => i | inr _ => 31 end.
Definition rate_ok (r : Z + Z) : Prop := match r with inl i => 3 <= i <= 8 | inr f => 0 < f <= 48000 end.
Lemma rate_run {B} r (k : Z -> Z -> prog B) (k0 : Z -> prog B) rest : rate_ok r ->
  runA (fi <- rd 5 ;;
        if negb (fi =? 31) && (8 <? fi) then k0 fi else
        fr <- (if negb (fi =? 31) then aget sampling_rate_tbl fi else rd 24) ;; k fi fr)
    (match r with inl i => bits_of 5 i | inr f => bits_of 5 31 ++ bits_of 24 f end ++ rest) = runA (k (fi_of r) (rate_of r)) rest.
Proof.
  destruct r as [i|f]; cbn [rate_ok fi_of rate_of]; intros H.
  - rewrite (runA_rdb 5 5) by lia. destruct (Z.eqb_spec i 31); [lia|]. destruct (Z.ltb_spec 8 i); [lia|]. cbn [negb andb].
    assert (X : i = 3 \/ i = 4 \/ i = 5 \/ i = 6 \/ i = 7 \/ i = 8) by lia.
    decompose [or] X; subst i; reflexivity.
  - rewrite <- app_assoc. rewrite (runA_rdb 5 5) by lia. change (negb (31 =? 31)) with false. cbn [andb].
    rewrite (runA_rdb 24 24) by (try lia; change (2 ^ Z.of_nat 24) with 16777216; lia). reflexivity.
Qed.
Lemma rate_range r : rate_ok r -> 0 < rate_of r <= 48000.
Proof.
  destruct r as [i|f]; cbn [rate_ok rate_of]; intros H; [|lia].
  assert (X : i = 3 \/ i = 4 \/ i = 5 \/ i = 6 \/ i = 7 \/ i = 8) by lia.
  decompose [or] X; subst i; vm_compute; split; congruence.
Qed.

Lemma num_ls_get i : 1 <= i <= 20 -> nth_error num_ls_tbl (Z.to_nat i) = Some (num_ls i).
Proof.
  intros H. unfold num_ls. apply nth_error_nth'. cbn [num_ls_tbl length]. lia.
Qed.

Lemma limit_check p core ref gch ghoa lim : level_limit p = Some lim -> core <= lim -> ref <= lim -> core <= 16 -> ref <= 16 ->
  profile_check p core ref gch ghoa = 0 /\ (p <? 0x0B) = false.
Proof.
  unfold level_limit, profile_check. intros H H1 H2 H3 H4.
  destruct ((p =? 11) || (p =? 16)) eqn:E1.
  { injection H as <-. destruct (Z.ltb_spec 5 core); [lia|]. destruct (Z.ltb_spec 5 ref); [lia|]. split; [reflexivity|]. lia. }
  destruct ((p =? 12) || (p =? 17)) eqn:E2.
  { injection H as <-. destruct (Z.ltb_spec 9 core); [lia|]. destruct (Z.ltb_spec 9 ref); [lia|]. split; [reflexivity|]. lia. }
  destruct ((p =? 13) || (p =? 18)) eqn:E3; [|discriminate]. rewrite orb_comm in E3. rewrite E3.
  destruct (Z.ltb_spec 24 core); [lia|]. destruct (Z.ltb_spec 24 ref); [lia|].
  destruct (Z.ltb_spec 16 core); [lia|]. destruct (Z.ltb_spec 16 ref); [lia|]. split; [reflexivity|]. lia.
Qed.

Lemma config_run user u c rest : cfg_ok u -> d_compp (u_dec u) = 0 -> valid_config c ->
  exists u', runA (mpegh_3da_config user u) (enc_config c ++ rest) = Done ((0, u'), rest) /\ holds_config c u'.
Proof.
  intros C CP (V1 & V2 & V3 & V4 & V5 & V6 & V7 & V8 & V9 & V10 & V11 & lim & V12 & V13 & V14 & V15 & V16).
  unfold is_bit in *. cbv zeta in V13, V14.
  assert (G0 := total_ge 0 _ V7). assert (G1 := total_ge 1 _ V7). assert (G3 := total_ge 3 _ V7).
  assert (RR := rate_range (sc_rate c) V1).
  unfold mpegh_3da_config, enc_config. cbv zeta. rewrite <- !app_assoc. rewrite (runA_rdb 8 8) by lia.
  rewrite rate_run by exact V1.
  destruct (Z.ltb_spec 48000 (rate_of (sc_rate c))); [lia|]. destruct (Z.eqb_spec (rate_of (sc_rate c)) 0); [lia|]. cbn [orb].
  rewrite (runA_rdb 3 3) by lia. destruct (Z.ltb_spec 4 (sc_flen c)); [lia|].
  rewrite (runA_skipb 1 _ (bits_of 1 0)) by reflexivity.
  rewrite (runA_rdb 1 1) by lia.
  unfold ref_layout. cbv zeta. rewrite bind_assoc, (runA_rdb 2 2) by lia. change (negb (0 =? 0)) with false. cbv iota.
  rewrite bind_assoc, (runA_rdb 6 6) by lia.
  destruct (Z.leb_spec (sc_lay c) 0); [lia|]. destruct (Z.ltb_spec 20 (sc_lay c)); [lia|]. cbn [orb bind].
  change (negb (0 =? 0)) with false. cbv iota.
  match goal with |- context [signals ?x user] => set (u0 := x) end.
  rewrite runA_bind.
  edestruct (signals_run u0 user (Spec_Config.sc_groups c)) as (u1 & E1 & N1 & I1); [exact V6|exact V7|lia|lia|lia| | | |rewrite E1].
  { destruct C. exact cg_sig. } { reflexivity. } { exact V8. }
  change (negb (0 =? 0)) with false. cbv iota.
  destruct I1 as [[k1 k2 k3 k4 k5 k6 k7 k8 k9] lt ln ld Ty Ns CH OB HO NO].
  cbn in k1, k2, k3, k4, k5, k6, k7, k8, k9. rewrite firstn_all in *.
  rewrite k4. cbn [l_type s_l_idx s_l_type l_idx]. change (0 =? 0) with true. cbv iota.
  rewrite (runA_aget num_ls_tbl (sc_lay c) (num_ls (sc_lay c))) by (try lia; apply num_ls_get; lia).
  unfold decoder_config. cbv zeta. rewrite bind_assoc.
  rewrite (read_escape_enc 4 8 16) by (try (cbn; lia); change (esc_max 4 8 16) with 65805; lia).
  replace (Z.of_nat (length (sc_elems c)) - 1 + 1) with (Z.of_nat (length (sc_elems c))) by lia.
  destruct (Z.ltb_spec 50 (Z.of_nat (length (sc_elems c)))); [lia|].
  rewrite bind_assoc, (runA_rdb 1 1) by lia. rewrite runA_bind, Nat2Z.id.
  edestruct (elements_run) as (d2 & E2 & [D2 K2 A2]); [|exact V10| |rewrite E2]; [lia| |].
  { destruct C. destruct cg_dec. cbn. repeat split; cbn; try congruence. rewrite repeat_length. congruence. }
  change (negb (0 =? 0)) with false. cbv iota.
  destruct (Z.ltb_spec 16 (q_hoa (u_sig u1) + q_obj (u_sig u1) + q_ch (u_sig u1))); [lia|].
  destruct (Z.ltb_spec 16 (num_ls (sc_lay c))); [lia|]. cbn [orb andb].
  rewrite (runA_rdb 1 1) by lia. change (negb (0 =? 0)) with false. cbv iota.
  destruct K2 as (m1 & m2 & m3 & m4). cbn [u_dec s_u_dec d_num d_elp d_compp d_compat s_d_elp s_d_num s_d_preroll s_d_outch] in m1, m2, m3, m4.
  cbn [u_sig s_u_dec u_dec].
  assert (FIN : forall u2, u_dec u2 = d2 -> u_freq u2 = u_freq u1 -> u_flen u2 = u_flen u1 -> u_rdc u2 = u_rdc u1 -> u_ref u2 = u_ref u1 ->
    (q_num (u_sig u2), q_type (u_sig u2), q_nsig (u_sig u2), q_ch (u_sig u2), q_obj (u_sig u2), q_hoa (u_sig u2)) =
    (q_num (u_sig u1), q_type (u_sig u1), q_nsig (u_sig u1), q_ch (u_sig u1), q_obj (u_sig u1), q_hoa (u_sig u1)) ->
    exists u' : ucfg, runA (if sc_prof c <? 11 then Ret (E_PROFILE, u2) else
       let d := u_dec u2 in
       let p := profile_used (sc_prof c) (d_compp d) (d_compat d) in
       let u := if negb (d_compp d =? 0) && bp_supported (d_compat d) && false then s_u_3b u2 1 else u2 in
       let e := profile_check p (q_hoa (u_sig u1) + q_obj (u_sig u1) + q_ch (u_sig u1)) (num_ls (sc_lay c)) (q_gch (u_sig u1)) (q_ghoa (u_sig u1)) in
       if negb (e =? 0) then Ret (e, u) else
       let u := if (16 <=? p) && (p <=? 18) && false then s_u_3b u 0 else u in
       Ret (0, s_u_dec u (s_d_prof d p))) rest = Done ((0, u'), rest) /\ holds_config c u').
  { intros u2 F1 F2 F3 F4 F5 F6. rewrite F1. cbv zeta. rewrite m3, k9, CP.
    unfold profile_used. change (0 =? 0) with true. cbn [negb andb]. cbv iota.
    destruct (limit_check (sc_prof c) (q_hoa (u_sig u1) + q_obj (u_sig u1) + q_ch (u_sig u1)) (num_ls (sc_lay c))
      (q_gch (u_sig u1)) (q_ghoa (u_sig u1)) lim V12 ltac:(lia) ltac:(lia) ltac:(lia) ltac:(lia)) as [P1 P2].
    rewrite P1, P2. change (negb (0 =? 0)) with false. cbv iota.
    rewrite !andb_false_r. cbn [runA].
    eexists. split; [reflexivity|]. inversion F6 as [[Z1 Z2 Z3 Z4 Z5 Z6]].
    unfold holds_config. cbn [u_freq u_flen u_rdc u_ref u_sig u_dec s_u_dec d_num d_elp d_type d_elem d_prof s_d_prof].
    rewrite F2, F3, F4, F5, Z1, Z2, Z3, Z4, Z5, Z6, k1, k2, k3, k4, m1, m2.
    repeat split; auto.
    - apply (A2 _ _); [apply nth_error_Some; congruence|assumption].
    - apply (A2 _ _); [apply nth_error_Some; congruence|assumption]. }
  destruct (1 <? q_gch (u_sig u1)); cbn [bind]; change (negb (0 =? 0)) with false; cbv iota;
    match goal with |- context [Ret (E_PROFILE, ?x)] => exact (FIN x eq_refl eq_refl eq_refl eq_refl eq_refl eq_refl) end.
Qed.

Lemma config_exec user u c s rest : cfg_ok u -> d_compp (u_dec u) = 0 -> valid_config c -> wf s ->
  rest_bits s = enc_config c ++ rest ->
  exists u' s', exec (mpegh_3da_config user u) s = Done ((0, u'), s') /\ rest_bits s' = rest /\ holds_config c u'.
Proof.
  intros C D V W E. destruct (config_run user u c rest C D V) as (u' & R & H).
  rewrite <- E in R. destruct (exec_of_run _ _ _ _ W R) as (s' & X & Y & Z0). exists u', s'. auto.
Qed.
