(** * Lem_ConfigWlp: what a completed configuration parse leaves, without assuming that
    the object count fits the object tables *)

From Coq Require Import ZArith List Lia Bool.
From Verif Require Import Bits BitBuf Prog Asi Escape Wp Wlp Cicp Hoa Mhas Config Leaf Spec_Config
  Lem_Config Lem_ConfigSafe Lem_Hoa Lem_HoaMat Spec_Asi Lem_Asi Lem_ConfigMem Lem_ConfigFrame Lem_ConfigWhole.
Import ListNotations.
Open Scope Z_scope.

Ltac bi := first [apply wp_bindi | apply wlp_bindi, wp_wlp].

Lemma wlp_obj_md_cfg c ccfl nobj : length (oc_rel c) = 24%nat ->
  wlp (obj_md_cfg c ccfl nobj) (fun r => length (oc_rel (snd r)) = 24%nat).
Proof.
  intros HL. unfold obj_md_cfg. cbv zeta. do 2 (apply wlp_bindi, wp_wlp; wp1). apply wlp_bindi.
  apply (wlp_mono _ (fun r => oc_rel (snd r) = oc_rel c)).
  2:{ destruct (negb _); [reflexivity|]. apply wlp_bindi, wp_wlp. wp1. destruct (_ && _); reflexivity. }
  intros [e c'] E. cbn [snd] in E. destruct (negb (e =? 0)); [cbn; congruence|].
  apply wlp_bindi, wp_wlp. wp1. apply wlp_bindi. apply (wlp_mono _ (fun c2 => length (oc_rel c2) = 24%nat)).
  - intros c2 H2. do 2 (apply wlp_bindi, wp_wlp; wp1). cbn. exact H2.
  - destruct (negb _); [|cbn; congruence]. apply wlp_bindi.
    apply (wlp_for (fun t => length (fst t) = 24%nat)).
    + cbn. congruence.
    + intros j [l a] Hl. cbn [fst] in *. apply wlp_bindi, wp_wlp. wp1. apply wlp_bindi, wlp_aset. intros Hj. apply wlp_ret. cbn [fst].
      rewrite aset_len; lia.
    + intros [l a] Hl. cbn in *. exact Hl.
Qed.

Lemma wlp_forEI {S} (I : nat -> S -> Prop) (body : nat -> S -> prog (Z * S)) (Q : Z * S -> Prop) : forall n i s,
  I i s ->
  (forall j t, (i <= j < i + n)%nat -> I j t -> wlp (body j t) (fun r => if fst r =? 0 then I (Datatypes.S j) (snd r) else Q r)) ->
  (forall t, I (i + n)%nat t -> Q (0, t)) -> wlp (forE n i body s) Q.
Proof.
  induction n as [|n IH]; intros i s HI HB HQ; cbn [forE].
  - apply wlp_ret, HQ. rewrite Nat.add_0_r. exact HI.
  - apply wlp_bindi. eapply wlp_mono; [|apply HB; [lia|exact HI]]. intros [e t] H. cbn [fst snd] in H.
    destruct (Z.eqb_spec e 0) as [->|]; [|apply wlp_ret, H].
    apply IH; [exact H|intros; apply HB; [lia|assumption]|].
    intros t' Ht. apply HQ. replace (i + Datatypes.S n)%nat with (Datatypes.S i + n)%nat by lia. exact Ht.
Qed.

Lemma wlp_framed_strict {S} len (p : prog (Z * S)) (Q : Z * S -> Prop) :
  wlp p (fun r => Q r /\ (fst r = 0 -> Q (E_FRAME, snd r))) -> wlp (framed_strict len p) Q.
Proof.
  intros H. unfold framed_strict. apply wlp_bindi, wlp_avail. intros c0 _.
  apply wlp_bindi. eapply wlp_mono; [|exact H]. intros [e s] [H1 H2]. cbn [fst snd] in *.
  destruct (Z.eqb_spec e 0) as [->|]; cbn [negb]; [|exact H1].
  apply wlp_bindi, wlp_avail. intros c1 _. destruct (len * 8 <? c0 - c1); [apply H2; reflexivity|].
  destruct (Z.ltb_spec (c0 - c1) (len * 8)); [|exact H1].
  apply wlp_bindi, wlp_skip; [lia|exact H1].
Qed.

Lemma wlp_ext_element i u : (i < 50)%nat -> cfg_ok u -> groups_ok (u_sig u) ->
  wlp (ext_element i u) (step_ok u).
Proof.
  intros Hi [C1 C2 C3 C4 C5 C6 C7 C8 C9 C10] [G1 G2 G3 G4].
  assert (D := C3). destruct D as [D1 D2 D3 D4 D5 D6 D7 D8 D9 D10 D11 D12 D13 D14 D15 D16 D17].
  unfold ext_element. cbv zeta.
  bi; apply wp_esc; try lia. intros ty Hty.
  bi; apply wp_asetL; [lia|]. intros et Het _.
  bi; apply wp_esc; try lia. intros len Hlen.
  destruct (Z.leb_spec 1536 len). { split; [|reflexivity]. cfg_con. dec_con. }
  bi; apply wp_asetL; [lia|]. intros pl Hpl _.
  bi. wp1. bi. apply (wp_mono _ (fun _ => True)).
  2:{ destruct (v =? 0); [exact I|]. bi; apply wp_esc; try lia. intros; exact I. }
  intros def _. bi. wp1. rename v0 into frag.
  bi; apply wp_aget; [lia|]. intros el _. bi; apply wp_asetL; [lia|]. intros els Hels _.
  assert (BASE : cfg_ok (s_u_dec u (s_d_elem (s_d_plen (s_d_etype (u_dec u) et) pl) els))).
  { cfg_con. dec_con. }
  destruct (ty =? 14).
  { apply wlp_framed_strict; bi. eapply wp_mono; [|apply wp_prod_config; cbn; auto].
    cbn. intros p [P1 P2]. split; [|intros _]; (split; [cfg_con; dec_con|reflexivity]). }
  destruct (ty =? 13).
  { cbn [q_obj u_sig s_u_dec]. destruct (Z.ltb_spec 24 (q_obj (u_sig u))); [split; [exact BASE|reflexivity]|].
    apply wlp_bindi. apply (wlp_mono _ (step_ok u)).
    - intros [e u'] [K1 K2]. cbn [snd] in *. destruct (negb (e =? 0)); (split; [|exact K2]); [exact K1|].
      destruct K1. cfg_con.
    - apply wlp_framed_strict; bi. eapply wp_mono; [|apply wp_enh_md_config; cbn; auto; lia].
      cbn. intros [e c] (P1 & P2 & P3). cbn in *. split; [|intros _]; (split; [cfg_con; dec_con|reflexivity]). }
  destruct (ty =? 7).
  { bi; apply wp_asetL; [cbn; lia|]. cbn [d_plen s_d_elem s_d_plen s_d_etype]. intros pl2 Hpl2 _.
    apply wlp_framed_strict; bi. eapply wp_mono; [|apply wp_fill_config; cbn; auto].
    intros [h|e] Hh.
    - cbn. assert (DK : dec_ok (s_d_hoa (s_d_plen (s_d_elem (s_d_plen (s_d_etype (u_dec u) et) pl) els) pl2) h)).
      { dec_con.
        - destruct Hh. rewrite ho_ntc. cbn. exact D15.
        - exists (h_order h + 1). destruct Hh. split; [lia|]. rewrite ho_coef. rewrite Z.pow_2_r. reflexivity. }
      split; [|intros _]; (split; [cfg_con|reflexivity]).
    - cbn. split; [|intros _]; (split; [cfg_con; dec_con|reflexivity]). }
  destruct (ty =? 5).
  { bi; apply wp_asetL; [cbn; lia|]. cbn [d_plen s_d_elem s_d_plen s_d_etype]. intros pl2 Hpl2 _.
    apply wlp_framed_strict, wlp_bindi. eapply wlp_mono; [|apply wlp_obj_md_cfg; cbn; auto].
    intros [e c] Hc. cbn in *. split; [|intros _]; (split; [cfg_con; dec_con|reflexivity]). }
  destruct ((ty =? 4) || (ty =? 9)).
  { destruct (negb (frag =? 0)); [split; [exact BASE|reflexivity]|].
    bi; apply wp_asetL; [cbn; lia|]. cbn [d_plen d_pbuf s_d_elem s_d_plen s_d_etype]. intros pl2 Hpl2 _.
    destruct (_ && _); [split; [cfg_con; dec_con|reflexivity]|].
    bi; apply wp_aget; [lia|]. intros b Hb.
    assert (Lb := nth_error_Forall _ _ _ _ D8 Hb). cbv beta in Lb.
    bi; apply wp_rd_bytes; [lia|]. intros b' Hb'.
    bi; apply wp_asetL; [lia|]. intros bs Hbs Ebs. split; [|reflexivity].
    cfg_con. dec_con. rewrite Ebs. apply Forall_aset; [exact D8|lia]. }
  destruct (ty =? 3). { destruct (_ || _); (split; [|reflexivity]); [exact BASE|cfg_con; dec_con]. }
  destruct (ty =? 0). { destruct (_ || _); (split; [exact BASE|reflexivity]). }
  bi; apply wp_avail. intros c _. destruct (c / 8 <? len); [split; [exact BASE|reflexivity]|].
  bi; apply wp_skip; [lia|]. split; [exact BASE|reflexivity].
Qed.

Lemma wlp_dec_element i u : (i < 50)%nat -> cfg_ok u -> groups_ok (u_sig u) ->
  wlp (dec_element i u) (step_ok u).
Proof.
  intros Hi C G. assert (C' := C). destruct C' as [C1 C2 C3 C4 C5 C6 C7 C8 C9 C10].
  assert (D := C3). destruct D as [D1 D2 D3 D4 D5 D6 D7 D8 D9 D10 D11 D12 D13 D14 D15 D16 D17].
  unfold dec_element. cbv zeta. bi. wp1. bi; apply wp_asetL; [lia|]. intros tys Hty _.
  bi; apply wp_aget; [cbn; lia|]. intros el _.
  destruct (v =? 3).
  { apply wlp_bindi. eapply wlp_mono; [|apply wlp_ext_element; auto; cfg_con; dec_con].
    intros [e u'] [K1 K2]. cbn [snd u_sig s_u_dec] in *.
    destruct (negb (e =? 0)); [split; [exact K1|exact K2]|].
    assert (K1' := K1). destruct K1' as [_ _ [E1 E2 E3 E4 E5 E6 E7 E8 E9 E10 E11 E12 E13 E14 E15 E16 E17] _ _ _ _ _ _ _].
    bi; apply wp_aget; [lia|]. intros pl _. bi; apply wp_asetL; [lia|]. intros pp Hpp _.
    split; [|exact K2]. destruct K1 as [J1 J2 J3 J4 J5 J6 J7 J8 J9 J10]. cfg_con. dec_con. }
  destruct (v =? 2).
  { bi; apply wp_asetL; [cbn; lia|]. intros els Hels _. cbn in Hels.
    bi. eapply wp_mono; [|apply wp_map_ele; cbn; exact D7]. intros [oc k] [M1 M2]. cbn in M1.
    split; [|reflexivity]. cfg_con. dec_con. }
  destruct (v =? 1).
  { bi. eapply wp_mono; [|apply wp_cpe_config; cbn; exact D7]. intros [e [el' oc]] M1. cbn in M1.
    bi; apply wp_asetL; [cbn; lia|]. intros els Hels _. cbn in Hels. split; [|reflexivity]. cfg_con. dec_con. }
  bi. wp1. destruct (negb (v0 =? 0)).
  { bi; apply wp_asetL; [cbn; lia|]. intros els Hels _. cbn in Hels. split; [|reflexivity]. cfg_con. dec_con. }
  do 3 (bi; wp1). bi. eapply wp_mono; [|apply wp_igf]. intros igf _.
  bi; apply wp_asetL; [cbn; lia|]. intros els Hels _. cbn in Hels.
  bi. eapply wp_mono; [|apply wp_map_ele; cbn; exact D7]. intros [oc k] [M1 M2]. cbn in M1.
  split; [|reflexivity]. cfg_con. dec_con.
Qed.

Lemma wlp_decoder_config u : cfg_ok u -> groups_ok (u_sig u) ->
  wlp (decoder_config u) (step_ok u).
Proof.
  intros C G. assert (C' := C). destruct C' as [C1 C2 C3 C4 C5 C6 C7 C8 C9 C10].
  assert (D := C3). destruct D as [D1 D2 D3 D4 D5 D6 D7 D8 D9 D10 D11 D12 D13 D14 D15 D16 D17].
  unfold decoder_config. cbv zeta. bi; apply wp_esc; try lia. intros n Hn.
  assert (LR : length (repeat (-1) (length (d_outch (u_dec u)))) = 50%nat) by (rewrite repeat_length; exact D7).
  destruct (Z.ltb_spec 50 (n + 1)). { split; [|reflexivity]. cfg_con. dec_con. }
  bi. wp1.
  apply (wlp_forEI (fun _ t => step_ok u (0, t))).
  - split; [|reflexivity]. cbn. cfg_con. dec_con.
  - intros j t Hj [K1 K2]. cbn [snd] in *. eapply wlp_mono; [|apply wlp_dec_element; auto; try lia].
    + intros [e t'] [M1 M2]. cbn [fst snd] in *. destruct (e =? 0); (split; cbn; [exact M1|congruence]).
    + rewrite K2. exact G.
  - intros t H0. exact H0.
Qed.

Lemma wlp_config_extension cicp u : cfg_ok u -> q_num (u_sig u) <= 31 ->
  wlp (config_extension cicp u) (fun r => cfg_ok (snd r)).
Proof.
  intros C Hn. unfold config_extension. cbv zeta. apply wlp_bindi, wlp_esc; try lia. intros n Hz.
  destruct (Z.ltb_spec 5 (n + 1)); [exact C|].
  apply (wlp_forEI (fun _ t => cfg_ok t /\ q_num (u_sig t) = q_num (u_sig u))).
  - split; [|reflexivity]. destruct C as [C1 C2 C3 C4 C5 C6 C7 C8 C9 C10]. destruct C3. cfg_con. dec_con; rewrite repeat_length; auto.
  - intros j t Hj [K1 K2]. eapply wlp_mono; [|apply wlp_config_ext_one; [lia|exact K1|lia]].
    intros [e t'] [M1 M2]. cbn [fst snd] in *. destruct (e =? 0); [|exact M1]. split; [exact M1|congruence].
  - intros t [K _]. exact K.
Qed.

(** A completed parse leaves the configuration tables with their sizes. *)
Theorem wlp_mpegh_3da_config user u : cfg_ok u ->
  wlp (mpegh_3da_config user u) (fun r => fst r = 0 -> cfg_ok (snd r)).
Proof.
  intros C. unfold mpegh_3da_config. cbv zeta. bi. wp1. rename v into prof. bi. wp1. rename v into fi.
  destruct (negb (fi =? 31) && (8 <? fi)) eqn:Efi; [intros H; discriminate H|].
  apply wlp_bindi, (wlp_mono _ (fun _ => True)).
  2:{ destruct (negb (fi =? 31)); [apply wlp_aget; auto|apply wlp_rd; [lia|auto]]. }
  intros fr _. destruct ((48000 <? fr) || (fr =? 0)); [intros H; discriminate H|].
  bi. wp1. destruct (4 <? v); [intros H; discriminate H|].
  bi; apply wp_skip; [lia|]. bi. wp1.
  bi. eapply wp_mono; [|apply wp_ref_layout; exact (cg_ref u C)]. intros [e l] HL. cbn [snd] in HL.
  destruct (Z.eqb_spec e 0) as [->|]; cbn [negb]; [|intros H; cbn in H; congruence].
  bi. eapply wp_signals_cfg.
  { destruct C. constructor; auto. }
  2:{ intros e u' He. destruct (Z.eqb_spec e 0); [congruence|]. cbn [negb]. intros H; cbn in H; congruence. }
  intros u1 C1 G1 N1 R1. change (negb (0 =? 0)) with false. cbv iota.
  apply wlp_bindi, (wlp_mono _ (fun _ => True)).
  2:{ destruct (l_type _ =? 0); [apply wlp_aget; auto|exact I]. }
  intros ref _. apply wlp_bindi. eapply wlp_mono; [|apply wlp_decoder_config; [exact C1|exact G1]].
  intros [e2 u2] [C2 Es]. cbn [snd] in C2, Es.
  destruct (Z.eqb_spec e2 0) as [->|]; cbn [negb]; [|intros H; cbn in H; congruence].
  match goal with |- wlp (if ?b then _ else _) _ => destruct b end; [intros H; discriminate H|].
  bi. wp1. rename v1 into ext. apply wlp_bindi, (wlp_mono _ (fun r => cfg_ok (snd r))).
  2:{ destruct (negb (ext =? 0)).
      - match goal with |- context [config_extension ?c _] => set (cicp := c) end.
        destruct ((cicp <? 0) || (20 <? cicp)); [exact C2|].
        apply wlp_bindi. eapply wlp_mono; [|apply wlp_config_extension].
        + intros [e4 u5] C5. cbn [snd] in C5. destruct (negb (e4 =? 0)); [exact C5|].
          apply wlp_bindi, wlp_aget. intros nl _ _. cbn [snd wlp]. destruct C5 as [D1 D2 D3 D4 D5 D6 D7 D8 D9 D10].
          cfg_con. destruct D1. constructor; auto.
        + destruct C2 as [D1 D2 D3 D4 D5 D6 D7 D8 D9 D10]. cfg_con. destruct D3. constructor; auto.
        + cbn. rewrite Es. lia.
      - destruct (1 <? _); [|exact C2]. cbn [snd wlp]. destruct C2 as [D1 D2 D3 D4 D5 D6 D7 D8 D9 D10].
        cfg_con. destruct D1. constructor; auto. }
  intros [e3 u3] C3. cbn [snd] in C3. destruct (negb (e3 =? 0)) eqn:E3.
  { intros H. cbn in H. subst e3. discriminate E3. }
  destruct (prof <? 0x0B); [intros H; discriminate H|].
  match goal with |- context [profile_check ?a ?b ?c ?d ?e] => set (pc := profile_check a b c d e) end.
  destruct (negb (pc =? 0)) eqn:E4. { intros H. cbn [fst] in H. rewrite H in E4. discriminate E4. }
  intros _. cbn [snd].
  assert (K : forall (b : bool) w x, cfg_ok w -> cfg_ok (if b then s_u_3b w x else w)).
  { intros b w x D. destruct b; [|exact D]. destruct D. constructor; auto. }
  match goal with |- cfg_ok (s_u_dec ?w ?d) => assert (K2 : cfg_ok w) by (apply K, K; exact C3) end.
  destruct K2 as [D1 D2 D3 D4 D5 D6 D7 D8 D9 D10]. cfg_con. destruct C3 as [_ _ F _ _ _ _ _ _ _]. destruct F. constructor; auto.
Qed.

(** Every completed parse has read at least the profile and the frequency index. *)
Theorem config_cnt user u s a s' : cfg_ok u -> 0 <= r_cnt s -> exec (mpegh_3da_config user u) s = Done (a, s') ->
  r_data s' = r_data s /\ r_cnt s' + bitpos s' = r_cnt s + bitpos s /\ 0 <= r_cnt s' <= r_cnt s - 13.
Proof.
  intros C H0 E. assert (W := wlp_mpegh_3da_config user u C).
  destruct (exec_wlp _ _ _ _ _ W H0 E) as (_ & K1 & K2 & K3). split; [exact K1|]. split; [exact K2|].
  split; [lia|]. unfold mpegh_3da_config in E, W. cbv zeta in E, W. cbn [exec rd bind] in E.
  destruct (read_bits 8 s) as [[v s1]| |] eqn:E1; try discriminate.
  assert (V1 := read_bits_cnt 8 s v s1 ltac:(lia) H0 E1). assert (R1 := read_bits_val 8 s v s1 ltac:(lia) E1).
  destruct (read_bits 5 s1) as [[v2 s2]| |] eqn:E2; try discriminate.
  assert (V2 := read_bits_cnt 5 s1 v2 s2 ltac:(lia) V1 E2). assert (R2 := read_bits_val 5 s1 v2 s2 ltac:(lia) E2).
  apply read_bits_const in E1 as (_ & E1 & _). apply read_bits_const in E2 as (_ & E2 & _).
  cbn [wlp rd bind] in W. destruct W as [_ W]. specialize (W v R1). destruct W as [_ W]. specialize (W v2 R2).
  destruct (exec_wlp _ _ _ _ _ W V2 E) as (_ & _ & _ & K4). lia.
Qed.
