(** * Lem_ConfigMem: elements and configuration extensions stay inside their tables *)

From Coq Require Import ZArith List Lia Bool.
From Verif Require Import Bits BitBuf Prog Asi Escape Wp Wlp Cicp Hoa Mhas Config Leaf Spec_Config
  Lem_ConfigSafe Lem_Hoa Lem_HoaMat Spec_Asi Lem_Asi.
Import ListNotations.
Open Scope Z_scope.

Record dec_ok (d : decc) : Prop := {
  do_type : length (d_type d) = 50%nat;
  do_etype : length (d_etype d) = 50%nat;
  do_elem : length (d_elem d) = 50%nat;
  do_plen : length (d_plen d) = 50%nat;
  do_ppres : length (d_ppres d) = 50%nat;
  do_pbuf : length (d_pbuf d) = 50%nat;
  do_outch : length (d_outch d) = 50%nat;
  do_pbufs : Forall (fun b => Z.of_nat (length b) = 1536) (d_pbuf d);
  do_cfgp : length (d_cfgp d) = 5%nat;
  do_cfgl : length (d_cfgl d) = 5%nat;
  do_cfgt : length (d_cfgt d) = 5%nat;
  do_cfgb : length (d_cfgb d) = 5%nat;
  do_cfgbs : Forall (fun b => Z.of_nat (length b) = 1536) (d_cfgb d);
  do_ind : length (co_ind (d_compat d)) = 16%nat;
  do_ntc : 0 <= h_ntc (d_hoa d);
  do_coef : exists k, 0 <= k <= 7 /\ h_coef (d_hoa d) = k * k;
  do_hm : hm_ok (d_hm d) }.

Record cfg_ok (u : ucfg) : Prop := {
  cg_sig : sig_ok (u_sig u);
  cg_ref : lay_ok (u_ref u);
  cg_dec : dec_ok (u_dec u);
  cg_rel : length (oc_rel (u_oam u)) = 24%nat;
  cg_div : length (en_div (u_enh u)) = 24%nat;
  cg_az : length (en_az (u_enh u)) = 24%nat;
  cg_pre : length (en_pre (u_enh u)) = 24%nat;
  cg_pobj : length (pr_obj (u_prod u)) = 32%nat;
  cg_phead : length (pr_head (u_prod u)) = 32%nat;
  cg_asi : shape (u_asi u) }.

(** What the signal groups leave for the elements. *)
Record groups_ok (g : sigs) : Prop := {
  go_obj : 0 <= q_obj g;
  go_hoa : 0 <= q_hoa g;
  go_gobj : 0 <= q_gobj g <= 32;
  go_gch : 0 <= q_gch g <= 32 }.

Lemma wp_prod_config p nobj nch : 0 <= nobj <= 32 -> 0 <= nch <= 32 ->
  length (pr_obj p) = 32%nat -> length (pr_head p) = 32%nat ->
  wp (prod_config p nobj nch) (fun p' => length (pr_obj p') = 32%nat /\ length (pr_head p') = 32%nat).
Proof.
  intros H1 H2 L1 L2. unfold prod_config. apply wp_bindi. wp1. apply wp_bindi.
  apply (wp_mono _ (fun _ => True)); [|destruct (v =? 0); wps; exact I]. intros d _.
  apply wp_bindi, wp_fill_loop; [lia|intros; wps; exact I|]. intros o Ho.
  apply wp_bindi, wp_fill_loop; [lia|intros; wps; exact I|]. intros c Hc. cbn. lia.
Qed.

Lemma wp_obj_md_cfg c ccfl nobj : nobj <= 24 -> length (oc_rel c) = 24%nat ->
  wp (obj_md_cfg c ccfl nobj) (fun r => length (oc_rel (snd r)) = 24%nat).
Proof.
  intros Hn HL. unfold obj_md_cfg. cbv zeta. do 2 (apply wp_bindi; wp1). apply wp_bindi.
  apply (wp_mono _ (fun r => oc_rel (snd r) = oc_rel c)).
  2:{ destruct (negb _); [reflexivity|]. apply wp_bindi. wp1. destruct (_ && _); reflexivity. }
  intros [e c'] E. cbn [snd] in E. destruct (negb (e =? 0)); [cbn; congruence|].
  apply wp_bindi. wp1. apply wp_bindi. apply (wp_mono _ (fun c2 => length (oc_rel c2) = 24%nat)).
  - intros c2 H2. do 2 (apply wp_bindi; wp1). cbn. exact H2.
  - destruct (negb _); [|cbn; congruence]. apply wp_bindi.
    apply (wp_for (fun _ t => length (fst t) = 24%nat)).
    + cbn. congruence.
    + intros j [l a] Hj Hl. cbn [fst] in *. apply wp_bindi. wp1. apply wp_bindi, wp_asetL; [lia|]. intros l' Hl' _. cbn. lia.
    + intros [l a] Hl. cbn in *. exact Hl.
Qed.

Lemma wp_enh_md_config c nobj : 0 <= nobj <= 24 ->
  length (en_div c) = 24%nat -> length (en_az c) = 24%nat -> length (en_pre c) = 24%nat ->
  wp (enh_md_config c nobj) (fun r => length (en_div (snd r)) = 24%nat /\ length (en_az (snd r)) = 24%nat /\
     length (en_pre (snd r)) = 24%nat).
Proof.
  intros Hn L1 L2 L3. unfold enh_md_config. apply wp_bindi. wp1. apply wp_bindi.
  apply (wp_mono _ (fun _ => True)); [|destruct (v =? 0); wps; exact I]. intros cd _.
  apply wp_bindi. wp1. apply wp_bindi.
  apply (wp_mono _ (fun r => length (snd r) = 24%nat)).
  2:{ destruct (v0 =? 0); [exact L3|]. apply wp_bindi. wp1. destruct (v1 =? 0); [exact L3|]. apply wp_bindi. wp1.
      cbn. rewrite repeat_length. exact L3. }
  intros [ce pre] Hp. cbn [snd] in Hp. apply wp_bindi. wp1. apply wp_bindi.
  apply (wp_mono _ (fun _ => True)); [|destruct (v1 =? 0); wps; exact I]. intros th _. apply wp_bindi.
  apply (wp_for (fun _ t => let '(dv, az, pr, _, _, _) := t in
     length dv = 24%nat /\ length az = 24%nat /\ length pr = 24%nat)); [auto| |].
  - intros j [[[[[dv az] pr] nd] nd0] nn] Hj (A & B & C).
    apply wp_bindi. wp1. apply wp_bindi, wp_asetL; [lia|]. intros dv' Hdv _. apply wp_bindi.
    apply (wp_mono _ (fun t => length (fst (fst (fst t))) = 24%nat)).
    2:{ destruct (v2 =? 0); [exact B|]. apply wp_bindi. wp1. apply wp_bindi, wp_asetL; [lia|]. intros az' Ha _. cbn. lia. }
    intros [[[az' nd'] nd0'] nn'] Ha. cbn [fst] in Ha. apply wp_bindi.
    apply (wp_mono _ (fun l => length l = 24%nat)).
    2:{ destruct (ce =? 0); [|exact C]. apply wp_bindi. wp1. apply wp_asetL; [lia|]. intros; lia. }
    intros pr' Hpr. apply wp_ret. lia.
  - intros [[[[[dv az] pr] nd] nd0] nn] (A & B & C). cbv zeta.
    destruct (24 <? _); [cbn; auto|]. destruct (16 <? _); cbn; auto.
Qed.

Lemma wp_framed_strict {S} len (p : prog (Z * S)) (Q : Z * S -> Prop) :
  wp p (fun r => Q r /\ (fst r = 0 -> Q (E_FRAME, snd r))) -> wp (framed_strict len p) Q.
Proof.
  intros H. unfold framed_strict. apply wp_bindi, wp_avail. intros c0 _.
  apply wp_bindi. eapply wp_mono; [|exact H]. intros [e s] [H1 H2]. cbn [fst snd] in *.
  destruct (Z.eqb_spec e 0) as [->|]; cbn [negb]; [|exact H1].
  apply wp_bindi, wp_avail. intros c1 _. destruct (len * 8 <? c0 - c1); [apply H2; reflexivity|].
  destruct (Z.ltb_spec (c0 - c1) (len * 8)); [|exact H1].
  apply wp_bindi, wp_skip; [lia|exact H1].
Qed.

Lemma wp_framed_lax {S} len (p : prog (Z * S)) (Q : Z * S -> Prop) : wp p Q -> wp (framed_lax len p) Q.
Proof.
  intros H. unfold framed_lax. apply wp_bindi, wp_avail. intros c0 _.
  apply wp_bindi. eapply wp_mono; [|exact H]. intros [e s] H1.
  destruct (Z.eqb_spec e 0) as [->|]; cbn [negb]; [|exact H1].
  apply wp_bindi, wp_avail. intros c1 _.
  destruct (Z.ltb_spec (c0 - c1) (len * 8)); [|exact H1].
  apply wp_bindi, wp_skip; [lia|exact H1].
Qed.

Lemma wp_rd_bytes n buf (Q : list Z -> Prop) : n <= Z.of_nat (length buf) ->
  (forall b, length b = length buf -> Q b) -> wp (rd_bytes n buf) Q.
Proof. intros H HQ. unfold rd_bytes. apply wp_fill_loop; [lia| |exact HQ]. intros. wps. exact I. Qed.

(** The state after an element: the tables keep their sizes, the groups are untouched. *)
Definition step_ok (u : ucfg) (r : Z * ucfg) : Prop := cfg_ok (snd r) /\ u_sig (snd r) = u_sig u.

Ltac cfg_con := constructor; cbn; auto.
Ltac dec_con := constructor; cbn; auto; try lia.

Lemma wp_ext_element i u : (i < 50)%nat -> cfg_ok u -> groups_ok (u_sig u) -> q_obj (u_sig u) <= 24 ->
  wp (ext_element i u) (step_ok u).
Proof.
  intros Hi [C1 C2 C3 C4 C5 C6 C7 C8 C9 C10] [G1 G2 G3 G4] Ho.
  assert (D := C3). destruct D as [D1 D2 D3 D4 D5 D6 D7 D8 D9 D10 D11 D12 D13 D14 D15 D16 D17].
  unfold ext_element. cbv zeta.
  apply wp_bindi, wp_esc; try lia. intros ty Hty.
  apply wp_bindi, wp_asetL; [lia|]. intros et Het _.
  apply wp_bindi, wp_esc; try lia. intros len Hlen.
  destruct (Z.leb_spec 1536 len). { split; [|reflexivity]. cfg_con. dec_con. }
  apply wp_bindi, wp_asetL; [lia|]. intros pl Hpl _.
  apply wp_bindi. wp1. apply wp_bindi. apply (wp_mono _ (fun _ => True)).
  2:{ destruct (v =? 0); [exact I|]. apply wp_bindi, wp_esc; try lia. intros; exact I. }
  intros def _. apply wp_bindi. wp1. rename v0 into frag.
  apply wp_bindi, wp_aget; [lia|]. intros el _. apply wp_bindi, wp_asetL; [lia|]. intros els Hels _.
  assert (BASE : cfg_ok (s_u_dec u (s_d_elem (s_d_plen (s_d_etype (u_dec u) et) pl) els))).
  { cfg_con. dec_con. }
  destruct (ty =? 14).
  { apply wp_framed_strict, wp_bindi. eapply wp_mono; [|apply wp_prod_config; cbn; auto].
    cbn. intros p [P1 P2]. split; [|intros _]; (split; [cfg_con; dec_con|reflexivity]). }
  destruct (ty =? 13).
  { cbn [q_obj u_sig s_u_dec]. destruct (Z.ltb_spec 24 (q_obj (u_sig u))); [lia|].
    apply wp_bindi. apply (wp_mono _ (step_ok u)).
    - intros [e u'] [K1 K2]. cbn [snd] in *. destruct (negb (e =? 0)); (split; [|exact K2]); [exact K1|].
      destruct K1. cfg_con.
    - apply wp_framed_strict, wp_bindi. eapply wp_mono; [|apply wp_enh_md_config; cbn; auto; lia].
      cbn. intros [e c] (P1 & P2 & P3). cbn in *. split; [|intros _]; (split; [cfg_con; dec_con|reflexivity]). }
  destruct (ty =? 7).
  { apply wp_bindi, wp_asetL; [cbn; lia|]. cbn [d_plen s_d_elem s_d_plen s_d_etype]. intros pl2 Hpl2 _.
    apply wp_framed_strict, wp_bindi. eapply wp_mono; [|apply wp_fill_config; cbn; auto].
    intros [h|e] Hh.
    - cbn. assert (DK : dec_ok (s_d_hoa (s_d_plen (s_d_elem (s_d_plen (s_d_etype (u_dec u) et) pl) els) pl2) h)).
      { dec_con.
        - destruct Hh. rewrite ho_ntc. cbn. exact D15.
        - exists (h_order h + 1). destruct Hh. split; [lia|]. rewrite ho_coef. rewrite Z.pow_2_r. reflexivity. }
      split; [|intros _]; (split; [cfg_con|reflexivity]).
    - cbn. split; [|intros _]; (split; [cfg_con; dec_con|reflexivity]). }
  destruct (ty =? 5).
  { apply wp_bindi, wp_asetL; [cbn; lia|]. cbn [d_plen s_d_elem s_d_plen s_d_etype]. intros pl2 Hpl2 _.
    apply wp_framed_strict, wp_bindi. eapply wp_mono; [|apply wp_obj_md_cfg; cbn; auto].
    intros [e c] Hc. cbn in *. split; [|intros _]; (split; [cfg_con; dec_con|reflexivity]). }
  destruct ((ty =? 4) || (ty =? 9)).
  { destruct (negb (frag =? 0)); [split; [exact BASE|reflexivity]|].
    apply wp_bindi, wp_asetL; [cbn; lia|]. cbn [d_plen d_pbuf s_d_elem s_d_plen s_d_etype]. intros pl2 Hpl2 _.
    destruct (_ && _); [split; [cfg_con; dec_con|reflexivity]|].
    apply wp_bindi, wp_aget; [lia|]. intros b Hb.
    assert (Lb := nth_error_Forall _ _ _ _ D8 Hb). cbv beta in Lb.
    apply wp_bindi, wp_rd_bytes; [lia|]. intros b' Hb'.
    apply wp_bindi, wp_asetL; [lia|]. intros bs Hbs Ebs. split; [|reflexivity].
    cfg_con. dec_con. rewrite Ebs. apply Forall_aset; [exact D8|lia]. }
  destruct (ty =? 3). { destruct (_ || _); (split; [|reflexivity]); [exact BASE|cfg_con; dec_con]. }
  destruct (ty =? 0). { destruct (_ || _); (split; [exact BASE|reflexivity]). }
  apply wp_bindi, wp_avail. intros c _. destruct (c / 8 <? len); [split; [exact BASE|reflexivity]|].
  apply wp_bindi, wp_skip; [lia|]. split; [exact BASE|reflexivity].
Qed.

Lemma first_neg_range : forall l i k, 0 <= i -> first_neg l i = Some k -> i <= k < i + Z.of_nat (length l).
Proof.
  induction l as [|v t IH]; intros i k Hi; cbn [first_neg length]; [discriminate|].
  destruct (v <? 0).
  - intros E. injection E as <-. lia.
  - intros E. specialize (IH (i + 1) k ltac:(lia) E). lia.
Qed.

Lemma wp_map_ele l si sc : length l = 50%nat ->
  wp (map_ele l si sc) (fun r => length (fst r) = 50%nat /\ 0 <= snd r < 24).
Proof.
  intros HL. unfold map_ele. cbv zeta.
  assert (R : 0 <= match first_neg (firstn 24 l) 0 with Some k => k | None => 0 end < 24).
  { destruct (first_neg (firstn 24 l) 0) eqn:E; [|lia].
    apply first_neg_range in E; [|lia]. rewrite firstn_length in E. lia. }
  apply wp_bindi, wp_asetL; [lia|]. intros l' Hl' _. apply wp_ret. cbn [fst snd]. lia.
Qed.

Lemma wp_igf igf enf st : wp (igf_config igf enf st) (fun _ => True).
Proof. unfold igf_config. destruct (enf =? 0); [exact I|]. destruct st; wps; exact I. Qed.

Lemma shift_bits_range t : 1 <= shift_bits t <= 4.
Proof. unfold shift_bits. cbv zeta. repeat match goal with |- context [if ?c then _ else _] => destruct c end; lia. Qed.

Lemma wp_cpe_config el oc total : length oc = 50%nat ->
  wp (cpe_config el oc total) (fun r => length (snd (snd r)) = 50%nat).
Proof.
  intros HL. unfold cpe_config. cbv zeta. apply wp_bindi. wp1. destruct (negb (v =? 0)); [exact HL|].
  do 3 (apply wp_bindi; wp1). apply wp_bindi. eapply wp_mono; [|apply wp_igf]. intros igf _.
  apply wp_bindi. wp1. destruct (negb (v3 =? 0)); [exact HL|].
  apply wp_bindi. eapply wp_mono; [|apply wp_map_ele; exact HL]. intros [oc1 k1] [M1 M2]. cbn [fst snd] in *.
  apply wp_bindi, wp_aget; [lia|]. intros w _. destruct (w <? 0); [exact M1|].
  apply wp_bindi. wp1. apply wp_bindi. apply (wp_mono _ (fun _ => True)).
  2:{ destruct (0 <? v4); [|exact I]. assert (R := shift_bits_range total). apply wp_rd; [lia|]. intros; exact I. }
  intros sc _. apply wp_bindi. eapply wp_mono; [|apply wp_map_ele; exact M1]. intros [oc2 k2] [M3 M4]. cbn [fst snd] in *.
  apply wp_bindi, wp_aget; [lia|]. intros w2 _. destruct (w2 <? sc); [exact M3|].
  apply wp_bindi. wp1. exact M3.
Qed.

Lemma wp_dec_element i u : (i < 50)%nat -> cfg_ok u -> groups_ok (u_sig u) -> q_obj (u_sig u) <= 24 ->
  wp (dec_element i u) (step_ok u).
Proof.
  intros Hi C G Ho. assert (C' := C). destruct C' as [C1 C2 C3 C4 C5 C6 C7 C8 C9 C10].
  assert (D := C3). destruct D as [D1 D2 D3 D4 D5 D6 D7 D8 D9 D10 D11 D12 D13 D14 D15 D16 D17].
  unfold dec_element. cbv zeta. apply wp_bindi. wp1. apply wp_bindi, wp_asetL; [lia|]. intros tys Hty _.
  apply wp_bindi, wp_aget; [cbn; lia|]. intros el _.
  destruct (v =? 3).
  { apply wp_bindi. eapply wp_mono; [|apply wp_ext_element; auto; cfg_con; dec_con].
    intros [e u'] [K1 K2]. cbn [snd u_sig s_u_dec] in *.
    destruct (negb (e =? 0)); [split; [exact K1|exact K2]|].
    assert (K1' := K1). destruct K1' as [_ _ [E1 E2 E3 E4 E5 E6 E7 E8 E9 E10 E11 E12 E13 E14 E15 E16 E17] _ _ _ _ _ _ _].
    apply wp_bindi, wp_aget; [lia|]. intros pl _. apply wp_bindi, wp_asetL; [lia|]. intros pp Hpp _.
    split; [|exact K2]. destruct K1 as [J1 J2 J3 J4 J5 J6 J7 J8 J9 J10]. cfg_con. dec_con. }
  destruct (v =? 2).
  { apply wp_bindi, wp_asetL; [cbn; lia|]. intros els Hels _. cbn in Hels.
    apply wp_bindi. eapply wp_mono; [|apply wp_map_ele; cbn; exact D7]. intros [oc k] [M1 M2]. cbn in M1.
    split; [|reflexivity]. cfg_con. dec_con. }
  destruct (v =? 1).
  { apply wp_bindi. eapply wp_mono; [|apply wp_cpe_config; cbn; exact D7]. intros [e [el' oc]] M1. cbn in M1.
    apply wp_bindi, wp_asetL; [cbn; lia|]. intros els Hels _. cbn in Hels. split; [|reflexivity]. cfg_con. dec_con. }
  apply wp_bindi. wp1. destruct (negb (v0 =? 0)).
  { apply wp_bindi, wp_asetL; [cbn; lia|]. intros els Hels _. cbn in Hels. split; [|reflexivity]. cfg_con. dec_con. }
  do 3 (apply wp_bindi; wp1). apply wp_bindi. eapply wp_mono; [|apply wp_igf]. intros igf _.
  apply wp_bindi, wp_asetL; [cbn; lia|]. intros els Hels _. cbn in Hels.
  apply wp_bindi. eapply wp_mono; [|apply wp_map_ele; cbn; exact D7]. intros [oc k] [M1 M2]. cbn in M1.
  split; [|reflexivity]. cfg_con. dec_con.
Qed.

Lemma wp_decoder_config u : cfg_ok u -> groups_ok (u_sig u) -> q_obj (u_sig u) <= 24 ->
  wp (decoder_config u) (step_ok u).
Proof.
  intros C G Ho. assert (C' := C). destruct C' as [C1 C2 C3 C4 C5 C6 C7 C8 C9 C10].
  assert (D := C3). destruct D as [D1 D2 D3 D4 D5 D6 D7 D8 D9 D10 D11 D12 D13 D14 D15 D16 D17].
  unfold decoder_config. cbv zeta. apply wp_bindi, wp_esc; try lia. intros n Hn.
  assert (LR : length (repeat (-1) (length (d_outch (u_dec u)))) = 50%nat) by (rewrite repeat_length; exact D7).
  destruct (Z.ltb_spec 50 (n + 1)). { split; [|reflexivity]. cfg_con. dec_con. }
  apply wp_bindi. wp1.
  apply (wp_forE (fun _ t => step_ok u (0, t)) (fun e t => step_ok u (e, t))).
  - split; [|reflexivity]. cbn. cfg_con. dec_con.
  - intros j t Hj [K1 K2]. cbn [snd] in *. eapply wp_mono; [|apply wp_dec_element; auto; try lia].
    + intros [e t'] [M1 M2]. cbn [fst snd] in *. destruct (e =? 0); (split; cbn; [exact M1|congruence]).
    + rewrite K2. exact G.
    + rewrite K2. exact Ho.
  - intros t H0. exact H0.
  - intros e t _ H0. exact H0.
Qed.

(** ** Configuration extensions *)
Lemma wp_compatible_set c : length (co_ind c) = 16%nat ->
  wp (compatible_set c) (fun c' => length (co_ind c') = 16%nat).
Proof.
  intros L. unfold compatible_set. do 2 (apply wp_bindi; wp1). apply wp_bindi.
  apply (wp_for (fun _ t => length (fst (fst t)) = 16%nat)); [exact L| |].
  - intros j [[ind lc] bp] Hj H. cbn [fst] in H. apply wp_bindi. wp1. cbv zeta.
    apply wp_bindi, wp_asetL; [lia|]. intros ind' H' _. cbn. lia.
  - intros [[ind lc] bp] H. cbn in *. exact H.
Qed.

Lemma wp_mark_ext d j len (Q : decc -> Prop) : 0 <= j < 5 -> dec_ok d ->
  (forall d', dec_ok d' -> d_cfgb d' = d_cfgb d -> Q d') -> wp (mark_ext d j len) Q.
Proof.
  intros Hj D HQ. assert (D' := D). destruct D' as [D1 D2 D3 D4 D5 D6 D7 D8 D9 D10 D11 D12 D13 D14 D15 D16 D17].
  unfold mark_ext. apply wp_bindi, wp_asetL; [lia|]. intros p Hp _. apply wp_bindi, wp_asetL; [lia|]. intros l Hl _.
  apply HQ; [dec_con|reflexivity].
Qed.

Lemma wp_sig_group_info g : sig_ok g -> q_num g <= 31 -> wp (sig_group_info g) (fun g' => sig_ok g' /\ q_num g' = q_num g).
Proof.
  intros [S1 S2 S3 S4 S5 S6 S7] Hn. unfold sig_group_info. apply wp_bindi.
  apply (wp_for (fun _ t => length (fst t) = 32%nat /\ length (snd t) = 32%nat)); [auto| |].
  - intros j [p f] Hj [A B]. cbn [fst snd] in *. apply wp_bindi. wp1. apply wp_bindi, wp_asetL; [lia|]. intros p' Hp _.
    apply wp_bindi. wp1. apply wp_bindi, wp_asetL; [lia|]. intros f' Hf _. cbn. lia.
  - intros [p f] [A B]. cbn in *. split; [|reflexivity]. constructor; cbn; auto.
Qed.

Lemma wp_asi_shape a : shape a ->
  wp (asi_parse a) (fun r => match r with Ok a' => shape a' | Er _ => True end).
Proof.
  intros Sh. eapply wp_mono; [|apply (wp_asi_parse a Sh)].
  intros [a'|e]; [|auto]. intros [[_ [H _]]|(_ & _ & H1 & _ & H2 & _ & H3 & _)]; [exact H|].
  unfold shape. rewrite H1, H2, H3. exact Sh.
Qed.

(** One extension that is not a downmix configuration.  [ext_type p] says what the first
    field may be. *)
Lemma wp_config_ext_body cicp j u ty len : (j < 5)%nat -> cfg_ok u -> q_num (u_sig u) <= 31 ->
  0 <= len -> ty <> 1 ->
  forall tys, length tys = 5%nat ->
  wp (let u := s_u_dec u (s_d_cfgt (u_dec u) tys) in
  let d := u_dec u in
  if 1536 <? len then Ret (E_CONF_EXT_LEN, u) else
  if ty =? 7 then
    c <- compatible_set (d_compat d) ;;
    Ret (0, s_u_dec u (s_d_compat (s_d_compp d 1) c))
  else if ty =? 4 then
    let d := s_d_hmp d 1 in
    if 21 <? d_cicp d then Ret (E_CICP_SPKR, s_u_dec u d) else
    framed_lax len
      (r <- hoa_matrix (h_coef (d_hoa d)) (d_cicp d) (d_hm d) ;;
       match r with
       | Er e => Ret (e, s_u_dec u d)
       | Ok m => d' <- mark_ext (s_d_hm d m) (Z.of_nat j) len ;; Ret (0, s_u_dec u d')
       end)
  else if ty =? 1 then
    let d := s_d_dmxi (s_d_dmxp d 1) (Z.of_nat j) in
    framed_lax len
      (' (e, x) <- dmx_config cicp dmxc0 ;;
       let d := s_d_dmx d x in
       if negb (e =? 0) then Ret (e, s_u_dec u d) else
       d' <- mark_ext d (Z.of_nat j) len ;; Ret (0, s_u_dec u d'))
  else if ty =? 2 then
    d <- mark_ext (s_d_loudi (s_d_loudp d 1) (Z.of_nat j)) (Z.of_nat j) len ;;
    b <- aget (d_cfgb d) (Z.of_nat j) ;;
    b' <- rd_bytes len b ;;
    bs <- aset (d_cfgb d) (Z.of_nat j) b' ;;
    Ret (0, s_u_dec u (s_d_cfgb d bs))
  else if ty =? 3 then
    if (0 <? a_ns (u_asi u)) && negb (d_elp d =? 1) then Ret (E_INIT, u) else
    let u := s_u_asip u 1 in
    framed_lax len
      (r <- asi_parse (u_asi u) ;;
       match r with Er e => Ret (e, u) | Ok a => Ret (0, s_u_asi u a) end)
  else if ty =? 6 then
    g <- sig_group_info (u_sig u) ;;
    Ret (0, s_u_sig u (s_q_info g 1))
  else if ty =? 0 then
    forE (Z.to_nat len) 0 (fun _ u =>
      v <- rd 8 ;; if negb (v =? 0xA5) then Ret (E_FILLBYTE, u) else Ret (0, u)) u
  else
    c <- avail ;;
    if c / 8 <? len then Ret (E_FRAME, u)
    else forP (Z.to_nat len) 0 (fun _ _ => skip 8) tt ;;; Ret (0, u))
  (fun r => cfg_ok (snd r) /\ q_num (u_sig (snd r)) = q_num (u_sig u)).
Proof.
  intros Hj [C1 C2 C3 C4 C5 C6 C7 C8 C9 C10] Hn Hlen Hty tys Ltys.
  assert (D := C3). destruct D as [D1 D2 D3 D4 D5 D6 D7 D8 D9 D10 D11 D12 D13 D14 D15 D16 D17].
  cbv zeta.
  assert (BASE : cfg_ok (s_u_dec u (s_d_cfgt (u_dec u) tys))). { cfg_con. dec_con. }
  destruct (Z.ltb_spec 1536 len); [split; [exact BASE|reflexivity]|].
  destruct (ty =? 7).
  { apply wp_bindi. eapply wp_mono; [|apply wp_compatible_set; cbn; exact D14]. intros c Hc.
    split; [|reflexivity]. cfg_con. dec_con. }
  destruct (ty =? 4).
  { destruct (21 <? _). { split; [|reflexivity]. cfg_con. dec_con. }
    apply wp_framed_lax, wp_bindi. destruct D16 as (k & Hk & Ek).
    replace (h_coef (d_hoa (s_d_hmp (u_dec (s_u_dec u (s_d_cfgt (u_dec u) tys))) 1))) with (k * k) by (cbn; congruence).
    eapply wp_mono; [|apply wp_hoa_matrix; [exact Hk|cbn; exact D17]].
    intros [m|e] Hm.
    - apply wp_bindi, wp_mark_ext; [lia|dec_con; exists k; auto|]. intros d' Hd' _. split; [|reflexivity]. cfg_con.
    - split; [|reflexivity]. cfg_con. dec_con. exists k; auto. }
  destruct (Z.eqb_spec ty 1); [congruence|].
  destruct (ty =? 2).
  { apply wp_bindi, wp_mark_ext; [lia|dec_con|]. intros d' Hd' Eb. cbn in Eb.
    assert (Hd := Hd'). destruct Hd as [E1 E2 E3 E4 E5 E6 E7 E8 E9 E10 E11 E12 E13 E14 E15 E16 E17].
    apply wp_bindi, wp_aget; [lia|]. intros b Hb.
    assert (Lb := nth_error_Forall _ _ _ _ E13 Hb). cbv beta in Lb.
    apply wp_bindi, wp_rd_bytes; [lia|]. intros b' Hb'.
    apply wp_bindi, wp_asetL; [lia|]. intros bs Hbs Ebs. split; [|reflexivity].
    cfg_con. dec_con. rewrite Ebs. apply Forall_aset; [exact E13|lia]. }
  destruct (ty =? 3).
  { destruct (_ && _); [split; [exact BASE|reflexivity]|].
    apply wp_framed_lax, wp_bindi. eapply wp_mono; [|apply wp_asi_shape; cbn; exact C10].
    intros [a|e] Ha; (split; [|reflexivity]); cfg_con; dec_con. }
  destruct (ty =? 6).
  { apply wp_bindi. eapply wp_mono; [|apply wp_sig_group_info; cbn; auto].
    intros g [Hg En]. split; [|exact En]. cfg_con; [destruct Hg; constructor; cbn; auto|dec_con]. }
  destruct (ty =? 0).
  { apply (wp_forE (fun _ t => cfg_ok t /\ q_num (u_sig t) = q_num (u_sig u)) (fun _ t => cfg_ok t /\ q_num (u_sig t) = q_num (u_sig u))).
    - split; [exact BASE|reflexivity].
    - intros i t _ H0. apply wp_bindi. wp1. destruct (negb _); exact H0.
    - intros t H0; exact H0.
    - intros e t _ H0; exact H0. }
  apply wp_bindi, wp_avail. intros c _. destruct (c / 8 <? len); [split; [exact BASE|reflexivity]|].
  apply wp_bindi. apply (wp_for (fun _ _ => True)); [exact I| |].
  - intros i t _ _. apply wp_skip; [lia|exact I].
  - intros _ _. split; [exact BASE|reflexivity].
Qed.

(** Undefined behaviour in an extension needs the type to be 1 (downmix). *)
Lemma config_ext_ub cicp j u s r : (j < 5)%nat -> cfg_ok u -> q_num (u_sig u) <= 31 -> wf s ->
  exec (config_ext_one cicp j u) s = UB r ->
  exists s', exec (read_escape 4 8 16) s = Done (1, s').
Proof.
  intros Hj C Hn W E.
  assert (Wt := wp_exec (read_escape 4 8 16) (fun v => 0 <= v) s (wp_esc 4 8 16 _ ltac:(lia) ltac:(lia) ltac:(lia) (fun v H => H)) W).
  unfold config_ext_one in E. cbv zeta in E. rewrite exec_bind in E.
  destruct (exec (read_escape 4 8 16) s) as [[ty s1]|c|r1] eqn:E1; [|discriminate|destruct Wt].
  destruct Wt as (_ & W1 & _).
  destruct (Z.eq_dec ty 1) as [->|Hty]; [eauto|exfalso].
  match type of E with exec ?p s1 = _ => assert (WP : wp p (fun _ => True)) end.
  { apply wp_bindi, wp_esc; try lia. intros len Hlen.
    apply wp_bindi, wp_asetL; [destruct C as [_ _ [] _ _ _ _ _ _ _]; lia|]. intros tys Ht _.
    eapply wp_mono; [|apply (wp_config_ext_body cicp j u ty len)]; auto.
    destruct C as [_ _ [] _ _ _ _ _ _ _]; lia. }
  assert (K := wp_exec _ _ s1 WP W1). rewrite E in K. exact K.
Qed.
