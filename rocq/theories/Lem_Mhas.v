(** * Lem_Mhas: headers, framing and termination of the MHAS packet scan *)

From Coq Require Import ZArith List Lia Bool.
From Verif Require Import Bits BitBuf BitWrite Prog Escape Lem_Bits Asi Wp Wlp Frame Spec_Asi Lem_Asi Lem_AsiRT
  Loud Mhas Spec_Mhas.
Import ListNotations.
Open Scope Z_scope.

(** ** Headers *)
Lemma hdr_enc {A} (n1 n2 n3 : nat) v (k : Z -> prog A) rest :
  (n1 <= 24)%nat -> (n2 <= 24)%nat -> (n3 <= 24)%nat ->
  0 <= v <= esc_max n1 n2 n3 ->
  runA (bind (hdr_field (Z.of_nat n1) (Z.of_nat n2) (Z.of_nat n3)) k)
       (esc_enc n1 n2 n3 v ++ rest) = runA (k v) rest.
Proof.
  intros H1 H2 H3 Hv. unfold esc_max in Hv.
  assert (P1 := pow2_le24 n1 H1). assert (P2 := pow2_le24 n2 H2). assert (P3 := pow2_le24 n3 H3).
  change (2 ^ 24) with 16777216 in *.
  unfold esc_enc, hdr_field. rewrite bind_assoc.
  destruct (Z.ltb_spec v (2 ^ Z.of_nat n1 - 1)).
  - rewrite runA_rdb by (auto; lia). cbv beta.
    destruct (Z.eqb_spec v (2 ^ Z.of_nat n1 - 1)); [lia|]. reflexivity.
  - destruct (Z.ltb_spec v (2 ^ Z.of_nat n1 - 1 + (2 ^ Z.of_nat n2 - 1))); rewrite <- !app_assoc.
    + rewrite runA_rdb by (auto; lia). rewrite Z.eqb_refl.
      rewrite bind_assoc, runA_rdb by (auto; lia). cbv beta.
      destruct (Z.eqb_spec (v - (2 ^ Z.of_nat n1 - 1)) (2 ^ Z.of_nat n2 - 1)); [lia|].
      cbn [bind]. f_equal. f_equal. lia.
    + rewrite runA_rdb by (auto; lia). rewrite Z.eqb_refl.
      rewrite bind_assoc, runA_rdb by (auto; lia). cbv beta. rewrite Z.eqb_refl.
      rewrite bind_assoc, runA_rdb by (auto; lia). cbn [bind]. f_equal. f_equal.
      unfold s32. rewrite to_s_id; [lia|lia|]. change (2 ^ (32 - 1)) with 2147483648. lia.
Qed.

(** Without the third field the width of that field does not matter. *)
Lemma hdr_short {A} (n1 n2 n3 : nat) v (k : Z -> prog A) rest :
  (n1 <= 24)%nat -> (n2 <= 24)%nat ->
  0 <= v < 2 ^ Z.of_nat n1 - 1 + (2 ^ Z.of_nat n2 - 1) ->
  runA (bind (hdr_field (Z.of_nat n1) (Z.of_nat n2) (Z.of_nat n3)) k)
       (esc_enc n1 n2 n3 v ++ rest) = runA (k v) rest.
Proof.
  intros H1 H2 Hv.
  assert (P1 := pow2_le24 n1 H1). assert (P2 := pow2_le24 n2 H2).
  unfold esc_enc, hdr_field. rewrite bind_assoc.
  destruct (Z.ltb_spec v (2 ^ Z.of_nat n1 - 1)).
  - rewrite runA_rdb by (auto; lia). cbv beta.
    destruct (Z.eqb_spec v (2 ^ Z.of_nat n1 - 1)); [lia|]. reflexivity.
  - destruct (Z.ltb_spec v (2 ^ Z.of_nat n1 - 1 + (2 ^ Z.of_nat n2 - 1))); [|lia]. rewrite <- !app_assoc.
    rewrite runA_rdb by (auto; lia). rewrite Z.eqb_refl.
    rewrite bind_assoc, runA_rdb by (auto; lia). cbv beta.
    destruct (Z.eqb_spec (v - (2 ^ Z.of_nat n1 - 1)) (2 ^ Z.of_nat n2 - 1)); [lia|].
    cbn [bind]. f_equal. f_equal. lia.
Qed.

Lemma runA_header {A} ty lb len (k : Z * Z * Z -> prog A) rest :
  valid_header ty lb len -> lb < 258 ->
  runA (bind mhas_header k) (enc_header ty lb len ++ rest) = runA (k (ty, lb, len)) rest.
Proof.
  unfold valid_header, max_type, max_label, max_length. intros (H1 & H2 & H3) Hl.
  unfold enc_header, mhas_header. rewrite <- !app_assoc, bind_assoc.
  etransitivity; [apply (hdr_enc 3 8 8); [lia|lia|lia|cbn; lia]|]. cbv beta. rewrite bind_assoc.
  etransitivity; [apply (hdr_short 2 8 32); [lia|lia|cbn; lia]|]. cbv beta. rewrite bind_assoc.
  etransitivity; [apply (hdr_enc 11 24 24); [lia|lia|lia|cbn; lia]|]. reflexivity.
Qed.

(** Refinement for a program whose abstract run on the given bits is defined. *)
Lemma exec_header ty lb len s rest :
  wf s -> valid_header ty lb len -> lb < 258 -> rest_bits s = enc_header ty lb len ++ rest ->
  exists s', exec mhas_header s = Done ((ty, lb, len), s') /\ wf s' /\ rest_bits s' = rest.
Proof.
  intros W V L E. pose proof (exec_refines mhas_header s W) as R. rewrite E in R.
  pose proof (runA_header ty lb len Ret rest V L) as X. rewrite runA_bind in X.
  destruct (runA mhas_header (enc_header ty lb len ++ rest)) as [[x l]| |] eqn:F; try discriminate.
  cbn [runA] in X. inversion X; subst. destruct R as (s' & R1 & R2 & R3). eauto.
Qed.

(** Labels from 258 on need the 32-bit field, whose read is undefined. *)
Lemma exec_header_long_label ty lb len s rest :
  wf s -> valid_header ty lb len -> 258 <= lb -> rest_bits s = enc_header ty lb len ++ rest ->
  exec mhas_header s = UB UShift.
Proof.
  unfold valid_header, max_type, max_label, max_length. intros W (H1 & H2 & H3) Hl E.
  unfold enc_header in E. rewrite <- !app_assoc in E.
  unfold mhas_header. rewrite exec_bind.
  assert (exists s1, exec (hdr_field 3 8 8) s = Done (ty, s1) /\ wf s1 /\
            rest_bits s1 = esc_enc 2 8 32 lb ++ esc_enc 11 24 24 len ++ rest) as (s1 & E1 & W1 & B1).
  { pose proof (exec_refines (hdr_field 3 8 8) s W) as R. rewrite E in R.
    pose proof (hdr_enc 3 8 8 ty Ret (esc_enc 2 8 32 lb ++ esc_enc 11 24 24 len ++ rest)
      ltac:(lia) ltac:(lia) ltac:(lia) ltac:(cbn; lia)) as X. rewrite runA_bind in X.
    change (hdr_field (Z.of_nat 3) (Z.of_nat 8) (Z.of_nat 8)) with (hdr_field 3 8 8) in X.
    destruct (runA (hdr_field 3 8 8) _) as [[x l]| |] eqn:F; try discriminate.
    cbn [runA] in X. inversion X; subst. destruct R as (s' & R1 & R2 & R3). eauto. }
  rewrite E1. rewrite exec_bind.
  replace (esc_enc 2 8 32 lb) with (bits_of 2 3 ++ bits_of 8 255 ++ bits_of 32 (lb - 3 - 255)) in B1.
  2:{ unfold esc_enc. change (2 ^ Z.of_nat 2 - 1) with 3. change (2 ^ Z.of_nat 8 - 1) with 255.
      destruct (Z.ltb_spec lb 3); [lia|]. destruct (Z.ltb_spec lb (3 + 255)); [lia|]. reflexivity. }
  rewrite <- !app_assoc in B1. unfold hdr_field at 1. rewrite exec_bind.
  assert (K : forall n (m : nat) v st l, wf st -> n = Z.of_nat m -> (m <= 24)%nat -> 0 <= v < 2 ^ n ->
    rest_bits st = bits_of m v ++ l -> exists st', exec (rd n) st = Done (v, st') /\ wf st' /\ rest_bits st' = l).
  { intros n m v st l Ws En Hm Hv El. pose proof (exec_refines (rd n) st Ws) as R. rewrite El in R.
    rewrite (runA_rd_nobind n m v l En Hm Hv) in R. destruct R as (st' & R1 & R2 & R3). eauto. }
  destruct (K 2 2%nat 3 s1 _ W1 eq_refl ltac:(lia) ltac:(cbn; lia) B1) as (s2 & E2 & W2 & B2).
  rewrite E2. change (3 =? 2 ^ 2 - 1) with true. cbv iota. rewrite exec_bind.
  destruct (K 8 8%nat 255 s2 _ W2 eq_refl ltac:(lia) ltac:(cbn; lia) B2) as (s3 & E3 & W3 & B3).
  rewrite E3. change (255 =? 2 ^ 8 - 1) with true. cbv iota. rewrite exec_bind.
  assert (C : 32 <= r_cnt s3).
  { pose proof (wf_len s3 W3) as L. rewrite B3, !app_length, bits_of_length in L. lia. }
  cbn [exec rd]. rewrite (read_bits_long_ub 32 s3); [reflexivity|exact W3|lia| |exact C].
  destruct W3 as (_ & _ & P & _). lia.
Qed.

(** ** What every packet does to the position *)
Lemma wlp_hdr_field n1 n2 n3 : 0 <= n1 -> 0 <= n2 -> 0 <= n3 ->
  wlp (hdr_field n1 n2 n3) (fun _ => True).
Proof. intros. unfold hdr_field. wls; auto. Qed.
Lemma wlp_length_field : wlp (hdr_field 11 24 24) (fun v => 0 <= v).
Proof.
  unfold hdr_field. wls; try lia.
  unfold s32. rewrite to_s_id; [lia|lia|]. change (2 ^ (32 - 1)) with 2147483648. lia.
Qed.
Lemma wlp_header : wlp mhas_header (fun '(_, _, len) => 0 <= len).
Proof.
  unfold mhas_header. apply wlp_bindi. eapply wlp_mono; [|apply wlp_hdr_field; lia]. intros ty _. cbv beta.
  apply wlp_bindi. eapply wlp_mono; [|apply wlp_hdr_field; lia]. intros lb _. cbv beta.
  apply wlp_bindi. eapply wlp_mono; [|apply wlp_length_field]. intros len Hl. cbv beta.
  apply wlp_ret. exact Hl.
Qed.

Lemma wlp_read_langs n old (Q : list (Z * list Z) -> Prop) :
  (forall l, length l = length old -> Q l) -> wlp (read_langs n old) Q.
Proof.
  intros HQ. unfold read_langs.
  apply (wlp_for (fun l => length l = length old)); auto.
  intros j t Ht. wls. unfold read_text. eapply wlp_mono with (Q := fun _ => True).
  2:{ apply wlp_forT. intros. wls. exact I. }
  intros x _. wls. rewrite aset_len; lia.
Qed.
Lemma wlp_earcon_one i tab (Q : list earcon -> Prop) :
  (forall t, length t = length tab -> Q t) -> wlp (earcon_one i tab) Q.
Proof.
  intros HQ. unfold earcon_one. wl1. wl1. do 8 wl1. unfold earcon_position.
  wls; try (apply wlp_read_langs; intros; wls); apply HQ; rewrite aset_len; lia.
Qed.
Lemma wlp_earcon_info tab : wlp (earcon_info tab) (fun _ => True).
Proof.
  unfold earcon_info. wls; auto. apply wlp_forT. intros. apply wlp_earcon_one. auto.
Qed.
Lemma wlp_read_ids n ids : wlp (read_ids n ids) (fun _ => True).
Proof. unfold read_ids. apply wlp_forT. intros. wls. exact I. Qed.
Lemma wlp_pcm_config c : 0 <= k_bits c -> wlp (pcm_config c) (fun d => 0 <= k_bits d).
Proof.
  intros Hb. unfold pcm_config.
  assert (T : forall v b, 0 <= v -> nth_error pcm_bits_tbl (Z.to_nat v) = Some b -> 0 <= b).
  { intros v b _ E. apply nth_error_In in E. cbn in E. lia. }
  wls; cbn [k_bits]; auto;
    (eapply wlp_mono; [|apply wlp_read_ids]; intros; cbv beta; wls; cbn [k_bits]; eauto).
Qed.
Lemma wlp_pcm_sample b : 0 <= b -> wlp (pcm_sample b) (fun _ => True).
Proof. intros H. unfold pcm_sample. wls; auto. apply wlp_forT. intros. wls; exact I. Qed.
Lemma wlp_pcm_payload c : 0 <= k_bits c -> wlp (pcm_payload c) (fun d => 0 <= k_bits d).
Proof.
  intros Hb. unfold pcm_payload.
  assert (R : forall a n, wlp (pcm_rows (k_bits c) a n) (fun _ => True)).
  { intros. unfold pcm_rows. apply wlp_forT. intros. unfold pcm_row. apply wlp_bindi.
    eapply wlp_mono with (Q := fun _ => True); [intros; wls; exact I|].
    apply wlp_forT. intros. apply wlp_bindi. eapply wlp_mono; [|apply wlp_pcm_sample; exact Hb].
    intros; wls; exact I. }
  wl1. wl1. wl1; [wls; exact Hb|]. wl1. eapply wlp_mono; [|apply wlp_read_ids]. intros ids _.
  wls; try exact Hb;
  (eapply wlp_mono; [|apply R]; intros; wls; exact Hb).
Qed.

Lemma wlp_loudness_info_set : wlp loudness_info_set (fun _ => True).
Proof.
  assert (M : wlp loudness_measure (fun _ => True)).
  { unfold loudness_measure. apply wlp_bindi, wlp_rd; [lia|]. intros m Hm. wl1; [wls; exact I|].
    apply wlp_bindi, wlp_rd; [unfold method_bits; destruct (m =? 8); [lia|]; destruct (m =? 7); lia|].
    intros. wls; exact I. }
  assert (L : forall a b c, wlp (loudness_info a b c) (fun _ => True)).
  { intros. unfold loudness_info. wls; cbv beta iota;
     (unfold loudness_measures; eapply wlp_mono with (Q := fun _ => True);
      [intros [?|?] _; wls; exact I|apply wlp_forRT; intros; wls;
       eapply wlp_mono; [|exact M]; intros [?|?] _; wls; exact I]). }
  unfold loudness_info_set. wls. 
  eapply wlp_mono with (Q := fun _ => True).
  2:{ apply wlp_forRT. intros. wls; cbv beta iota;
      (eapply wlp_mono; [|apply L]; intros [?|?] _; wls; exact I). }
  intros [infos|e] _; [|wls; exact I]. wls.
  - unfold loudness_ext. wls; exact I.
  - unfold loudness_ext. wls; try exact I. eapply wlp_mono with (Q := fun _ => True); [intros; wls; exact I|].
    unfold read_ones. apply wlp_forT. intros. wls. exact I.
  - eapply wlp_mono with (Q := fun _ => True).
    2:{ apply wlp_forRT. intros j [al inf]. wls. eapply wlp_mono; [|apply L]. intros [?|?] _; wls; exact I. }
    intros [[al inf]|e] _; [|wls; exact I]. wls; try exact I.
    + unfold loudness_ext. wls; try exact I.
      eapply wlp_mono with (Q := fun _ => True); [intros; wls; exact I|].
      unfold read_ones. apply wlp_forT. intros. wls. exact I.
Qed.

Definition mst_ok (s : mst) : Prop := 0 <= k_bits (m_pcm s).

Lemma wlp_packet_body ty len s : mst_ok s -> shape (m_asi s) -> 0 <= len ->
  wlp (packet_body ty len s) (fun r => match r with Ok s' => mst_ok s' /\ shape (m_asi s') | Er _ => True end).
Proof.
  intros B Sh Hl. unfold mst_ok in *. unfold packet_body.
  destruct (ty =? 3).
  { apply wlp_bindi. eapply wlp_mono; [|apply wlp_framed, wp_wlp, wp_asi_parse; exact Sh].
    intros [a|e] H; apply wlp_ret; [|exact I]. cbn [m_pcm m_asi]. split; [exact B|].
    destruct H as [(_ & H & _)|(_ & _ & H1 & _ & H2 & _ & H3 & _)]; [exact H|].
    unfold shape in *. rewrite H1, H2, H3. exact Sh. }
  destruct (ty =? 6); [wls; auto|].
  destruct (ty =? 12); [apply wlp_bindi, wlp_skip; [lia|]; apply wlp_ret; auto|].
  destruct (ty =? 19).
  { apply wlp_bindi. eapply wlp_mono; [|apply wlp_framed, wlp_earcon_info].
    intros [a|e] H; apply wlp_ret; [|exact I]. cbn [m_pcm m_asi]. auto. }
  destruct (ty =? 20).
  { apply wlp_bindi. eapply wlp_mono with (Q := fun r => match r with Ok d => 0 <= k_bits d | Er _ => True end).
    2:{ apply wlp_framed. unfold noerr. apply wlp_bindi. eapply wlp_mono; [|apply wlp_pcm_config; exact B].
        intros c Hc. apply wlp_ret. exact Hc. }
    intros [a|e] H; apply wlp_ret; [|exact I]. cbn [m_pcm m_asi]. auto. }
  destruct (ty =? 21).
  { apply wlp_bindi. eapply wlp_mono with (Q := fun r => match r with Ok d => 0 <= k_bits d | Er _ => True end).
    2:{ apply wlp_framed. unfold noerr. apply wlp_bindi. eapply wlp_mono; [|apply wlp_pcm_payload; exact B].
        intros c Hc. apply wlp_ret. exact Hc. }
    intros [a|e] H; apply wlp_ret; [|exact I]. cbn [m_pcm m_asi]. auto. }
  destruct (ty =? 22).
  { apply wlp_bindi. eapply wlp_mono; [|apply wlp_loudness_info_set].
    intros r _. apply wlp_ret. cbn [m_pcm m_asi]. auto. }
  destruct ((ty =? CFG) || (ty =? FRAME)); [apply wlp_ret; auto|].
  apply wlp_bindi, wlp_skip; [lia|]; apply wlp_ret; auto.
Qed.

(** Every header takes at least 16 bits. *)
Lemma exec_field_cnt n1 n2 n3 s v s' : 0 <= n1 -> 0 <= n2 -> 0 <= n3 -> 0 <= r_cnt s ->
  exec (hdr_field n1 n2 n3) s = Done (v, s') -> 0 <= r_cnt s' <= r_cnt s - n1.
Proof.
  intros H1 H2 H3 H0. unfold hdr_field. rewrite exec_bind.
  destruct (exec (rd n1) s) as [[x s1]| |] eqn:E; try discriminate.
  intros F. cbn [exec rd] in E. destruct (read_bits n1 s) as [[y s2]| |] eqn:E'; try discriminate.
  inversion E; subst. assert (C := read_bits_cnt _ _ _ _ H1 H0 E').
  apply read_bits_const in E' as (_ & E2 & _).
  eapply (exec_wlp _ (fun _ => True)) in F; [|wls; exact I|lia]. lia.
Qed.
Lemma exec_header_cnt s h s' : 0 <= r_cnt s -> exec mhas_header s = Done (h, s') ->
  0 <= r_cnt s' <= r_cnt s - 16.
Proof.
  intros H0. unfold mhas_header. rewrite exec_bind.
  destruct (exec (hdr_field 3 8 8) s) as [[x s1]| |] eqn:E1; try discriminate.
  apply exec_field_cnt in E1; try lia. rewrite exec_bind.
  destruct (exec (hdr_field 2 8 32) s1) as [[y s2]| |] eqn:E2; try discriminate.
  apply exec_field_cnt in E2; try lia. rewrite exec_bind.
  destruct (exec (hdr_field 11 24 24) s2) as [[z s3]| |] eqn:E3; try discriminate.
  apply exec_field_cnt in E3; try lia. cbn [exec]. intros F; inversion F; subst. lia.
Qed.

Definition scan_ok (st : rbuf) (s : mst) : Prop :=
  0 <= r_cnt st /\ 0 <= r_pos st <= 7 /\ mst_ok s /\ shape (m_asi s).

Lemma header_len s h s' : 0 <= r_cnt s -> exec mhas_header s = Done (h, s') -> 0 <= snd h.
Proof.
  intros H0 E. eapply exec_wlp in E; [|exact wlp_header|exact H0]. destruct h as [[a b] c]. apply E.
Qed.

(** One packet: what is left is smaller and the state stays in order. *)
Lemma packet_step st s h st1 s' st2 :
  scan_ok st s -> exec mhas_header st = Done (h, st1) ->
  exec (packet_body (fst (fst h)) (snd h) s) st1 = Done (Ok s', st2) ->
  scan_ok st2 s' /\ r_cnt st2 <= r_cnt st - 16.
Proof.
  intros (C & P & B & Sh) E1 E2.
  assert (L := header_len _ _ _ C E1). assert (C1 := exec_header_cnt _ _ _ C E1).
  pose proof (exec_wlp_nofuel _ _ st wlp_header C P) as F1. rewrite E1 in F1.
  assert (W := wlp_packet_body (fst (fst h)) (snd h) s B Sh L).
  pose proof (exec_wlp_nofuel _ _ st1 W ltac:(lia) F1) as F2. rewrite E2 in F2.
  eapply exec_wlp in E2; [|exact W|lia]. destruct E2 as ((Q1 & Q2) & _ & _ & Q3).
  split; [split; [lia|split; [exact F2|split; assumption]]|lia].
Qed.

Theorem mhas_loop_fuel : forall n m st s,
  scan_ok st s -> r_cnt st < 16 * Z.of_nat n -> r_cnt st < 16 * Z.of_nat m ->
  exec (mhas_loop n s) st = exec (mhas_loop m s) st /\ exec (mhas_loop n s) st <> UB UFuel.
Proof.
  induction n as [|n IH]; intros m st s OK Hn Hm; [destruct OK; lia|].
  destruct m as [|m]; [destruct OK; lia|].
  cbn [mhas_loop]. rewrite !exec_bind.
  destruct OK as (C & P & B & Sh).
  pose proof (exec_wlp_nofuel _ _ st wlp_header C P) as F1.
  destruct (exec mhas_header st) as [[h st1]|c|r] eqn:E1; [|split; [reflexivity|discriminate]|split; [reflexivity|congruence]].
  assert (L := header_len _ _ _ C E1). assert (C1 := exec_header_cnt _ _ _ C E1).
  destruct h as [[ty lb] len]. cbv beta iota. rewrite !exec_bind.
  assert (W := wlp_packet_body ty len s B Sh L).
  pose proof (exec_wlp_nofuel _ _ st1 W ltac:(lia) F1) as F2.
  destruct (exec (packet_body ty len s) st1) as [[r st2]|c|r] eqn:E2; [|split; [reflexivity|discriminate]|split; [reflexivity|congruence]].
  destruct r as [s'|e]; [|split; [reflexivity|discriminate]].
  destruct ((ty =? CFG) || (ty =? FRAME) || (m_ptype s' =? 1)); [split; [reflexivity|discriminate]|].
  destruct (packet_step st s (ty, lb, len) st1 s' st2) as (OK2 & Q2); auto; [split; [lia|split; [exact P|split; assumption]]|].
  apply IH; auto; lia.
Qed.

Lemma scan_ok_start st s : scan_ok st s ->
  scan_ok st (mkM (m_asi s) (m_asip s) (m_eip s) (m_ear s) (m_earp s) (m_pcm s) 0 0 (m_pcfg s) 0).
Proof. intros H; exact H. Qed.

Theorem mhas_parse_fuel n m st s :
  scan_ok st s -> r_cnt st < 16 * Z.of_nat n -> r_cnt st < 16 * Z.of_nat m ->
  exec (mhas_parse n s) st = exec (mhas_parse m s) st /\ exec (mhas_parse n s) st <> UB UFuel.
Proof.
  intros OK Hn Hm. unfold mhas_parse. rewrite !exec_bind.
  destruct (mhas_loop_fuel n m st _ (scan_ok_start _ _ OK) Hn Hm) as [E F]. rewrite <- E.
  split; [reflexivity|].
  destruct (exec _ st) as [[r st2]|c|r]; [|discriminate|congruence].
  destruct r as [[s' p]|e]; [|discriminate]. destruct (m_err s' =? 0); discriminate.
Qed.

(** ** Framing *)
Lemma exec_framed_w {A} len (p : prog (res A)) Q st a st' :
  wlp p Q -> 0 <= r_cnt st -> exec (framed len p) st = Done (Ok a, st') ->
  exists sp, exec p st = Done (Ok a, sp) /\
    bitpos st' = bitpos st + Z.max (bitpos sp - bitpos st) (8 * len).
Proof.
  intros W C E. unfold framed in E. rewrite exec_bind in E. cbn [exec avail] in E.
  rewrite exec_bind in E. destruct (exec p st) as [[[x|e] sp]| |] eqn:F; try discriminate.
  assert (G := exec_wlp _ _ _ _ _ W C F). destruct G as (_ & _ & G & G2).
  rewrite exec_bind in E. cbn [exec avail] in E. rewrite exec_bind in E.
  destruct (Z.ltb_spec (r_cnt st - r_cnt sp) (len * 8)).
  - cbn [exec skip] in E. destruct (skip_bits (len * 8 - (r_cnt st - r_cnt sp)) sp) as [s1| |] eqn:K; try discriminate.
    apply skip_bits_const in K as (_ & _ & K); [|lia]. inversion E; subst.
    eexists; split; [reflexivity|]. lia.
  - cbn [exec] in E. inversion E; subst. eexists; split; [reflexivity|]. lia.
Qed.

(** The packet types with a payload parser of their own. *)
Definition payload_end (ty : Z) (s : mst) (st : rbuf) : option Z :=
  let fin {A} (o : outcome (res A * rbuf)) :=
    match o with Done (Ok _, sp) => Some (bitpos sp) | _ => None end in
  if ty =? 3 then fin (exec (asi_parse (m_asi s)) st)
  else if ty =? 19 then fin (exec (earcon_info (m_ear s)) st)
  else if ty =? 20 then fin (exec (noerr (pcm_config (m_pcm s))) st)
  else if ty =? 21 then fin (exec (noerr (pcm_payload (m_pcm s))) st)
  else None.

Theorem packet_framing ty len s st s' st' :
  scan_ok st s -> 0 <= len -> ty <> 1 -> ty <> 2 -> ty <> 22 ->
  exec (packet_body ty len s) st = Done (Ok s', st') ->
  bitpos st' = bitpos st + 8 * len \/
  exists e, payload_end ty s st = Some e /\ 8 * len < e - bitpos st /\ bitpos st' = e.
Proof.
  intros (C & P & B & Sh) Hl N1 N2 N3 E. unfold packet_body in E. unfold payload_end.
  assert (SK : forall l st' (x : res mst), 0 <= l ->
     exec (skip (l * 8) ;;; Ret x) st = Done (x, st') -> bitpos st' = bitpos st + 8 * l).
  { intros l st1 x Hl' F. rewrite exec_bind in F. cbn [exec skip] in F.
    destruct (skip_bits (l * 8) st) as [s1| |] eqn:K; try discriminate.
    apply skip_bits_const in K as (_ & _ & K); [|lia]. inversion F; subst. lia. }
  destruct (Z.eqb_spec ty 3).
  { rewrite exec_bind in E. destruct (exec (framed len (asi_parse (m_asi s))) st) as [[[a|e0] s1]| |] eqn:F; try discriminate.
    destruct (exec_framed_w _ _ _ _ _ _ (wp_wlp _ _ (wp_asi_parse _ Sh)) C F) as (sp & F1 & F2).
    inversion E; subst. rewrite F1.
    destruct (Z_le_gt_dec (bitpos sp - bitpos st) (8 * len)); [left; lia|right; exists (bitpos sp); repeat split; lia]. }
  destruct (Z.eqb_spec ty 6).
  { left. rewrite exec_bind in E. cbn [exec rd] in E. destruct (read_bits 8 st) as [[v s1]| |] eqn:K; try discriminate.
    apply read_bits_const in K as (_ & _ & K).
    destruct (Z.eqb_spec len 1); [|rewrite orb_true_r in E; discriminate].
    destruct (Z.eqb_spec v 0xA5); [|discriminate]. cbn in E. inversion E; subst. lia. }
  destruct (Z.eqb_spec ty 12).
  { left. rewrite exec_bind in E. cbn [exec skip] in E. destruct (skip_bits (len * 8) st) as [s1| |] eqn:K; try discriminate.
    apply skip_bits_const in K as (_ & _ & K); [|lia]. inversion E; subst. lia. }
  destruct (Z.eqb_spec ty 19).
  { rewrite exec_bind in E. destruct (exec (framed len (earcon_info (m_ear s))) st) as [[[a|e0] s1]| |] eqn:F; try discriminate.
    destruct (exec_framed_w _ _ _ _ _ _ (wlp_earcon_info _) C F) as (sp & F1 & F2).
    inversion E; subst. rewrite F1.
    destruct (Z_le_gt_dec (bitpos sp - bitpos st) (8 * len)); [left; lia|right; exists (bitpos sp); repeat split; lia]. }
  assert (NE : forall (p : prog pcm) Q, wlp p Q -> wlp (noerr p) (fun _ => True)).
  { intros p Q H. unfold noerr. apply wlp_bindi. eapply wlp_mono; [|exact H]. intros. exact I. }
  destruct (Z.eqb_spec ty 20).
  { rewrite exec_bind in E. destruct (exec (framed len (noerr (pcm_config (m_pcm s)))) st) as [[[a|e0] s1]| |] eqn:F; try discriminate.
    destruct (exec_framed_w _ _ _ _ _ _ (NE _ _ (wlp_pcm_config _ B)) C F) as (sp & F1 & F2).
    inversion E; subst. rewrite F1.
    destruct (Z_le_gt_dec (bitpos sp - bitpos st) (8 * len)); [left; lia|right; exists (bitpos sp); repeat split; lia]. }
  destruct (Z.eqb_spec ty 21).
  { rewrite exec_bind in E. destruct (exec (framed len (noerr (pcm_payload (m_pcm s)))) st) as [[[a|e0] s1]| |] eqn:F; try discriminate.
    destruct (exec_framed_w _ _ _ _ _ _ (NE _ _ (wlp_pcm_payload _ B)) C F) as (sp & F1 & F2).
    inversion E; subst. rewrite F1.
    destruct (Z_le_gt_dec (bitpos sp - bitpos st) (8 * len)); [left; lia|right; exists (bitpos sp); repeat split; lia]. }
  destruct (Z.eqb_spec ty 22); [contradiction|].
  unfold CFG, FRAME in E.
  destruct (Z.eqb_spec ty 1); [contradiction|]. destruct (Z.eqb_spec ty 2); [contradiction|].
  cbn [orb] in E. left.
  assert (X : exec (skip (len * 8) ;;; Ret (Ok s)) st = Done (Ok s, st')).
  { rewrite E. rewrite exec_bind in E. cbn [exec skip] in E.
    destruct (skip_bits (len * 8) st); try discriminate. congruence. }
  eapply SK; [|exact X]. lia.
Qed.
