(** * Packets at the front of the input: size of a configuration, restart on a change,
    access units before the configuration (C22, C80, C83) *)
From Coq Require Import ZArith List Lia Bool.
From Verif Require Import Bits BitBuf Prog BitWrite Asi Mhas Config Spec_Mhas Spec_Asi Session Spec_Session Lem_Mhas Lem_Scan Lem_Session Lem_SessionInv.
Import ListNotations.
Open Scope Z_scope.

Lemma front bs ty lb len rest m n : packet_at bs ty lb len rest -> ty = CFG \/ ty = FRAME ->
  exists b, exec (mhas_loop (S n) m) (fresh bs) = Done (Ok (m, (ty, lb, len)), b) /\ wf b /\ rest_bits b = rest.
Proof.
  intros (B & V & L & E) T. destruct (exec_header ty lb len (fresh bs) rest (wf_fresh _ B) V L) as (b & X & W & R).
  { rewrite rest_fresh. exact E. }
  exists b. split; [|auto]. cbn [mhas_loop]. rewrite exec_bind, X. unfold packet_body.
  destruct T as [-> | ->]; cbn; reflexivity.
Qed.

Lemma bits_len (l : list bool) b : wf b -> rest_bits b = l -> r_cnt b = Z.of_nat (length l).
Proof.
  intros (B & P1 & P2 & P3 & P4) E. assert (length (rest_bits b) = Z.to_nat (r_cnt b)).
  { unfold rest_bits. rewrite firstn_length_le; [reflexivity|]. rewrite skipn_length. rewrite bytes_bits_length. unfold bitpos in *. lia. }
  rewrite E in H. lia.
Qed.

Lemma byte_bits x l : 0 <= x < 256 -> val_of (firstn 8 (bits_of 8 x ++ l)) = x /\ skipn 8 (bits_of 8 x ++ l) = l.
Proof.
  intros H. pose proof (bits_of_length 8 x) as L. split.
  - rewrite firstn_app, L. cbn [Nat.sub]. rewrite firstn_O, app_nil_r, firstn_all2 by lia. apply val_bits_of. cbn. lia.
  - rewrite skipn_app, L. cbn [Nat.sub]. rewrite skipn_all2 by lia. reflexivity.
Qed.

Lemma take_front : forall pl b rest, are_bytes pl -> wf b -> rest_bits b = enc_bytes pl ++ rest ->
  take_bytes (length pl) b = pl.
Proof.
  induction pl as [|x pl IH]; intros b rest A W E; cbn [take_bytes length]; [reflexivity|].
  pose proof (Forall_inv A) as X. apply Forall_inv_tail in A.
  unfold enc_bytes in E. cbn [map concat] in E. rewrite <- app_assoc in E.
  pose proof (bits_len _ _ W E) as C. rewrite app_length, bits_of_length in C.
  assert (W' := W). destruct W' as (_ & _ & P & _ & _).
  destruct (read_bits_ok 8 b W ltac:(lia) ltac:(lia) ltac:(lia)) as (b' & R & W1 & R1 & _).
  rewrite R, E. change (Z.to_nat 8) with 8%nat. destruct (byte_bits x (concat (map (bits_of 8) pl) ++ rest) X) as [Y1 Y2].
  rewrite Y1. f_equal. eapply IH; [exact A|exact W1|]. rewrite R1, E. change (Z.to_nat 8) with 8%nat. rewrite Y2. reflexivity.
Qed.

Lemma whole_front pl b rest : wf b -> rest_bits b = enc_bytes pl ++ rest -> zlen pl <= whole_bytes b.
Proof.
  intros W E. pose proof (bits_len _ _ W E) as C. rewrite app_length, enc_bytes_len in C.
  unfold whole_bytes, zlen. apply Z.div_le_lower_bound; lia.
Qed.

(** ** A configuration larger than the array it is kept in *)
Lemma oversized_header e bs pl s : config_packet bs pl -> MAX_CFG < zlen pl -> e_mhas e = true -> e_raw e = false ->
  s_plen s = 0 -> header e bs s = HUb UOob.
Proof.
  intros (A & lb & rest & P) L M R Z0. unfold header. rewrite M, R. cbn [orb]. unfold mhas_fuel.
  destruct (front bs CFG lb (zlen pl) (enc_bytes pl ++ rest) (mhas_start (e_asi e)) (length bs) P (or_introl eq_refl)) as (b & X & W & RB).
  rewrite X. cbn [CFG Z.eqb Pos.eqb negb]. unfold header_config. rewrite Z0. cbn [Z.eqb].
  pose proof (whole_front _ _ _ W RB) as H. unfold copy_cfg. rewrite Z.min_l by lia.
  rewrite Z.max_r by (unfold zlen; lia). destruct (Z.ltb_spec MAX_CFG (zlen pl)); [reflexivity|lia].
Qed.

Theorem oversized_init e bs pl s o : config_packet bs pl -> MAX_CFG < zlen pl -> e_mhas e = true -> e_raw e = false ->
  s_plen s = 0 -> s_hdr s = false -> s_freq s = 0 -> api_init e plain bs s o = UB UOob.
Proof.
  intros P L M R Z0 H F. unfold api_init. cbn [plain a_ei a_lsi a_brir a_mae any_short a_bin a_groups andb].
  unfold dec_init, dec_init_with. rewrite H, F. cbn [negb Z.eqb].
  assert (zlen bs <> 0).
  { destruct P as (A & lb & rest & _ & _ & _ & P). intros Z. destruct bs; [|unfold zlen in Z; cbn in Z; lia].
    apply (f_equal (@length bool)) in P. rewrite bytes_bits_length, !app_length, enc_bytes_len in P. cbn [length] in P.
    unfold zlen, MAX_CFG in L. lia. }
  destruct (Z.eqb_spec (zlen bs) 0); [contradiction|].
  rewrite (oversized_header e bs pl s P L M R Z0). reflexivity.
Qed.

(** In the execute call the comparison with the kept configuration comes first. *)
Definition accepts (e : env) : Prop := e_chan e = true /\ e_ear e = 0 /\ e_drc e = 0 /\ m_ptype (e_asi e) <> 1.

Lemma same_bytes_spec : forall a b, same_bytes a b = true <-> a = b.
Proof.
  induction a as [|x a IH]; destruct b as [|y b]; cbn; split; intros H; try discriminate; try reflexivity.
  - apply andb_true_iff in H. destruct H as [H1 H2]. apply Z.eqb_eq in H1. apply IH in H2. congruence.
  - inversion H; subst. rewrite Z.eqb_refl. cbn. apply IH. reflexivity.
Qed.

Lemma main_front e bs pl s : config_packet bs pl -> accepts e -> e_raw e = false -> s_fc s <> 0 ->
  exists b, wf b /\ (exists rest, rest_bits b = enc_bytes pl ++ rest) /\ 
    dec_main e bs s = main_config e bs (zlen pl) b (w_buf (w_buf (w_flush s false) (8 * zlen bs) (8 * zlen bs)) (8 * zlen bs) (r_cnt b)).
Proof.
  intros (A & lb & rest & P) (C & Ea & D & PT) R F.
  destruct (front bs CFG lb (zlen pl) (enc_bytes pl ++ rest) (mhas_start (e_asi e)) (length bs) P (or_introl eq_refl)) as (b & X & W & RB).
  exists b. split; [exact W|]. split; [exists rest; exact RB|]. unfold dec_main. rewrite C. cbn [negb s_fc w_flush].
  destruct (Z.eqb_spec (s_fc s) 0); [contradiction|]. cbv zeta. rewrite R. unfold mhas_fuel. rewrite X.
  rewrite Ea, D. cbn [mhas_start m_err m_ptype Z.eqb negb]. cbn [CFG Z.eqb Pos.eqb]. reflexivity.
Qed.

Definition kept_ok (s : sess) : Prop := 0 < s_plen s <= zlen (s_prev s) /\ s_plen s <= MAX_CFG.

Lemma flush_api_flush e bs s c s' : flush_api e bs s = Done (c, s') -> s_flush s' = true.
Proof.
  unfold flush_api. destruct (dec_init_with _ _ _ _) as [[c1 s1]|x|r]; try discriminate. intros H. inversion H; subst. reflexivity.
Qed.

Lemma dec_init_nojmp main e bs s x : dec_init_with main e bs s <> Jmp x.
Proof.
  unfold dec_init_with. destruct (negb (s_hdr s)).
  2:{ cbv zeta. destruct (zlen bs =? 0); discriminate. }
  destruct (s_freq s =? 0); [|discriminate]. destruct (zlen bs =? 0); [discriminate|].
  destruct (header e bs s) as [hc used s1|s1|r]; [|discriminate|discriminate].
  destruct (fatal hc); [discriminate|]. destruct (hc =? X_INPUT); [discriminate|]. destruct (hc =? 0); [|discriminate].
  destruct (main (w_cons s1 used)) as [c0 q s2|s2|r]; [|discriminate|discriminate]. destruct (negb (c0 =? 0)); discriminate.
Qed.
Lemma flush_api_nojmp e bs s x : flush_api e bs s <> Jmp x.
Proof.
  unfold flush_api. destruct (dec_init_with (frame_zero e) e bs (w_fc (w_freq s 0) 0)) as [[c1 s1]|y|r] eqn:D; [discriminate| |discriminate].
  elim (dec_init_nojmp _ _ _ _ _ D).
Qed.

Definition prev_same (s s' : sess) : Prop := s_plen s' = s_plen s /\ s_prev s' = s_prev s.

Lemma header_prev e bs s : s_plen s <> 0 ->
  match header e bs s with HUb _ => True | HJmp s' => prev_same s s' | HRet _ _ s' => prev_same s s' end.
Proof.
  intros P. unfold header. destruct (e_mhas e || e_raw e); [|split; reflexivity].
  assert (K : forall n len b, match header_config e n len b s with HUb _ => True | HJmp s' => prev_same s s' | HRet _ _ s' => prev_same s s' end).
  { intros n len b. unfold header_config. cbv zeta. destruct (Z.eqb_spec (s_plen s) 0); [contradiction|].
    destruct (exec (mpegh_3da_config (e_user e) (e_cfg e)) b) as [[[c u] b']|x|r]; [|split; reflexivity|auto].
    destruct (negb (c =? 0)); [split; reflexivity|]. destruct (negb (e_raw e) && _); split; reflexivity. }
  destruct (e_raw e); [apply K|].
  destruct (exec (mhas_loop (mhas_fuel bs) (mhas_start (e_asi e))) (fresh bs)) as [[r b]|x|u]; [|split; reflexivity|auto].
  destruct (match r with Ok (_, (ty, _, len)) => (ty, len) | Er _ => (0, 0) end) as [ty len].
  destruct (negb (ty =? CFG)); [split; reflexivity|apply K].
Qed.

Lemma flush_api_prev e bs s c s' : s_plen s <> 0 -> flush_api e bs s = Done (c, s') -> prev_same s s'.
Proof.
  intros P. unfold flush_api, dec_init_with. cbn [s_hdr w_fc w_freq s_freq Z.eqb].
  destruct (negb (s_hdr s)).
  2:{ destruct (zlen bs =? 0); intros H; inversion H; split; reflexivity. }
  destruct (zlen bs =? 0). { intros H; inversion H; split; reflexivity. }
  pose proof (header_prev e bs (w_fc (w_freq s 0) 0) P) as K.
  destruct (header e bs (w_fc (w_freq s 0) 0)) as [hc used s1|s1|r]; [| |discriminate].
  - destruct K as [K1 K2]. cbn [s_plen s_prev w_fc w_freq] in K1, K2.
    destruct (fatal hc). { intros H; inversion H; subst. destruct (c =? E_STREAM_CHAN); split; assumption. }
    destruct (hc =? X_INPUT). { intros H; inversion H; subst. split; assumption. }
    destruct (hc =? 0). 2:{ intros H; inversion H; subst. split; assumption. }
    unfold frame_zero. destruct (negb (e_chan0 e)). { intros H; inversion H; subst; split; assumption. }
    destruct (negb (e_zero e =? 0)); intros H; inversion H; subst; split; assumption.
  - destruct K as [K1 K2]. intros H; inversion H; subst. split; assumption.
Qed.

(** The decision: a complete configuration packet equal to the kept one is parsed in place,
    any other one restarts the decoder; afterwards the packet is the kept one. *)
Theorem restart_iff e bs pl s o sd c s' o' :
  config_packet bs pl -> 0 < zlen pl <= MAX_CFG -> accepts e -> e_raw e = false ->
  s_init s = true -> s_fc s <> 0 -> kept_ok s -> s_nch s <= MAX_CH -> sd = NoInfo \/ sd = Parsed ->
  api_execute e sd bs s o = Done (c, s', o') ->
  (c <> X_INPUT -> (s_flush s' = true <-> kept s <> pl)) /\ kept s' = pl.
Proof.
  intros P PL AC R I F (K1 & K2) NC SD E. unfold api_execute in E. rewrite I in E. cbn [negb] in E.
  assert (E' : match dec_execute e bs (w_cons s 0) with
      | UB r => UB r
      | Jmp c => Jmp c
      | Done (c, s) =>
        let s := if negb (c =? 0) && (s_cons s =? 0) then w_cons s 1 else s in
        let out := if s_disc s then fst (s_pre s) else s_out s in
        Done (c, s, mkO (s_cons s) (o_done o) out)
      end = Done (c, s', o')) by (destruct SD; subst; exact E). clear E.
  unfold dec_execute in E'. cbn [s_nch w_pre w_cons] in E'.
  destruct (Z.ltb_spec MAX_CH (s_nch s)); [lia|].
  set (s0 := w_pre (w_cons (w_cons s 0) 0) (0, 0)) in *.
  destruct (main_front e bs pl s0 P AC R F) as (b & W & (rest & RB) & EM). rewrite EM in E'. clear EM.
  set (s1 := w_buf (w_buf (w_flush s0 false) (8 * zlen bs) (8 * zlen bs)) (8 * zlen bs) (r_cnt b)) in *.
  assert (A : are_bytes pl) by apply P.
  pose proof (whole_front _ _ _ W RB) as WB. pose proof (take_front _ _ _ A W RB) as TK.
  assert (ZL : Z.to_nat (zlen pl) = length pl) by (unfold zlen; lia).
  unfold main_config in E'. cbv zeta in E'. change (s_plen s1) with (s_plen s) in E'. change (s_prev s1) with (s_prev s) in E'.
  destruct (Z.eqb_spec (s_plen s) 0); [lia|]. cbn [negb] in E'.
  destruct (Z.ltb_spec (whole_bytes b) (zlen pl)); [lia|]. rewrite ZL, TK in E'.
  assert (KL : length (kept s) = Z.to_nat (s_plen s)).
  { unfold kept. rewrite firstn_length_le; [reflexivity|]. unfold zlen in K1. lia. }
  assert (EQ : negb (zlen pl =? s_plen s) || negb (same_bytes pl (firstn (length pl) (s_prev s))) = false <-> kept s = pl).
  { rewrite orb_false_iff, !negb_false_iff, Z.eqb_eq, same_bytes_spec. unfold kept. split.
    - intros [Q1 Q2]. rewrite <- Q1, ZL. symmetry. exact Q2.
    - intros Q. assert (length pl = Z.to_nat (s_plen s)) by (rewrite <- Q; exact KL).
      split; [unfold zlen; lia|]. rewrite H1. symmetry. exact Q. }
  destruct (negb (zlen pl =? s_plen s) || negb (same_bytes pl (firstn (length pl) (s_prev s)))) eqn:D.
  - assert (NQ : kept s <> pl) by (intros Q; apply EQ in Q; congruence).
    destruct (Z.ltb_spec MAX_CFG (zlen pl)); [lia|].
    set (s2 := w_buf (w_prev s1 (zlen pl) (pl ++ skipn (length pl) (s_prev s))) (8 * zlen bs) (r_cnt b)) in *.
    destruct (flush_api e bs s2) as [[c3 s3]|x|r] eqn:FL; [| |discriminate].
    + pose proof (flush_api_flush _ _ _ _ _ FL) as F3.
      destruct (flush_api_prev e bs s2 c3 s3 ltac:(cbn; lia) FL) as [Q1 Q2].
      assert (Q : kept s3 = pl).
      { unfold kept. rewrite Q1, Q2. cbn [s2 s_plen s_prev w_buf w_prev]. rewrite ZL, firstn_app, Nat.sub_diag, firstn_O, app_nil_r.
        apply firstn_all. }
      destruct (Z.eqb_spec c3 0) as [->|C3]; cbn [negb andb] in E'.
      * rewrite F3 in E'. assert (Y : s_flush s' = true /\ kept s' = kept s3).
        { clear - E' F3. inversion E'. subst s'. split; [exact F3|reflexivity]. }
        destruct Y as [Y1 Y2]. rewrite Y1, Y2. split; [intros _; tauto|exact Q].
      * destruct (Z.eqb_spec c3 0) in E'; [contradiction|]. cbn [negb andb] in E'.
        assert (Y : s_flush s' = true /\ kept s' = kept s3).
        { clear - E' F3. destruct (s_cons (w_cons s3 (bytes_of_buf s3)) =? 0); inversion E'; subst s'; (split; [exact F3|reflexivity]). }
        destruct Y as [Y1 Y2]. rewrite Y1, Y2. split; [intros _; tauto|exact Q].
    + elim (flush_api_nojmp _ _ _ _ FL).
  - assert (Q : kept s = pl) by (apply EQ; reflexivity).
    destruct (exec (mpegh_3da_config (e_user e) (e_cfg e)) b) as [[[cc u] b']|x|r]; [| |discriminate].
    + assert (G : forall cx st, prev_same s st -> s_flush st = false ->
        match (if negb (cx =? 0) then Done (cx, w_cons st (bytes_of_buf st))
               else Done (0, w_out (if s_flush st then st else w_cons (w_fc st (s_fc st + 1)) (bytes_of_buf st)) 0)) with
        | UB r => UB r
        | Jmp c => Jmp c
        | Done (c, s) =>
          let s := if negb (c =? 0) && (s_cons s =? 0) then w_cons s 1 else s in
          let out := if s_disc s then fst (s_pre s) else s_out s in
          Done (c, s, mkO (s_cons s) (o_done o) out)
        end = Done (c, s', o') -> s_flush s' = false /\ prev_same s s').
      { intros cx st PS SF G. destruct (negb (cx =? 0)).
        - cbv zeta in G. match type of G with Done (_, if ?b then _ else _, _) = _ => destruct b end; inversion G; subst; auto.
        - rewrite SF in G. cbv zeta in G. match type of G with Done (_, if ?b then _ else _, _) = _ => destruct b end; inversion G; subst; auto. }
      assert (Y : s_flush s' = false /\ prev_same s s').
      { set (sx := w_buf (w_freq s1 (freq_after b (s_freq s1))) (8 * zlen bs) (r_cnt b')) in *.
        destruct (Z.eqb_spec cc 0) as [->|C0]; cbn [negb] in E'.
        - apply (G (e_create e) (w_init sx true)); [split; reflexivity|reflexivity|exact E'].
        - apply (G cc (w_init sx false)); [split; reflexivity|reflexivity|exact E']. }
      destruct Y as [Y1 [Y2 Y3]]. split; [intros _; rewrite Y1; split; [discriminate|tauto]|]. unfold kept. rewrite Y2, Y3. exact Q.
    + cbn [Z.eqb X_INPUT negb andb] in E'. split.
      * intros NX. exfalso. apply NX. destruct (_ =? 0) in E'; inversion E'; reflexivity.
      * assert (Y : prev_same s s') by (clear - E'; destruct (_ =? 0) in E'; inversion E'; subst s'; split; reflexivity).
        destruct Y as [Y2 Y3]. unfold kept. rewrite Y2, Y3. exact Q.
Qed.

(** ** What is kept after the first configuration *)
Theorem init_keeps e bs pl s o c s' o' : config_packet bs pl -> 0 < zlen pl <= MAX_CFG -> e_mhas e = true -> e_raw e = false ->
  s_plen s = 0 -> s_hdr s = false -> s_freq s = 0 -> s_fc s = 0 -> api_init e plain bs s o = Done (c, s', o') ->
  kept s' = pl /\ kept_ok s'.
Proof.
  intros P L M R Z0 H F FC. unfold api_init. cbn [plain a_ei a_lsi a_brir a_mae any_short a_bin a_groups andb].
  unfold dec_init, dec_init_with. rewrite H, F. cbn [negb Z.eqb].
  assert (NZ : zlen bs <> 0).
  { destruct P as (A & lb & rest & _ & _ & _ & P). intros Z. destruct bs; [|unfold zlen in Z; cbn in Z; lia].
    apply (f_equal (@length bool)) in P. rewrite bytes_bits_length, !app_length, enc_bytes_len in P. cbn [length] in P.
    unfold zlen, MAX_CFG in L. lia. }
  destruct (Z.eqb_spec (zlen bs) 0); [contradiction|].
  assert (Y : match header e bs s with HUb _ => True | HJmp s1 => kept s1 = pl /\ kept_ok s1 /\ s_fc s1 = 0 | HRet _ _ s1 => kept s1 = pl /\ kept_ok s1 /\ s_fc s1 = 0 end).
  { unfold header. rewrite M, R. cbn [orb]. unfold mhas_fuel.
    destruct P as (A & lb & rest & P).
    destruct (front bs CFG lb (zlen pl) (enc_bytes pl ++ rest) (mhas_start (e_asi e)) (length bs) P (or_introl eq_refl)) as (b & X & W & RB).
    rewrite X. cbn [CFG Z.eqb Pos.eqb negb]. unfold header_config. rewrite Z0. cbn [Z.eqb].
    pose proof (whole_front _ _ _ W RB) as HB. unfold copy_cfg. rewrite Z.min_l by lia. rewrite Z.max_r by lia.
    destruct (Z.ltb_spec MAX_CFG (zlen pl)); [lia|]. destruct (Z.leb_spec (zlen pl) (whole_bytes b)); [|lia].
    assert (ZL : Z.to_nat (zlen pl) = length pl) by (unfold zlen; lia).
    rewrite ZL, (take_front _ _ _ A W RB). cbv zeta.
    assert (G : forall s1, s_plen s1 = zlen pl -> s_prev s1 = pl ++ skipn (length pl) (s_prev s) -> s_fc s1 = s_fc s -> kept s1 = pl /\ kept_ok s1 /\ s_fc s1 = 0).
    { intros s1 Q1 Q2 Q3. unfold kept, kept_ok. rewrite Q1, Q2, ZL, firstn_app, Nat.sub_diag, firstn_O, app_nil_r, firstn_all.
      split; [reflexivity|]. split; [|congruence]. unfold zlen in *. rewrite app_length. lia. }
    destruct (exec (mpegh_3da_config (e_user e) (e_cfg e)) b) as [[[cc u] b']|x|r]; [|apply G; reflexivity|auto].
    destruct (negb (cc =? 0)); [apply G; reflexivity|]. destruct (negb (e_raw e) && _); apply G; reflexivity. }
  destruct (header e bs s) as [hc used s1|s1|r]; [| |discriminate].
  - destruct Y as (Y1 & Y2 & Y3).
    destruct (fatal hc). { intros E. match type of E with Done (_, ?x, _) = _ => assert (s' = x) by (inversion E; reflexivity) end. subst s'. destruct (hc =? E_STREAM_CHAN); split; assumption. }
    destruct (hc =? X_INPUT). { intros E; inversion E; subst s'. split; assumption. }
    destruct (hc =? 0). 2:{ intros E; inversion E; subst s'. split; assumption. }
    cbn [s_fc w_cons]. rewrite Y3. cbn [Z.eqb]. unfold frame_zero.
    destruct (negb (e_chan0 e)). { intros E; inversion E; subst s'; split; assumption. }
    destruct (negb (e_zero e =? 0)); intros E; inversion E; subst s'; split; assumption.
  - destruct Y as (Y1 & Y2 & Y3). intros E; inversion E; subst s'. split; assumption.
Qed.

(** ** An access unit before the configuration *)
Theorem init_frame e bs lb len rest s o : packet_at bs FRAME lb len rest -> e_mhas e = true -> e_raw e = false ->
  s_hdr s = false -> s_freq s = 0 ->
  exists s', api_init e plain bs s o = Done (E_NO_CONFIG, s', mkO (if len =? 0 then 1 else len) false (o_bytes o)).
Proof.
  intros P M R H F. unfold api_init. cbn [plain a_ei a_lsi a_brir a_mae any_short a_bin a_groups andb].
  unfold dec_init, dec_init_with. rewrite H, F. cbn [negb Z.eqb].
  assert (NZ : zlen bs <> 0).
  { destruct P as (_ & V & _ & P). intros Z. destruct bs; [|unfold zlen in Z; cbn in Z; lia].
    apply (f_equal (@length bool)) in P. rewrite bytes_bits_length, app_length in P. cbn [length] in P.
    assert (length (enc_header FRAME lb len) = 0)%nat by lia. unfold enc_header in H0. rewrite !app_length in H0.
    unfold esc_enc in H0 at 1. cbn in H0. discriminate. }
  destruct (Z.eqb_spec (zlen bs) 0); [contradiction|]. unfold header. rewrite M, R. cbn [orb]. unfold mhas_fuel.
  destruct (front bs FRAME lb len rest (mhas_start (e_asi e)) (length bs) P (or_intror eq_refl)) as (b & X & W & RB).
  rewrite X. cbn [FRAME CFG Z.eqb Pos.eqb negb]. change (fatal E_NO_CONFIG) with true. cbv iota.
  change (E_NO_CONFIG =? E_STREAM_CHAN) with false. cbv iota. cbn [s_cons w_cons s_init E_NO_CONFIG Z.eqb andb].
  rewrite andb_false_r. eexists. reflexivity.
Qed.

(** ** Range of the bytes an initialisation call reports *)
Lemma dec_init_zero e bs s : s_fc s = 0 -> dec_init e bs s = dec_init_with (frame_zero e) e bs s.
Proof.
  intros F. unfold dec_init, dec_init_with. destruct (negb (s_hdr s)); [|reflexivity].
  destruct (s_freq s =? 0); [|reflexivity]. destruct (zlen bs =? 0); [reflexivity|].
  pose proof (header_same e bs s) as K. destruct (header e bs s) as [hc used s1|s1|r]; [|reflexivity|reflexivity].
  destruct (fatal hc); [reflexivity|]. destruct (hc =? X_INPUT); [reflexivity|]. destruct (hc =? 0); [|reflexivity].
  destruct K as (_ & _ & _ & _ & K5 & _). cbn [s_fc w_cons]. rewrite K5, F. reflexivity.
Qed.

Theorem init_range e a bs s o c s' o' : env_ok e -> packaged e -> s_init s = false -> s_fc s = 0 -> o_done o = false ->
  api_init e a bs s o = Done (c, s', o') -> o_done o' = true -> 1 <= o_cons o' <= zlen bs /\ s_freq s' <> 0 /\ s_init s' = true.
Proof.
  intros OK PK I F O E D. unfold api_init in E. rewrite (dec_init_zero e bs s F) in E.
  destruct (a_ei a); try (inversion E; subst; cbn in D; congruence);
  destruct (a_lsi a); try (inversion E; subst; cbn in D; congruence);
  destruct (a_brir a); try (inversion E; subst; cbn in D; congruence);
  (destruct (any_short (a_mae a)); [inversion E; subst; cbn in D; congruence|]);
  (destruct (dec_init_with (frame_zero e) e bs s) as [[c1 s1]|x|r] eqn:D1; [|discriminate|discriminate]);
  (destruct (a_bin a && negb (a_binerr a =? 0)); [inversion E; subst; cbn in D; congruence|]);
  inversion E; subst; cbn [o_done o_cons] in D |- *; apply andb_prop in D; destruct D as [D2 _];
  (assert (C1 : c1 = 0) by (eapply (dec_init_done (frame_zero e)); [|exact OK|exact D1|exact I|exact D2];
     intros s2; unfold frame_zero; destruct (negb (e_chan0 e)); right; reflexivity));
  (destruct (dec_init_ready (frame_zero e) e bs s c1 s' OK PK) as [Q1 Q2];
   [intros s2; unfold frame_zero; destruct (negb (e_chan0 e)); [intros Q; discriminate|intros _ Q; auto]
   |exact D1|exact C1|exact I|exact D2|]);
  (destruct (Z.eqb_spec (s_cons s') 0); [lia|]); auto.
Qed.

(** A call without side information that asks for more input has used all it was given. *)
Theorem init_more e bs s o s' o' : s_init s = false -> s_fc s = 0 -> env_ok e -> e_zero e <> I_INPUT ->
  api_init e plain bs s o = Done (I_INPUT, s', o') -> o_cons o' = zlen bs /\ o_done o' = false /\ 1 <= zlen bs.
Proof.
  intros I F OK EZ E. unfold api_init in E. cbn [plain a_ei a_lsi a_brir a_mae any_short a_bin a_groups andb] in E.
  rewrite (dec_init_zero e bs s F) in E. pose proof (zlen_nonneg bs) as ZN.
  destruct (dec_init_with (frame_zero e) e bs s) as [[c1 s1]|x|r] eqn:D1; [|discriminate|discriminate].
  inversion E; subst. cbn [o_cons o_done]. change (I_INPUT =? 0) with false. rewrite andb_false_r.
  unfold dec_init_with in D1. destruct (negb (s_hdr s)). 2:{ cbv zeta in D1. destruct (zlen bs =? 0); inversion D1. }
  destruct (s_freq s =? 0); [|inversion D1]. destruct (Z.eqb_spec (zlen bs) 0); [inversion D1|].
  destruct (header e bs s) as [hc used s1|s1|r]; [| |discriminate].
  - destruct (fatal hc) eqn:Fc.
    { inversion D1. rewrite H0 in Fc. discriminate. }
    destruct (Z.eqb_spec hc X_INPUT). { inversion D1. subst. discriminate. }
    destruct (Z.eqb_spec hc 0); [|inversion D1]. unfold frame_zero in D1.
    destruct (negb (e_chan0 e)). { cbn in D1. inversion D1. }
    destruct (Z.eqb_spec (e_zero e) 0); cbn [negb] in D1; inversion D1. congruence.
  - inversion D1; subst. cbn [s_cons w_cons w_out]. destruct (Z.eqb_spec (zlen bs) 0); [contradiction|]. repeat split; lia.
Qed.

(** ** Empty input *)
Lemma empty_init e s o : exists s' o', api_init e plain [] s o = Done (0, s', o') /\ o_cons o' = 1.
Proof.
  unfold api_init. cbn [plain a_ei a_lsi a_brir a_mae any_short a_bin a_groups andb].
  unfold dec_init, dec_init_with. change (zlen []) with 0. cbn [Z.eqb].
  destruct (negb (s_hdr s)); [destruct (s_freq s =? 0)|]; do 2 eexists; (split; [reflexivity|]); reflexivity.
Qed.
Lemma empty_execute e s o : e_raw e = false -> e_chan e = true -> s_init s = true -> s_fc s <> 0 -> s_nch s <= MAX_CH ->
  exists s' o', api_execute e NoInfo [] s o = Done (X_INPUT, s', o') /\ o_cons o' = 1.
Proof.
  intros R C I F N. unfold api_execute. rewrite I. cbn [negb]. unfold dec_execute. cbn [s_nch w_pre w_cons].
  destruct (Z.ltb_spec MAX_CH (s_nch s)); [lia|]. unfold dec_main. rewrite C, R. cbn [negb s_fc w_flush w_pre w_cons].
  destruct (Z.eqb_spec (s_fc s) 0); [contradiction|]. cbv zeta.
  assert (X : exists c, exec (mhas_loop (mhas_fuel []) (mhas_start (e_asi e))) (fresh []) = Jmp c).
  { unfold mhas_fuel. cbn [length mhas_loop]. rewrite exec_bind. eexists. reflexivity. }
  destruct X as [x ->]. do 2 eexists. split; reflexivity.
Qed.

(** ** Rejected configurations in an input without packets *)
Theorem raw_rejected e bs s o c u b' : e_raw e = true -> 1 <= zlen bs -> s_init s = false -> s_hdr s = false -> s_freq s = 0 ->
  exec (mpegh_3da_config (e_user e) (e_cfg e)) (fresh bs) = Done ((c, u), b') -> c <> 0 -> c <> X_INPUT ->
  exists s' o', api_init e plain bs s o = Done (if fatal c then c else 0, s', o') /\ o_done o' = false /\
    (fatal c = false -> o_cons o' = 1).
Proof.
  intros R N I H F E C CX. unfold api_init. cbn [plain a_ei a_lsi a_brir a_mae any_short a_bin a_groups andb].
  unfold dec_init, dec_init_with. rewrite H, F. cbn [negb Z.eqb].
  destruct (Z.eqb_spec (zlen bs) 0); [lia|].
  assert (X : exists s1, header e bs s = HRet c 0 s1 /\ s_init s1 = false /\ s_cons s1 = 0).
  { unfold header. rewrite R, orb_true_r. unfold header_config. cbv zeta. rewrite E.
    destruct (Z.eqb_spec c 0); [contradiction|]. cbn [negb].
    assert (CC : copy_cfg 0 (fresh bs) (s_prev s) = Some (0 <=? whole_bytes (fresh bs), s_prev s)).
    { unfold copy_cfg. rewrite Z.max_l by lia. reflexivity. }
    rewrite CC. assert (WB : 0 <=? whole_bytes (fresh bs) = true).
    { apply Z.leb_le. unfold whole_bytes. rewrite fresh_cnt. apply Z.div_pos; lia. }
    rewrite WB. destruct (s_plen s =? 0); eexists; (split; [reflexivity|]); auto. }
  destruct X as (s1 & X & I1 & C1). rewrite X. destruct (fatal c) eqn:FC.
  - do 2 eexists. split; [reflexivity|]. cbn [o_done]. split; [|discriminate].
    destruct (c =? E_STREAM_CHAN); cbn [s_init w_cons]; rewrite I1; reflexivity.
  - destruct (Z.eqb_spec c X_INPUT); [contradiction|]. destruct (Z.eqb_spec c 0); [contradiction|].
    do 2 eexists. split; [reflexivity|]. cbn [o_done s_init w_cons s_cons]. rewrite I1. auto.
Qed.
