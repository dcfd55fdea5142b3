(** * Lem_Session: lemmas about the API calls *)

From Coq Require Import ZArith List Lia Bool.
From Verif Require Import Bits BitBuf Prog Wp Wlp Asi Mhas Config Spec_Asi Lem_Asi Lem_Mhas Lem_ConfigMem Lem_ConfigWhole
  Lem_ConfigWlp Session.
Import ListNotations.
Open Scope Z_scope.

Lemma fresh_cnt bs : r_cnt (fresh bs) = 8 * zlen bs.
Proof. unfold fresh, zlen. cbn. lia. Qed.
Lemma fresh_bitpos bs : bitpos (fresh bs) = 0.
Proof. reflexivity. Qed.
Lemma zlen_nonneg (bs : list Z) : 0 <= zlen bs.
Proof. unfold zlen. lia. Qed.

(** ** The packet loop *)
Definition scene_ok (m : mst) : Prop := mst_ok m /\ shape (m_asi m).

Lemma mhas_loop_cnt : forall n st s r b,
  scan_ok st s -> exec (mhas_loop n s) st = Done (r, b) ->
  r_data b = r_data st /\ r_cnt b + bitpos b = r_cnt st + bitpos st /\
  0 <= r_cnt b <= r_cnt st - 16 /\ 0 <= r_pos b <= 7 /\
  match r with Ok (_, (_, _, len)) => 0 <= len | Er _ => True end.
Proof.
  induction n as [|n IH]; intros st s r b OK E; cbn [mhas_loop exec] in E; [discriminate|].
  rewrite exec_bind in E. assert (OK' := OK). destruct OK' as (C & P & B & Sh).
  pose proof (exec_wlp_nofuel _ _ st wlp_header C P) as F1.
  destruct (exec mhas_header st) as [[h st1]|c|x] eqn:E1; try discriminate.
  assert (L := header_len _ _ _ C E1). assert (C1 := exec_header_cnt _ _ _ C E1).
  destruct (exec_wlp _ _ _ _ _ wlp_header C E1) as (_ & D1 & B1 & _).
  destruct h as [[ty lb] len]. cbv beta iota in E. rewrite exec_bind in E. cbn [snd] in L.
  assert (W := wlp_packet_body ty len s B Sh L).
  pose proof (exec_wlp_nofuel _ _ st1 W ltac:(lia) F1) as F2.
  destruct (exec (packet_body ty len s) st1) as [[r1 st2]|c|x] eqn:E2; try discriminate.
  destruct (exec_wlp _ _ st1 _ _ W ltac:(lia) E2) as (Q2 & D2 & B2 & C2).
  destruct r1 as [s'|e]; cbn [exec] in E.
  - destruct ((ty =? CFG) || (ty =? FRAME) || (m_ptype s' =? 1)); cbn [exec] in E.
    + inversion E; subst. repeat split; try congruence; lia.
    + destruct Q2 as [Q21 Q22].
      assert (K : scan_ok st2 s') by (split; [lia|split; [lia|split; assumption]]).
      specialize (IH st2 s' r b K E). destruct IH as (I1 & I2 & I3 & I4 & I5).
      split; [congruence|]. split; [lia|]. split; [lia|]. split; [exact I4|exact I5].
  - inversion E; subst. repeat split; try congruence; lia.
Qed.

Lemma scan_start e bs : scene_ok (e_asi e) -> scan_ok (fresh bs) (mhas_start (e_asi e)).
Proof.
  intros [A B]. split; [rewrite fresh_cnt; pose proof (zlen_nonneg bs); lia|]. split; [cbn; lia|]. split; [exact A|exact B].
Qed.

Lemma mhas_fuel_enough e bs : scene_ok (e_asi e) ->
  exec (mhas_loop (mhas_fuel bs) (mhas_start (e_asi e))) (fresh bs) <> UB UFuel.
Proof.
  intros H. destruct (mhas_loop_fuel (mhas_fuel bs) (mhas_fuel bs) (fresh bs) (mhas_start (e_asi e)) (scan_start e bs H)) as [_ K]; auto;
  rewrite fresh_cnt; unfold mhas_fuel, zlen; lia.
Qed.

(** ** The header *)
Definition same_rest (s s' : sess) : Prop :=
  s_init s' = s_init s /\ s_hdr s' = s_hdr s /\ s_out s' = s_out s /\ s_nch s' = s_nch s /\ s_fc s' = s_fc s /\
  s_size s' = s_size s /\ s_cnt s' = s_cnt s /\ s_flush s' = s_flush s /\ s_disc s' = s_disc s /\ s_pre s' = s_pre s.

Lemma same_rest_refl s : same_rest s s. Proof. repeat split. Qed.
#[export] Hint Resolve same_rest_refl : core.

Lemma used_bytes_bounds n b : r_cnt b + bitpos b = 8 * n -> 0 <= r_cnt b -> 8 <= bitpos b -> 0 <= r_pos b <= 7 ->
  used_bytes n b = (bitpos b + 7) / 8 /\ 1 <= used_bytes n b <= n.
Proof.
  intros H1 H2 H3 H4. unfold used_bytes. unfold bitpos in *. destruct (Z.eqb_spec (r_ptr b) 0); [lia|].
  split; [reflexivity|]. assert (8 * n + 7 < 8 * (n + 1)) by lia. split; [apply Z.div_le_lower_bound; lia|].
  apply Z.lt_succ_r, Z.div_lt_upper_bound; lia.
Qed.

Lemma config_freq user u b c u' b' old : exec (mpegh_3da_config user u) b = Done ((c, u'), b') -> c = 0 ->
  freq_after b old <> 0.
Proof.
  intros E ->. unfold freq_after, freq_part, mpegh_3da_config in *. cbv zeta in E. cbn [exec rd bind] in *.
  destruct (read_bits 8 b) as [[v s1]| |]; try discriminate.
  destruct (read_bits 5 s1) as [[fi s2]| |]; try discriminate.
  destruct (negb (fi =? 31) && (8 <? fi)); [discriminate|].
  rewrite exec_bind in E. rewrite exec_bind.
  destruct (exec (if negb (fi =? 31) then _ else _) s2) as [[fr s3]| |]; try discriminate.
  destruct ((48000 <? fr) || (fr =? 0)) eqn:Ef; [discriminate|]. cbn [exec].
  destruct (Z.eqb_spec fr 0); [lia|assumption].
Qed.

Lemma header_config_out e n len b s : cfg_ok (e_cfg e) -> r_cnt b + bitpos b = 8 * n -> 0 <= r_cnt b -> 0 <= r_pos b <= 7 ->
  0 <= bitpos b ->
  match header_config e n len b s with
  | HUb _ => True
  | HJmp s' => same_rest s s' /\ s_cons s' = s_cons s
  | HRet c used s' => same_rest s s' /\
      (c = 0 -> 1 <= used <= n /\ s_freq s' <> 0 /\ s_cons s' = s_cons s) /\
      (c <> 0 -> (s_cons s' = s_cons s /\ c = E_DEC_FRAME) \/ (s_cons s' = len /\ used = 0))
  end.
Proof.
  intros C H1 H2 H3 H4. unfold header_config.
  assert (K : forall s0, same_rest s s0 -> s_cons s0 = s_cons s ->
    match (let s := w_freq s0 (freq_after b (s_freq s0)) in
    match exec (mpegh_3da_config (e_user e) (e_cfg e)) b with
    | UB r => HUb r
    | Jmp _ => HJmp s
    | Done ((c, _), b') =>
      if negb (c =? 0) then HRet c 0 (w_cons s len)
      else if negb (e_raw e) && (len <? (r_cnt b - r_cnt b' + 7) / 8)
      then HRet E_DEC_FRAME (used_bytes n b') s
      else HRet 0 (used_bytes n b') s
    end) with
    | HUb _ => True
    | HJmp s' => same_rest s s' /\ s_cons s' = s_cons s
    | HRet c used s' => same_rest s s' /\
      (c = 0 -> 1 <= used <= n /\ s_freq s' <> 0 /\ s_cons s' = s_cons s) /\
      (c <> 0 -> (s_cons s' = s_cons s /\ c = E_DEC_FRAME) \/ (s_cons s' = len /\ used = 0))
    end).
  { intros s0 R0 Q0. cbv zeta.
    destruct (exec (mpegh_3da_config (e_user e) (e_cfg e)) b) as [[[c u'] b']|c|r] eqn:E; [|split; [exact R0|exact Q0]|exact I].
    destruct (config_cnt _ _ _ _ _ C H2 E) as (D & B & N).
    pose proof (exec_wlp_nofuel _ _ b (wlp_mpegh_3da_config (e_user e) (e_cfg e) C) H2 H3) as P. rewrite E in P.
    destruct (used_bytes_bounds n b') as [_ U]; try lia.
    destruct (Z.eqb_spec c 0) as [->|Hc]; cbn [negb].
    - assert (F := config_freq _ _ _ _ _ _ (s_freq s0) E eq_refl).
      destruct (_ && _); (split; [exact R0|]); (split; [intros Hc|intros Hc]); try discriminate Hc; try (exfalso; apply Hc; reflexivity).
      + left. split; [exact Q0|reflexivity].
      + split; [exact U|]. split; [exact F|exact Q0].
    - split; [exact R0|]. split; [intros X; congruence|]. intros _. right. split; reflexivity. }
  destruct (s_plen s =? 0).
  - destruct (copy_cfg len b (s_prev s)) as [[[|] d]|]; [apply K; [repeat split|reflexivity]|split; [repeat split|reflexivity]|exact I].
  - apply K; [repeat split|reflexivity].
Qed.

Definition packaged (e : env) : Prop := e_mhas e = true \/ e_raw e = true.
Definition env_ok (e : env) : Prop := scene_ok (e_asi e) /\ cfg_ok (e_cfg e).

Lemma header_out e bs s : env_ok e ->
  match header e bs s with
  | HUb _ => True
  | HJmp s' => same_rest s s' /\ s_cons s' = s_cons s
  | HRet c used s' => same_rest s s' /\
      (c = 0 -> packaged e -> 1 <= used <= zlen bs /\ s_freq s' <> 0 /\ s_cons s' = s_cons s) /\
      (c <> 0 -> (s_cons s' = s_cons s /\ c = E_DEC_FRAME) \/ used = 0)
  end.
Proof.
  intros [M C]. unfold header. pose proof (zlen_nonneg bs) as Z0. unfold packaged.
  destruct (e_mhas e || e_raw e) eqn:F.
  2:{ apply orb_false_iff in F as [F1 F2]. split; [apply same_rest_refl|]. split; [intros _ [G|G]; congruence|congruence]. }
  destruct (e_raw e) eqn:R.
  - pose proof (header_config_out e (zlen bs) 0 (fresh bs) s C) as K. rewrite fresh_cnt, fresh_bitpos in K.
    specialize (K ltac:(lia) ltac:(lia) ltac:(cbn; lia) ltac:(lia)).
    destruct (header_config e (zlen bs) 0 (fresh bs) s); auto. destruct K as (K1 & K2 & K3). split; [exact K1|].
    split; [auto|]. intros H. destruct (K3 H) as [X|[_ X]]; auto.
  - destruct (exec (mhas_loop (mhas_fuel bs) (mhas_start (e_asi e))) (fresh bs)) as [[r b]|c|x] eqn:E; [|split; [apply same_rest_refl|reflexivity]|exact I].
    destruct (mhas_loop_cnt _ _ _ _ _ (scan_start e bs M) E) as (D & B & N & P & L).
    rewrite fresh_cnt, fresh_bitpos in *.
    destruct (match r with Ok (_, (ty, _, len)) => (ty, len) | Er _ => (0, 0) end) as [ty len].
    destruct (negb (ty =? CFG)). { split; [repeat split|]. split; [discriminate|]. intros _. right. reflexivity. }
    pose proof (header_config_out e (zlen bs) len b s C ltac:(lia) ltac:(lia) P ltac:(lia)) as K.
    destruct (header_config e (zlen bs) len b s); auto. destruct K as (K1 & K2 & K3). split; [exact K1|].
    split; [auto|]. intros H. destruct (K3 H) as [X|[_ X]]; auto.
Qed.

(** ** Initialisation *)
Definition in_range (n k : Z) : Prop := 0 <= k <= n.

(** What the call of dec_main inside dec_init may do. *)
Definition main_keeps (main : sess -> mres) (n : Z) : Prop :=
  forall s, in_range n (s_cons s) ->
  match main s with
  | MRet c _ s' => c = 0 -> in_range n (s_cons s')
  | _ => True
  end.

Lemma frame_zero_keeps e n : main_keeps (frame_zero e) n.
Proof. intros s H. unfold frame_zero. destruct (negb (e_chan0 e)); [discriminate|]. intros _. exact H. Qed.

Lemma dec_init_range main e bs s c s' : env_ok e -> packaged e -> main_keeps main (zlen bs) ->
  in_range (zlen bs) (s_cons s) ->
  dec_init_with main e bs s = Done (c, s') -> c = 0 -> in_range (zlen bs) (s_cons s').
Proof.
  intros OK PK MK CR E ->. unfold dec_init_with in E. pose proof (zlen_nonneg bs) as Z0.
  assert (Zr : in_range (zlen bs) 0) by (unfold in_range; lia).
  destruct (negb (s_hdr s)).
  - destruct (s_freq s =? 0).
    + destruct (Z.eqb_spec (zlen bs) 0); [inversion E; subst; exact Zr|].
      pose proof (header_out e bs s OK) as H. destruct (header e bs s) as [c used s1|s1|r]; [|inversion E|discriminate].
      destruct H as (H1 & H2 & H3).
      destruct (fatal c) eqn:Ef. { inversion E; subst. discriminate. }
      destruct (Z.eqb_spec c X_INPUT). { inversion E; subst. discriminate. }
      destruct (Z.eqb_spec c 0) as [->|Hc].
      * destruct (H2 eq_refl PK) as (U & F & _). specialize (MK (w_cons s1 used) ltac:(unfold in_range; cbn; lia)).
        destruct (main (w_cons s1 used)) as [c0 out s2|s2|r]; [|inversion E|discriminate].
        destruct (Z.eqb_spec c0 0) as [->|]; cbn [negb] in E; [|inversion E; congruence].
        inversion E; subst. apply MK. reflexivity.
      * inversion E; subst. cbn. destruct (H3 Hc) as [[_ K]|K]; [|rewrite K; exact Zr].
        subst c. discriminate Ef.
    + inversion E; subst. exact Zr.
  - cbv zeta in E. destruct (zlen bs =? 0); inversion E; subst; [exact Zr|exact CR].
Qed.

(** A call that makes the decoder ready. *)
Lemma dec_init_ready main e bs s c s' : env_ok e -> packaged e ->
  (forall s1, match main s1 with MRet c0 _ s2 => c0 = 0 -> 1 <= s_cons s1 <= zlen bs -> 1 <= s_cons s2 <= zlen bs /\ s_freq s2 = s_freq s1 /\ s_init s2 = s_init s1 | _ => True end) ->
  dec_init_with main e bs s = Done (c, s') -> c = 0 -> s_init s = false -> s_init s' = true ->
  1 <= s_cons s' <= zlen bs /\ s_freq s' <> 0.
Proof.
  intros OK PK MK E -> I0 I1. unfold dec_init_with in E.
  destruct (negb (s_hdr s)).
  - destruct (s_freq s =? 0).
    + destruct (Z.eqb_spec (zlen bs) 0). { inversion E; subst. cbn in I1. congruence. }
      pose proof (header_out e bs s OK) as H. destruct (header e bs s) as [c used s1|s1|r]; [|inversion E|discriminate].
      destruct H as ((J1 & _) & H2 & H3).
      destruct (fatal c) eqn:Ef. { inversion E; subst. discriminate. }
      destruct (Z.eqb_spec c X_INPUT). { inversion E; subst. discriminate. }
      destruct (Z.eqb_spec c 0) as [->|Hc].
      * destruct (H2 eq_refl PK) as (U & F & _). specialize (MK (w_cons s1 used)).
        destruct (main (w_cons s1 used)) as [c0 out s2|s2|r]; [|inversion E|discriminate].
        destruct (Z.eqb_spec c0 0) as [->|]; cbn [negb] in E; [|inversion E; congruence].
        inversion E; subst. destruct (MK eq_refl U) as (M1 & M2 & _). split; [exact M1|]. cbn. rewrite M2. exact F.
      * inversion E; subst. cbn in I1. congruence.
    + inversion E; subst. cbn in I1. congruence.
  - cbv zeta in E. destruct (zlen bs =? 0); inversion E; subst; cbn in I1; congruence.
Qed.

(** A decoder that is not ready is made ready only by a call that says so. *)
Lemma dec_init_done main e bs s c s' :
  (forall s1, match main s1 with MRet c0 _ s2 => c0 = 0 \/ s_init s2 = s_init s1 | MJmp s2 => s_init s2 = s_init s1 | _ => True end) ->
  env_ok e -> dec_init_with main e bs s = Done (c, s') -> s_init s = false -> s_init s' = true -> c = 0.
Proof.
  intros MK OK E I0 I1. unfold dec_init_with in E.
  destruct (negb (s_hdr s)).
  - destruct (s_freq s =? 0).
    + destruct (zlen bs =? 0). { inversion E; subst. reflexivity. }
      pose proof (header_out e bs s OK) as H. destruct (header e bs s) as [c1 used s1|s1|r]; [| |discriminate].
      2:{ destruct H as ((J1 & _) & _). inversion E; subst. cbn in I1. congruence. }
      destruct H as ((J1 & _) & H2 & H3).
      destruct (fatal c1) eqn:Ef. { inversion E; subst. destruct (c =? E_STREAM_CHAN); cbn in I1; congruence. }
      destruct (Z.eqb_spec c1 X_INPUT). { inversion E; subst. cbn in I1. congruence. }
      destruct (Z.eqb_spec c1 0) as [->|Hc]; [|inversion E; subst; reflexivity].
      specialize (MK (w_cons s1 used)).
      destruct (main (w_cons s1 used)) as [c0 out s2|s2|r]; [| |discriminate].
      * destruct (Z.eqb_spec c0 0) as [->|]; cbn [negb] in E; [inversion E; reflexivity|].
        inversion E; subst. destruct MK as [K|K]; [exact K|]. cbn in K. congruence.
      * inversion E; subst. cbn in *. congruence.
    + inversion E; subst. reflexivity.
  - cbv zeta in E. destruct (zlen bs =? 0); inversion E; reflexivity.
Qed.

(** ** One access unit or packet *)
Definition au_ok (e : env) (n : Z) : Prop :=
  match e_au e with AJmp _ _ => True | ARet _ _ _ cnt _ _ => 0 <= cnt < 8 * n end.

Definition buf_ok (n : Z) (s : sess) : Prop := s_size s = 8 * n /\ 0 <= s_cnt s <= 8 * n.

Lemma flush_out e bs s c s' : env_ok e -> packaged e -> in_range (zlen bs) (s_cons s) ->
  flush_api e bs s = Done (c, s') ->
  s_flush s' = true /\ s_size s' = s_size s /\ s_cnt s' = s_cnt s /\ (c = 0 -> in_range (zlen bs) (s_cons s')).
Proof.
  intros OK PK CR E. unfold flush_api in E.
  destruct (dec_init_with (frame_zero e) e bs (w_fc (w_freq s 0) 0)) as [[c1 s1]|c1|r] eqn:D; [|discriminate|discriminate].
  inversion E; subst. split; [reflexivity|]. cbn [s_size s_cnt w_flush s_cons].
  assert (R : c = 0 -> in_range (zlen bs) (s_cons s1)).
  { intros H. eapply dec_init_range; [exact OK|exact PK|apply frame_zero_keeps| |exact D|exact H]. exact CR. }
  cut (s_size s1 = s_size s /\ s_cnt s1 = s_cnt s); [tauto|]. clear R.
  unfold dec_init_with in D. cbn [s_hdr w_fc w_freq s_freq] in D.
  destruct (negb (s_hdr s)).
  - change (0 =? 0) with true in D. cbv iota in D. destruct (zlen bs =? 0); [inversion D; subst; split; reflexivity|].
    pose proof (header_out e bs (w_fc (w_freq s 0) 0) OK) as H.
    destruct (header e bs (w_fc (w_freq s 0) 0)) as [c1 used s2|s2|r]; [| |discriminate].
    2:{ destruct H as ((_ & _ & _ & _ & _ & H1 & H2 & _) & _). inversion D; subst. cbn. split; assumption. }
    destruct H as ((_ & _ & _ & _ & _ & H1 & H2 & _) & _). cbn in H1, H2.
    destruct (fatal c1). { inversion D; subst. destruct (_ =? E_STREAM_CHAN); split; assumption. }
    destruct (c1 =? X_INPUT). { inversion D; subst. split; assumption. }
    destruct (c1 =? 0); [|inversion D; subst; split; assumption].
    unfold frame_zero in D. destruct (negb (e_chan0 e)); cbn in D.
    { inversion D; subst. split; assumption. }
    destruct (negb (e_zero e =? 0)); inversion D; subst; split; assumption.
  - cbv zeta in D. destruct (zlen bs =? 0); inversion D; subst; split; reflexivity.
Qed.

Lemma main_unit_out e bs s : au_ok e (zlen bs) -> match main_unit e bs s with
  | MRet c _ s' => buf_ok (zlen bs) s' /\ s_cnt s' < 8 * zlen bs /\ s_flush s' = s_flush s /\ s_cons s' = s_cons s /\ s_fc s' = s_fc s
  | _ => True end.
Proof.
  unfold au_ok, main_unit. destruct (e_au e) as [d p|c out nch cnt d p]; [auto|].
  intros H. unfold buf_ok. cbn [s_size s_cnt s_flush s_cons s_fc w_pre w_disc w_nch w_buf]. repeat split; lia.
Qed.

Definition raw_ok (e : env) : Prop := e_raw e = true -> m_ptype (e_asi e) <> 1.

Definition main_ok (n : Z) (s : sess) (m : mres) : Prop :=
  match m with
  | MRet c _ s' => buf_ok n s' /\
      (s_flush s' = false -> s_cons s' = s_cons s /\ s_fc s' = s_fc s /\ (c = 0 -> s_cnt s' < 8 * n)) /\
      (c = 0 -> in_range n (s_cons s'))
  | _ => True
  end.

Ltac sess_cbn := cbn [s_init s_hdr s_freq s_cons s_out s_nch s_plen s_prev s_fc s_size s_cnt s_flush s_disc s_pre
  w_init w_hdr w_freq w_cons w_out w_nch w_prev w_fc w_buf w_flush w_disc w_pre].
Ltac main_con := unfold main_ok, buf_ok, in_range in *; sess_cbn; repeat split; auto; try congruence; try lia.

Lemma main_config_out e bs len b s : env_ok e -> packaged e -> 0 <= len -> in_range (zlen bs) (s_cons s) ->
  0 <= r_cnt b < 8 * zlen bs -> s_flush s = false -> main_ok (zlen bs) s (main_config e bs len b s).
Proof.
  intros OK PK HL CR HB SF. unfold main_config.
  assert (K : forall s0, s_cons s0 = s_cons s -> s_fc s0 = s_fc s -> main_ok (zlen bs) s
    (let s := w_freq s0 (freq_after b (s_freq s0)) in
    match exec (mpegh_3da_config (e_user e) (e_cfg e)) b with
    | UB r => MUb r
    | Jmp _ => MJmp s
    | Done ((c, _), b') =>
      let s := w_buf s (8 * zlen bs) (r_cnt b') in
      if negb (c =? 0) then MRet c 0 (w_init s false)
      else MRet (e_create e) 0 (w_init s true)
    end)).
  { intros s0 Q0 Q1. cbv zeta.
    destruct (exec (mpegh_3da_config (e_user e) (e_cfg e)) b) as [[[c u'] b']|c|r] eqn:E; [|exact I|exact I].
    destruct OK as [M C]. assert (H0 : 0 <= r_cnt b) by lia. destruct (config_cnt _ _ _ _ _ C H0 E) as (D & B & N).
    destruct (negb (c =? 0)); main_con. }
  destruct (negb (s_plen s =? 0)).
  - destruct (whole_bytes b <? len); [exact I|]. destruct (_ || _); [|apply K; reflexivity].
    destruct (MAX_CFG <? len); [exact I|].
    match goal with |- context [flush_api e bs ?x] => set (s1 := x);
      destruct (flush_api e bs s1) as [[c s']|c|r] eqn:F; [|exact I|exact I] end.
    destruct (flush_out e bs s1 c s' OK PK CR F) as (F1 & F2 & F3 & F4).
    unfold main_ok, buf_ok. rewrite F2, F3. split; [subst s1; main_con|]. split; [congruence|exact F4].
  - destruct (copy_cfg len b (s_prev s)) as [[[|] d]|]; [apply K; reflexivity|exact I|exact I].
Qed.

Lemma main_unit_ok e bs s : au_ok e (zlen bs) -> in_range (zlen bs) (s_cons s) -> main_ok (zlen bs) s (main_unit e bs s).
Proof.
  intros A CR. pose proof (main_unit_out e bs s A) as K. unfold main_ok. destruct (main_unit e bs s); auto.
  destruct K as (K1 & K2 & K3 & K4 & K5). split; [exact K1|]. split; [intros _; repeat split; auto|]. intros _. rewrite K4. exact CR.
Qed.

Lemma main_ok_w n s0 s m : s_cons s0 = s_cons s -> s_fc s0 = s_fc s -> main_ok n s0 m -> main_ok n s m.
Proof. intros A B. unfold main_ok. destruct m; auto. rewrite A, B. auto. Qed.

Lemma dec_main_out e bs s : env_ok e -> packaged e -> raw_ok e -> au_ok e (zlen bs) -> e_chan e = true -> 1 <= zlen bs ->
  s_fc s <> 0 -> in_range (zlen bs) (s_cons s) -> main_ok (zlen bs) s (dec_main e bs s).
Proof.
  intros OK PK RK AU CH N1 FC CR. unfold dec_main. rewrite CH. cbn [negb s_fc w_flush].
  destruct (Z.eqb_spec (s_fc s) 0); [congruence|]. cbv zeta.
  destruct (e_raw e) eqn:R.
  { destruct (Z.eqb_spec (e_ear e) 0); cbn [negb].
    - destruct (Z.eqb_spec (m_ptype (e_asi e)) 1); [elim (RK R); assumption|].
      destruct (Z.eqb_spec (e_drc e) 0); cbn [negb].
      + eapply main_ok_w; [| |apply main_unit_ok; [exact AU|]]; try reflexivity. exact CR.
      + main_con.
    - main_con. }
  destruct (exec (mhas_loop (mhas_fuel bs) (mhas_start (e_asi e))) (fresh bs)) as [[r b]|c|x] eqn:E; [|exact I|exact I].
  destruct OK as [M C]. destruct (mhas_loop_cnt _ _ _ _ _ (scan_start e bs M) E) as (D & B & N & P & L).
  rewrite fresh_cnt, fresh_bitpos in *.
  assert (EX : forall c, main_ok (zlen bs) s (MRet c 0 (w_buf (w_buf (w_flush s false) (8 * zlen bs) (8 * zlen bs)) (8 * zlen bs) (r_cnt b)))).
  { intros c. main_con. }
  destruct r as [[m [[ty lb] len]]|c]; [|apply EX].
  destruct (negb (m_err m =? 0)); [apply EX|].
  destruct (negb (e_ear e =? 0)); [apply EX|].
  destruct (m_ptype m =? 1); [apply EX|].
  destruct (negb (e_drc e =? 0)); [apply EX|].
  destruct (ty =? CFG).
  { eapply main_ok_w; [| |apply main_config_out; [split; assumption|exact PK|exact L| |lia|reflexivity]]; try reflexivity. exact CR. }
  destruct (ty =? FRAME); [|apply EX].
  eapply main_ok_w; [| |apply main_unit_ok; [exact AU|]]; try reflexivity. exact CR.
Qed.

Lemma bytes_of_buf_range n s : 1 <= n -> buf_ok n s -> in_range n (bytes_of_buf s) /\ (s_cnt s < 8 * n -> 1 <= bytes_of_buf s).
Proof.
  intros N [B1 B2]. unfold bytes_of_buf, in_range. rewrite B1.
  destruct (Z.eqb_spec (8 * n) 0); [lia|]. destruct (Z.leb_spec 0 (s_cnt s)); [|lia]. cbn [negb andb].
  split; [split|intros].
  - apply Z.div_pos; lia.
  - apply Z.lt_succ_r, Z.div_lt_upper_bound; lia.
  - apply Z.div_le_lower_bound; lia.
Qed.

(** ** The execute call *)
Theorem execute_range e sd bs s o c s' o' : env_ok e -> packaged e -> raw_ok e -> au_ok e (zlen bs) -> e_chan e = true ->
  1 <= zlen bs -> s_fc s <> 0 -> s_init s = true -> sd = NoInfo \/ sd = Parsed ->
  api_execute e sd bs s o = Done (c, s', o') ->
  in_range (zlen bs) (o_cons o') /\ (c <> 0 -> 1 <= o_cons o') /\ (o_cons o' = 0 -> s_flush s' = true).
Proof.
  intros OK PK RK AU CH N1 FC I1 SD E. unfold api_execute in E. rewrite I1 in E. cbn [negb] in E.
  assert (E' : match dec_execute e bs (w_cons s 0) with
      | UB r => UB r
      | Jmp c => Jmp c
      | Done (c, s) =>
        let s := if negb (c =? 0) && (s_cons s =? 0) then w_cons s 1 else s in
        let out := if s_disc s then fst (s_pre s) else s_out s in
        Done (c, s, mkO (s_cons s) (o_done o) out)
      end = Done (c, s', o')) by (destruct SD; subst sd; exact E). clear E SD.
  assert (K : match dec_execute e bs (w_cons s 0) with
      | Done (c, s1) => in_range (zlen bs) (s_cons s1) /\ (c = 0 -> s_cons s1 = 0 -> s_flush s1 = true)
      | _ => True end).
  { unfold dec_execute. cbv zeta. cbn [s_nch w_pre w_cons].
    destruct (MAX_CH <? s_nch s). { split; [unfold in_range; cbn; lia|]. intros X; discriminate X. }
    pose proof (dec_main_out e bs (w_pre (w_cons (w_cons s 0) 0) (0, 0)) OK PK RK AU CH N1 FC ltac:(unfold in_range; cbn; lia)) as M.
    destruct (dec_main e bs (w_pre (w_cons (w_cons s 0) 0) (0, 0))) as [c1 out s1|s1|r]; [| |exact I].
    - cbn [main_ok] in M. destruct M as (M1 & M2 & M3). destruct (bytes_of_buf_range _ _ N1 M1) as [B1 B2].
      destruct (Z.eqb_spec c1 0) as [->|]; cbn [negb].
      + destruct (s_flush s1) eqn:F.
        * split; [apply M3; reflexivity|]. intros _ _. exact F.
        * destruct (M2 eq_refl) as (Q1 & Q2 & Q3). specialize (B2 (Q3 eq_refl)). split; [exact B1|]. cbn. lia.
      + split; [exact B1|]. intros X; congruence.
    - split; [unfold in_range; cbn; lia|]. intros X; discriminate X. }
  destruct (dec_execute e bs (w_cons s 0)) as [[c1 s1]|c1|r]; [|discriminate|discriminate].
  destruct K as [K1 K2]. cbv zeta in E'. inversion E'; subst. clear E'. cbn [o_cons].
  destruct (Z.eqb_spec c 0) as [->|Hc]; cbn [negb andb].
  - split; [exact K1|]. split; [congruence|]. intros H. apply K2; auto.
  - destruct (Z.eqb_spec (s_cons s1) 0); cbn.
    + split; [unfold in_range; lia|]. split; [lia|intros X; discriminate X].
    + unfold in_range in *. split; [exact K1|]. split; lia.
Qed.
