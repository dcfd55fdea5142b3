(** * Invariants of histories of API calls (C21, C79) *)
From Coq Require Import ZArith List Lia Bool.
From Verif Require Import Bits BitBuf Prog Asi Mhas Config Spec_Mhas Spec_Asi Session Spec_Session Lem_Mhas Lem_Session.
Import ListNotations.
Open Scope Z_scope.

Ltac same := unfold same_rest; cbn [s_init s_hdr s_freq s_cons s_out s_nch s_plen s_prev s_fc s_size s_cnt s_flush s_disc s_pre
  w_init w_hdr w_freq w_cons w_out w_nch w_prev w_fc w_buf w_flush w_disc w_pre]; repeat split; auto.

Lemma header_config_same e n len b s :
  match header_config e n len b s with HUb _ => True | HJmp s' => same_rest s s' | HRet _ _ s' => same_rest s s' end.
Proof.
  unfold header_config.
  assert (K : forall s0, same_rest s s0 ->
    match (let s := w_freq s0 (freq_after b (s_freq s0)) in
      match exec (mpegh_3da_config (e_user e) (e_cfg e)) b with
      | UB r => HUb r
      | Jmp _ => HJmp s
      | Done ((c, _), b') =>
        if negb (c =? 0) then HRet c 0 (w_cons s len)
        else if negb (e_raw e) && (len <? (r_cnt b - r_cnt b' + 7) / 8)
        then HRet E_DEC_FRAME (used_bytes n b') s
        else HRet 0 (used_bytes n b') s
      end) with HUb _ => True | HJmp s' => same_rest s s' | HRet _ _ s' => same_rest s s' end).
  { intros s0 H. cbv zeta. destruct (exec (mpegh_3da_config (e_user e) (e_cfg e)) b) as [[[c u] b']|x|r]; auto.
    - destruct (negb (c =? 0)); [exact H|]. destruct (negb (e_raw e) && _); exact H. }
  destruct (s_plen s =? 0).
  - destruct (copy_cfg len b (s_prev s)) as [[[|] d]|]; auto.
    apply K. same. same.
  - apply K. auto.
Qed.

Lemma header_same e bs s :
  match header e bs s with HUb _ => True | HJmp s' => same_rest s s' | HRet _ _ s' => same_rest s s' end.
Proof.
  unfold header. destruct (e_mhas e || e_raw e); [|auto]. destruct (e_raw e); [apply header_config_same|].
  destruct (exec (mhas_loop (mhas_fuel bs) (mhas_start (e_asi e))) (fresh bs)) as [[r b]|x|u]; auto.
  destruct (match r with Ok (_, (ty, _, len)) => (ty, len) | Er _ => (0, 0) end) as [ty len].
  destruct (negb (ty =? CFG)); [same|apply header_config_same].
Qed.

(** ** Before the first successful initialisation *)
Definition not_ready (s : sess) : Prop := s_init s = false /\ s_fc s = 0.

Lemma dec_init_not_ready e bs s c s' : not_ready s -> dec_init e bs s = Done (c, s') ->
  not_ready s' \/ (s_init s' = true /\ c = 0).
Proof.
  intros [I F] E. unfold dec_init, dec_init_with in E.
  destruct (negb (s_hdr s)).
  2: { destruct (zlen bs =? 0); inversion E; subst; left; split; assumption. }
  destruct (s_freq s =? 0).
  2: { inversion E; subst; left; split; assumption. }
  destruct (zlen bs =? 0). { inversion E; subst; left; split; assumption. }
  pose proof (header_same e bs s) as K. destruct (header e bs s) as [hc used s1|s1|r].
  3: discriminate.
  - destruct K as (K1 & _ & _ & _ & K5 & _).
    assert (N1 : not_ready s1) by (split; congruence).
    destruct (fatal hc). { inversion E; subst. left. destruct (c =? E_STREAM_CHAN); exact N1. }
    destruct (hc =? X_INPUT). { inversion E; subst. left; exact N1. }
    destruct (hc =? 0); [|inversion E; subst; left; exact N1].
    cbn [s_fc w_cons] in E. rewrite (proj2 N1) in E. cbn [Z.eqb] in E. unfold frame_zero in E.
    destruct (negb (e_chan0 e)).
    { cbn in E. inversion E; subst. left; exact N1. }
    destruct (negb (e_zero e =? 0)). { inversion E; subst. left; exact N1. }
    inversion E; subst. right; auto.
  - destruct K as (K1 & _ & _ & _ & K5 & _). inversion E; subst. left. split; cbn; congruence.
Qed.

Lemma api_init_not_ready e a bs s o c s' o' : not_ready s -> (a_bin a = true -> a_binerr a = 0) ->
  api_init e a bs s o = Done (c, s', o') -> o_done o = false -> o_done o' = false -> not_ready s'.
Proof.
  intros N B E O1 O2. unfold api_init in E.
  destruct (a_ei a); try (inversion E; subst; exact N);
  destruct (a_lsi a); try (inversion E; subst; exact N);
  destruct (a_brir a); try (inversion E; subst; exact N);
  (destruct (any_short (a_mae a)); [inversion E; subst; exact N|]);
  (destruct (dec_init e bs s) as [[c1 s1]|x|r] eqn:D; [|discriminate|discriminate]);
  pose proof (dec_init_not_ready _ _ _ _ _ N D) as K;
  (destruct (a_bin a) eqn:AB; cbn [andb] in E;
   [rewrite (B eq_refl) in E; cbn [Z.eqb negb] in E|]);
  inversion E; subst; cbn [o_done] in O2;
  (destruct K as [K|[K1 K2]]; [exact K|rewrite K1 in O2; subst; discriminate]).
Qed.

Lemma api_execute_not_init e sd bs s o : s_init s = false ->
  api_execute e sd bs s o = Done (E_NOT_INIT, w_cons s 1, mkO 1 (o_done o) (o_bytes o)).
Proof. intros H. unfold api_execute. rewrite H. reflexivity. Qed.

Lemma history_not_ready : forall cs s o rs s' o', not_ready s -> o_done o = false -> binaural_fine cs ->
  history cs s o = Done (rs, s', o') -> never_done rs -> not_ready s' /\ o_done o' = false.
Proof.
  induction cs as [|c cs IH]; intros s o rs s' o' N O B E D; cbn [history] in E.
  - inversion E; subst. auto.
  - destruct (do_call c s o) as [[[code s1] o1]|x|r] eqn:D1; [|discriminate|discriminate].
    destruct (history cs s1 o1) as [[[rs1 s2] o2]|x|r] eqn:H1; [|discriminate|discriminate].
    inversion E; subst. pose proof (Forall_inv D) as D0. apply Forall_inv_tail in D. cbn in D0.
    pose proof (Forall_inv B) as B0. apply Forall_inv_tail in B.
    eapply IH; [| |exact B|exact H1|exact D]; auto.
    destruct c as [e a bs|e sd bs]; cbn [do_call] in D1.
    + eapply api_init_not_ready; eauto.
    + rewrite api_execute_not_init in D1 by apply N. inversion D1; subst. exact N.
Qed.

Lemma created_not_ready : not_ready created. Proof. split; reflexivity. Qed.

Theorem call_order cs o rs s o' e sd bs :
  o_done o = false -> binaural_fine cs -> history cs created o = Done (rs, s, o') -> never_done rs ->
  exists s2 o2, api_execute e sd bs s o' = Done (E_NOT_INIT, s2, o2) /\ o_cons o2 = 1 /\ o_done o2 = false /\
    o_bytes o2 = o_bytes o' /\ s2 = w_cons s 1.
Proof.
  intros O B H D. destruct (history_not_ready _ _ _ _ _ _ created_not_ready O B H D) as [[I _] O1].
  exists (w_cons s 1), (mkO 1 (o_done o') (o_bytes o')). split; [apply api_execute_not_init, I|].
  rewrite O1. repeat split.
Qed.

(** ** The dead decoder *)
Definition stuck (s : sess) : Prop := s_init s = false /\ (s_freq s <> 0 \/ s_hdr s = true).

Lemma dec_init_stuck e bs s : stuck s -> exists s', dec_init e bs s = Done (0, s') /\ stuck s'.
Proof.
  intros [I H]. unfold dec_init, dec_init_with.
  destruct (s_hdr s) eqn:HD; cbn [negb].
  - destruct (zlen bs =? 0); eexists; (split; [reflexivity|]); split; same.
  - destruct H as [H|H]; [|discriminate]. destruct (Z.eqb_spec (s_freq s) 0); [congruence|].
    eexists; (split; [reflexivity|]); split; same.
Qed.

Lemma api_init_stuck e a bs s o : stuck s -> o_done o = false ->
  exists c s' o', api_init e a bs s o = Done (c, s', o') /\ stuck s' /\ o_done o' = false.
Proof.
  intros H O. unfold api_init. destruct (dec_init_stuck e bs s H) as (s1 & D & S1). rewrite D.
  assert (I : s_init s1 = false) by apply S1.
  destruct (a_ei a); try (do 3 eexists; split; [reflexivity|]; split; [exact H|exact O]);
  destruct (a_lsi a); try (do 3 eexists; split; [reflexivity|]; split; [exact H|exact O]);
  destruct (a_brir a); try (do 3 eexists; split; [reflexivity|]; split; [exact H|exact O]);
  (destruct (any_short (a_mae a)); [do 3 eexists; split; [reflexivity|]; split; [exact H|exact O]|]);
  (destruct (a_bin a && negb (a_binerr a =? 0)); do 3 eexists; (split; [reflexivity|]);
   (split; [exact S1|]); cbn [o_done]; rewrite ?I; auto).
Qed.

Lemma F2_impl {A B} (P Q : A -> B -> Prop) l m : (forall a b, P a b -> Q a b) -> Forall2 P l m -> Forall2 Q l m.
Proof. intros H. induction 1; constructor; auto. Qed.

Theorem stuck_forever : forall cs s o, stuck s -> o_done o = false ->
  exists rs s' o', history cs s o = Done (rs, s', o') /\ stuck s' /\ never_done rs /\
    Forall2 (fun c r => is_execute c = true -> fst r = E_NOT_INIT /\ o_bytes (snd r) = o_bytes o) cs rs.
Proof.
  assert (K : forall cs s o, stuck s -> o_done o = false ->
    exists rs s' o', history cs s o = Done (rs, s', o') /\ stuck s' /\ never_done rs /\
    Forall2 (fun c r => (is_execute c = true -> fst r = E_NOT_INIT) /\ o_bytes (snd r) = o_bytes o) cs rs).
  { induction cs as [|c cs IH]; intros s o H O; cbn [history].
    - exists [], s, o. split; [reflexivity|]. split; [exact H|]. split; [apply Forall_nil|apply Forall2_nil].
    - assert (X : exists code s1 o1, do_call c s o = Done (code, s1, o1) /\ stuck s1 /\ o_done o1 = false /\
          o_bytes o1 = o_bytes o /\ (is_execute c = true -> code = E_NOT_INIT)).
      { destruct c as [e a bs|e sd bs]; cbn [do_call is_execute].
        - destruct (api_init_stuck e a bs s o H O) as (code & s1 & o1 & E & S1 & O1). exists code, s1, o1.
          repeat (split; [assumption|]). split; [|discriminate].
          unfold api_init in E.
          destruct (a_ei a); try (inversion E; reflexivity);
          destruct (a_lsi a); try (inversion E; reflexivity);
          destruct (a_brir a); try (inversion E; reflexivity);
          (destruct (any_short (a_mae a)); [inversion E; reflexivity|]);
          (destruct (dec_init e bs s) as [[c1 s2]|x|r]; [|discriminate|discriminate]);
          (destruct (a_bin a && negb (a_binerr a =? 0)); inversion E; reflexivity).
        - rewrite api_execute_not_init by apply H. do 3 eexists. split; [reflexivity|].
          repeat split; auto; apply H. }
      destruct X as (code & s1 & o1 & E1 & S1 & O1 & B1 & C1). rewrite E1.
      destruct (IH s1 o1 S1 O1) as (rs & s' & o' & E2 & S2 & D2 & F2). rewrite E2.
      do 3 eexists. split; [reflexivity|]. split; [exact S2|]. split; [constructor; assumption|].
      constructor; [split; assumption|]. eapply F2_impl; [|exact F2]. cbv beta. intros a b [Q1 Q2]. split; [exact Q1|congruence]. }
  intros cs s o H O. destruct (K cs s o H O) as (rs & s' & o' & E & S & D & F). exists rs, s', o'.
  repeat (split; [assumption|]). eapply F2_impl; [|exact F]. cbv beta. intros a b [Q1 Q2] Q. auto.
Qed.

(** ** How it dies *)
Lemma freq_after_nz b old : old <> 0 -> freq_after b old <> 0.
Proof.
  intros H. unfold freq_after. destruct (exec freq_part b) as [[f x]|x|r]; auto. destruct (Z.eqb_spec f 0); auto.
Qed.

(** The sampling frequency a configuration announces, if it gets that far. *)
Definition announces (b : rbuf) : Prop := freq_after b 0 <> 0.

Lemma raw_header_dies e n b s : 0 <= r_cnt b -> s_freq s = 0 -> announces b -> e_raw e = true ->
  (forall u b', exec (mpegh_3da_config (e_user e) (e_cfg e)) b <> Done ((0, u), b')) ->
  (forall r, exec (mpegh_3da_config (e_user e) (e_cfg e)) b <> UB r) ->
  match header_config e n 0 b s with
  | HUb _ => False
  | HJmp s' => s_freq s' <> 0
  | HRet c _ s' => c <> 0 /\ s_freq s' <> 0
  end.
Proof.
  intros HC HF HA HR NO NU. unfold header_config. cbv zeta.
  assert (CC : copy_cfg 0 b (s_prev s) = Some (0 <=? whole_bytes b, s_prev s)).
  { unfold copy_cfg. rewrite Z.max_l by lia. reflexivity. }
  rewrite CC. assert (WB : 0 <=? whole_bytes b = true) by (apply Z.leb_le; unfold whole_bytes; apply Z.div_pos; lia).
  rewrite WB.
  destruct (exec (mpegh_3da_config (e_user e) (e_cfg e)) b) as [[[c u] b']|x|r].
  3: elim (NU r); reflexivity.
  - destruct (Z.eqb_spec c 0) as [->|C]; [elim (NO u b'); reflexivity|]. cbn [negb].
    destruct (s_plen s =? 0); cbn [s_freq w_cons w_freq w_prev]; rewrite HF; auto.
  - destruct (s_plen s =? 0); cbn [s_freq w_cons w_freq w_prev]; rewrite HF; auto.
Qed.

(** An input without packets whose configuration announces a sampling frequency and is then
    rejected, or is simply cut short, leaves a dead decoder. *)
Theorem raw_dies e bs s o : e_raw e = true -> 1 <= zlen bs -> s_init s = false -> s_hdr s = false -> s_freq s = 0 ->
  o_done o = false -> announces (fresh bs) ->
  (forall u b', exec (mpegh_3da_config (e_user e) (e_cfg e)) (fresh bs) <> Done ((0, u), b')) ->
  (forall r, exec (mpegh_3da_config (e_user e) (e_cfg e)) (fresh bs) <> UB r) ->
  exists c s' o', api_init e plain bs s o = Done (c, s', o') /\ stuck s' /\ o_done o' = false.
Proof.
  intros R N I H F O A NO NU. unfold api_init. cbn [plain a_ei a_lsi a_brir a_mae any_short a_bin a_groups andb].
  unfold dec_init, dec_init_with. rewrite H, F. cbn [negb Z.eqb].
  destruct (Z.eqb_spec (zlen bs) 0); [lia|].
  pose proof (header_same e bs s) as K.
  pose proof (raw_header_dies e (zlen bs) (fresh bs) s ltac:(rewrite fresh_cnt; lia) F A R NO NU) as D.
  unfold header in *. rewrite R in *. rewrite orb_true_r in *.
  destruct (header_config e (zlen bs) 0 (fresh bs) s) as [c used s1|s1|r]; [| |contradiction].
  - destruct D as [C D]. destruct K as (K1 & _). rewrite I in K1.
    destruct (fatal c).
    { destruct (c =? E_STREAM_CHAN); do 3 eexists; (split; [reflexivity|]); cbn [s_init w_cons o_done]; rewrite K1; (split; [split; auto|reflexivity]). }
    destruct (c =? X_INPUT).
    { do 3 eexists; (split; [reflexivity|]); cbn [s_init w_cons o_done]; rewrite K1; (split; [split; auto|reflexivity]). }
    destruct (Z.eqb_spec c 0); [congruence|].
    do 3 eexists; (split; [reflexivity|]); cbn [s_init w_cons o_done]; rewrite K1; (split; [split; auto|reflexivity]).
  - destruct K as (K1 & _). rewrite I in K1.
    do 3 eexists; (split; [reflexivity|]); cbn [s_init w_cons w_out o_done]; rewrite K1; (split; [split; auto|reflexivity]).
Qed.
