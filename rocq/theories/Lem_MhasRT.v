(** * Lem_MhasRT: earcons, PCM packets and loudness infos are decoded as written *)

From Coq Require Import ZArith List Lia Bool.
From Verif Require Import Bits BitBuf BitWrite Prog Escape Asi Wp Wlp Frame Loops Spec_Asi Lem_Asi Lem_AsiRT
  Loud Mhas Spec_Mhas Lem_Mhas.
Import ListNotations.
Open Scope Z_scope.

Lemma runA_ret {A} (a : A) l : runA (Ret a) l = Done (a, l). Proof. reflexivity. Qed.
Lemma aset_done {A} (l : list A) i x bs :
  (i < length l)%nat -> runA (aset l (Z.of_nat i) x) bs = Done (firstn i l ++ x :: skipn (S i) l, bs).
Proof.
  intros H. unfold aset. destruct (Z.leb_spec 0 (Z.of_nat i)); [|lia].
  destruct (Z.ltb_spec (Z.of_nat i) (Z.of_nat (length l))); [|lia]. cbn [andb runA]. rewrite Nat2Z.id. reflexivity.
Qed.

(** ** Earcons *)
Lemma read_text_rt cs rest : (length cs <= 255)%nat -> Forall (fits 8) cs ->
  runA (read_text (Z.of_nat (length cs))) (enc_bytes cs ++ rest) = Done (cs, rest).
Proof.
  intros HL HF. unfold read_text, enc_bytes. rewrite Nat2Z.id.
  rewrite (forP_app _ (bits_of 8) (fun x => x) (fits 8) 256); [rewrite map_id; reflexivity| |lia|exact HF].
  intros i acc x r Hi Hx. rewrite runA_chk by lia. rdf. reflexivity.
Qed.

Definition valid_eartext (t : Z * list Z) : Prop :=
  fits 24 (fst t) /\ (length (snd t) <= 255)%nat /\ Forall (fits 8) (snd t).

Lemma read_langs_rt ts old rest :
  (length ts <= length old)%nat -> Forall valid_eartext ts ->
  runA (read_langs (Z.of_nat (length ts)) old) (concat (map enc_eartext ts) ++ rest)
  = Done (ts ++ skipn (length ts) old, rest).
Proof.
  intros HL HF. unfold read_langs. rewrite Nat2Z.id.
  rewrite (forP_fill _ enc_eartext (fun x => x) valid_eartext (length old)); [rewrite map_id; reflexivity| |lia|lia|exact HF].
  intros i arr [g cs] r Hi HN (V1 & V2 & V3). unfold enc_eartext. cbn [fst snd] in *.
  rdf. rdf. rewrite runA_bind, read_text_rt by assumption. apply aset_done; exact Hi.
Qed.

(** An entry of the table agrees with an earcon. *)
Definition pos_shown (p : earpos) (c : earcon) : Prop :=
  match p with
  | AtSpeaker k => e_ptype c = 0 /\ e_spk c = k
  | AtPoint a e d => e_ptype c = 1 /\ e_az c = a /\ e_el c = e /\ e_dist c = d
  | AtFront t => e_ptype c = t /\ e_az c = 0 /\ e_el c = 0 /\ e_dist c = 177
  end.
Definition ear_shown (e : ear) (c : earcon) : Prop :=
  e_indep c = b2z (er_indep e) /\ e_id c = er_id e /\ e_type c = er_type e /\
  e_active c = b2z (er_active e) /\ pos_shown (er_pos e) c /\
  match er_gain e with Some g => e_gain c = g | None => True end /\
  firstn (Z.to_nat (e_nlang c)) (e_lang c) = match er_text e with Some ts => ts | None => [] end.

(** Shape of the earcon table in memory: 16 entries, 16 languages each. *)
Definition ear_shape (tab : list earcon) : Prop :=
  length tab = 16%nat /\ Forall (fun c => length (e_lang c) = 16%nat /\ 0 <= e_nlang c <= 15) tab.

Lemma earcon_position_rt o p rest : valid_earpos p ->
  exists pt k a l d, runA (earcon_position o) (enc_earpos p ++ rest) = Done ((pt, k, a, l, d), rest) /\
    forall i1 i2 i3 i4 g nl la, pos_shown p (mkEC i1 i2 i3 i4 pt k a l d g nl la).
Proof.
  intros V. unfold earcon_position. destruct p as [k|a e d|t]; cbn [enc_earpos valid_earpos pos_shown] in *.
  - rdf. change (0 =? 0) with true. cbv iota. rdf. do 5 eexists. split; [reflexivity|]. intros. cbn. auto.
  - destruct V as (V1 & V2 & V3). rdf. change (1 =? 0) with false. change (1 =? 1) with true. cbv iota.
    rdf. rdf. rdf. do 5 eexists. split; [reflexivity|]. intros. cbn. auto.
  - assert (fits 2 t) by (unfold fits; cbn; lia). rdf.
    destruct (Z.eqb_spec t 0); [lia|]. destruct (Z.eqb_spec t 1); [lia|].
    do 5 eexists. split; [reflexivity|]. intros. cbn. auto.
Qed.

Lemma earcon_one_rt i tab old e rest :
  nth_error tab i = Some old -> length (e_lang old) = 16%nat -> valid_ear e ->
  (er_text e = None -> e_nlang old = 0) ->
  exists c, ear_shown e c /\ length (e_lang c) = 16%nat /\ 0 <= e_nlang c <= 15 /\
    runA (earcon_one (Z.of_nat i) tab) (enc_ear e ++ rest)
    = Done (firstn i tab ++ c :: skipn (S i) tab, rest).
Proof.
  intros Ho HL (V1 & V2 & V3 & V4 & V5) HT. unfold earcon_one, enc_ear.
  assert (Hi : (i < length tab)%nat) by (apply nth_error_Some; congruence).
  rewrite (runA_aget tab (Z.of_nat i) old) by (rewrite ?Nat2Z.id; auto; lia).
  rewrite <- !app_assoc. rdf. rdf. rdf. rdf.
  destruct (earcon_position_rt old (er_pos e)
    (enc_opt (bits_of 7) (er_gain e) ++ enc_opt (fun ts => bits_of 4 (Z.of_nat (length ts)) ++
       concat (map enc_eartext ts)) (er_text e) ++ rest) V3) as (pt & k & a & l & d & E & PS).
  rewrite runA_bind, E. cbv beta iota.
  assert (G : exists g, match er_gain e with Some x => g = x | None => True end /\ forall (q : Z -> prog (list earcon)) r,
     runA (hg <- rd 1 ;; g <- (if hg =? 0 then Ret (e_gain old) else rd 7) ;; q g) (enc_opt (bits_of 7) (er_gain e) ++ r)
     = runA (q g) r).
  { destruct (er_gain e) as [g|]; cbn [enc_opt].
    - exists g. split; [reflexivity|]. intros q r. rdf. cbn [b2z Z.eqb]. rdf. reflexivity.
    - exists (e_gain old). split; [exact I|]. intros q r. rdf. reflexivity. }
  destruct G as (g & G1 & G2).
  rewrite (G2 (fun g => ht <- rd 1 ;; nl <- (if ht =? 0 then Ret (e_nlang old) else rd 4) ;;
     lang <- read_langs nl (e_lang old) ;;
     aset tab (Z.of_nat i) (mkEC (b2z (er_indep e)) (er_id e) (er_type e) (b2z (er_active e)) pt k a l d g nl lang))).
  destruct (er_text e) as [ts|] eqn:ET; cbn [enc_opt].
  - destruct V5 as (V5 & V6). rdf. cbn [b2z Z.eqb]. rdf.
    rewrite runA_bind, read_langs_rt; [|lia|exact V6]. rewrite aset_done by exact Hi.
    eexists. split; [|split; [|split; [|reflexivity]]].
    + unfold ear_shown. rewrite ET. cbn [e_indep e_id e_type e_active e_gain e_nlang e_lang]. repeat split; auto.
      rewrite Nat2Z.id. rewrite firstn_app, Nat.sub_diag, firstn_all; cbn [firstn]; apply app_nil_r.
    + cbn [e_lang]. rewrite app_length, skipn_length. lia.
    + cbn [e_nlang]. lia.
  - specialize (HT eq_refl). rdf. cbn [b2z Z.eqb]. cbn [bind]. rewrite HT.
    change (read_langs 0 (e_lang old)) with (@Ret (list (Z * list Z)) (e_lang old)). cbn [bind].
    rewrite aset_done by exact Hi.
    eexists. split; [|split; [|split; [|reflexivity]]].
    + unfold ear_shown. rewrite ET. cbn [e_indep e_id e_type e_active e_gain e_nlang e_lang]. repeat split; auto.
    + exact HL.
    + cbn [e_nlang]. lia.
Qed.

Lemma earcon_info_rt tab es rest :
  ear_shape tab -> (1 <= length es <= 16)%nat -> Forall valid_ear es ->
  (forall i e old, nth_error es i = Some e -> nth_error tab i = Some old -> er_text e = None -> e_nlang old = 0) ->
  exists cs, Forall2 ear_shown es cs /\ ear_shape (cs ++ skipn (length es) tab) /\
    runA (earcon_info tab) (enc_ears es ++ rest) = Done (Ok (cs ++ skipn (length es) tab), rest).
Proof.
  intros [SL SF] HL HV HT. unfold earcon_info, enc_ears. rewrite <- app_assoc.
  assert (fits 7 (Z.of_nat (length es) - 1)) by (unfold fits; change (2 ^ 7) with 128; lia). rdf.
  destruct (Z.ltb_spec 16 (Z.of_nat (length es) - 1)); [lia|].
  replace (Z.to_nat (Z.of_nat (length es) - 1 + 1)) with (length es) by lia.
  destruct (forP_tab (fun i t => earcon_one (Z.of_nat i) t) enc_ear
     (fun e c => ear_shown e c /\ length (e_lang c) = 16%nat /\ 0 <= e_nlang c <= 15)
     (fun e old => length (e_lang old) = 16%nat /\ valid_ear e /\ (er_text e = None -> e_nlang old = 0)) 16
     ) with (xs := es) (i := 0%nat) (arr := tab) (rest := rest) as (cs & F & E).
  - intros i arr x r old Ho HN (P1 & P2 & P3).
    destruct (earcon_one_rt i arr old x r Ho P1 P2 P3) as (c & C1 & C2 & C3 & C4). exists c. auto.
  - lia.
  - exact SL.
  - intros j x old Hx Ho. rewrite Forall_forall in SF, HV. split; [|split].
    + apply SF. eapply nth_error_In; exact Ho.
    + apply HV. eapply nth_error_In; exact Hx.
    + apply (HT j x old Hx Ho).
  - rewrite runA_bind, E. cbn [firstn app runA Nat.add].
    exists cs. split; [|split; [|reflexivity]].
    + clear -F. induction F; constructor; [apply H|assumption].
    + assert (LC := F2_length _ _ _ F). split.
      * rewrite app_length, skipn_length. lia.
      * apply Forall_app. split.
        -- clear -F. induction F as [|e c es cs [_ H] F IH]; constructor; auto.
        -- rewrite <- (firstn_skipn (length es) tab) in SF. apply Forall_app in SF. apply SF.
Qed.

(** Safety: only the count 16 is out of bounds. *)
Lemma wp_read_langs n old : 0 <= n <= 15 -> length old = 16%nat ->
  wp (read_langs n old) (fun l => length l = 16%nat).
Proof.
  intros Hn HL. unfold read_langs. apply (wp_for (fun _ l => length l = 16%nat)); auto.
  intros j t Hj Ht. wps. unfold read_text. apply (wp_for (fun _ _ => True)); auto.
  - intros j' t' Hj' _. wps; auto.
  - intros t' _. apply wp_aset; [lia|]. rewrite aset_len; lia.
Qed.
Lemma wp_earcon_one i tab : ear_shape tab -> (i < 16)%nat -> wp (earcon_one (Z.of_nat i) tab) ear_shape.
Proof.
  intros [SL SF] Hi. unfold earcon_one. apply wp_bindi, wp_aget; [lia|]. intros o Ho.
  assert (O : length (e_lang o) = 16%nat /\ 0 <= e_nlang o <= 15).
  { rewrite Forall_forall in SF. apply SF. eapply nth_error_In; exact Ho. }
  assert (K : forall c, length (e_lang c) = 16%nat -> 0 <= e_nlang c <= 15 ->
     wp (aset tab (Z.of_nat i) c) ear_shape).
  { intros c C1 C2. apply wp_aset; [lia|]. split; [rewrite aset_len; lia|]. apply Forall_aset; auto. }
  unfold earcon_position. wps;
  (eapply wp_mono; [|apply wp_read_langs; [lia|apply O]]; intros la Hla; cbv beta; apply K; cbn [e_lang e_nlang]; [exact Hla|lia]).
Qed.
Lemma wp_earcon_tail n tab : ear_shape tab -> 0 <= n <= 15 ->
  wp (t <- forP (Z.to_nat (n + 1)) 0 (fun i t => earcon_one (Z.of_nat i) t) tab ;; Ret (Ok t))
     (fun r => match r with Ok t => ear_shape t | Er _ => True end).
Proof.
  intros Sh Hn. apply wp_bindi. apply (wp_for (fun _ t => ear_shape t)); auto.
  intros j t Hj Ht. apply wp_earcon_one; [exact Ht|lia].
Qed.

Lemma exec_rd_value n st v st' : wf st -> 0 <= n <= 24 -> exec (rd n) st = Done (v, st') ->
  wf st' /\ v = val_of (firstn (Z.to_nat n) (rest_bits st)) /\ rest_bits st' = skipn (Z.to_nat n) (rest_bits st).
Proof.
  intros W Hn E. pose proof (exec_refines (rd n) st W) as R. cbn [runA rd] in R.
  destruct (Z.ltb_spec n 0); [lia|]. destruct (Z.ltb_spec 24 n); [lia|]. cbn [orb] in R.
  rewrite E in R. destruct (Z.of_nat (length (rest_bits st)) <? n); [discriminate|].
  cbn [runA agrees] in R. destruct R as (s1 & R1 & R2 & R3). inversion R1; subst. auto.
Qed.

Lemma earcon_safe tab st r : ear_shape tab -> wf st ->
  exec (earcon_info tab) st = UB r -> val_of (firstn 7 (rest_bits st)) = 16.
Proof.
  intros Sh W E. unfold earcon_info in E. rewrite exec_bind in E.
  destruct (exec (rd 7) st) as [[v s1]|c|u] eqn:F; [| |].
  - destruct (exec_rd_value 7 st v s1 W ltac:(lia) F) as (W1 & V & _).
    assert (R : 0 <= v < 2 ^ 7).
    { rewrite V. apply val_firstn_range; [lia|]. pose proof (wf_len st W) as L.
      cbn [exec rd] in F. unfold read_bits in F. cbn in F.
      destruct (Z.ltb_spec (r_cnt st) 7); [cbn in F; discriminate|lia]. }
    change (2 ^ 7) with 128 in R. change (Z.to_nat 7) with 7%nat in V. rewrite <- V.
    destruct (Z.ltb_spec 16 v); [discriminate|].
    destruct (Z.eq_dec v 16); [assumption|]. exfalso.
    pose proof (wp_exec _ _ s1 (wp_earcon_tail v tab Sh ltac:(lia)) W1) as X. rewrite E in X. exact X.
  - discriminate.
  - exfalso. pose proof (wp_exec (rd 7) (fun _ => True) st ltac:(wps; exact I) W) as X. rewrite F in X. exact X.
Qed.
