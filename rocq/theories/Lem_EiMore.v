(** * Lem_EiMore: displacement, local setup, counterexamples *)
From Coq Require Import ZArith List Lia Bool.
From Verif Require Import Bits BitBuf BitWrite Prog Wp Escape Leaf Asi Config Ei Spec_Asi Spec_Mhas Spec_Ei Lem_Asi Lem_AsiRT Lem_Ei Lem_ConfigSafe.
Import ListNotations.
Open Scope Z_scope.

(** ** Scene displacement *)
Lemma run_disp d rest : valid_disp d -> runA scene_disp (enc_disp d ++ rest) = Done (d, rest).
Proof.
  intros (V1 & V2 & V3 & V4 & V5 & V6). unfold scene_disp, enc_disp. destruct d as [y p r a e x]. cbn [sd_yaw sd_pitch sd_roll sd_az sd_el sd_rad] in *.
  do 6 rdf. reflexivity.
Qed.
Lemma enc_disp_len d : length (enc_disp d) = 45%nat.
Proof. unfold enc_disp. rewrite !app_length, !bits_of_length. reflexivity. Qed.

Lemma sd_step_run d0 d rest : valid_disp d -> runA (sd_step d0) (enc_disp d ++ rest) = Done (d, rest).
Proof.
  intros V. unfold sd_step. cbn [bind avail runA].
  destruct (Z.leb_spec 45 (Z.of_nat (length (enc_disp d ++ rest)))) as [H|H]; [|rewrite app_length, enc_disp_len in H; lia].
  apply run_disp, V.
Qed.
Lemma sd_step_short d0 rest : (length rest < 45)%nat -> runA (sd_step d0) rest = Done (d0, rest).
Proof.
  intros H. unfold sd_step. cbn [bind avail runA]. destruct (Z.leb_spec 45 (Z.of_nat (length rest))); [lia|]. reflexivity.
Qed.

Lemma last_cons {A} (x : A) l d : last (x :: l) d = last l x.
Proof. revert x d. induction l as [|y l IH]; intros x d; [reflexivity|]. change (last (x :: y :: l) d) with (last (y :: l) d). rewrite (IH y d), (IH y x). reflexivity. Qed.

Lemma sd_run_all : forall n ds d0 rest, Forall valid_disp ds -> (length rest < 45)%nat ->
  exists bs, runA (sd_run n d0) (concat (map enc_disp ds) ++ rest) = Done (map (disp_at ds d0) (seq 0 n), bs).
Proof.
  induction n as [|n IH]; intros ds d0 rest HV HR; [eexists; reflexivity|]. cbn [sd_run].
  destruct ds as [|d ds].
  - cbn [map concat app]. rewrite runA_bind, sd_step_short by exact HR. rewrite runA_bind.
    destruct (IH [] d0 rest HV HR) as (bs & E). cbn [map concat app] in E. rewrite E. cbn [runA].
    exists bs. do 2 f_equal. cbn [seq map]. f_equal. rewrite <- seq_shift, map_map. apply map_ext. intros i. unfold disp_at. destruct i; reflexivity.
  - cbn [map concat]. rewrite <- app_assoc. rewrite runA_bind, sd_step_run by exact (Forall_inv HV). rewrite runA_bind.
    destruct (IH ds d rest (Forall_inv_tail HV) HR) as (bs & E). rewrite E. cbn [runA].
    exists bs. do 2 f_equal. cbn [seq map]. f_equal. rewrite <- seq_shift, map_map. apply map_ext. intros i. unfold disp_at.
    cbn [nth]. rewrite last_cons. reflexivity.
Qed.

(** Any displacement data whatsoever: the decoder never reads past its end. *)
Lemma wp_sd_run : forall n d0, wp (sd_run n d0) (fun l => length l = n).
Proof.
  induction n as [|n IH]; intros d0; cbn [sd_run]; [reflexivity|].
  apply wp_bindi. unfold sd_step. apply wp_bindi, wp_avail. intros c Hc.
  assert (K : forall d, wp (r <- sd_run n d;; Ret (d :: r)) (fun l => length l = S n)).
  { intros d. apply wp_bindi. eapply wp_mono; [|apply IH]. intros l Hl. cbv beta in Hl. apply wp_ret. cbn [length]. congruence. }
  destruct (45 <=? c); [|apply wp_ret, K].
  unfold scene_disp. do 6 (apply wp_bindi, wp_rd; [lia|]; intros ? _). apply wp_ret, K.
Qed.

(** No jump either: each step reads only when all its bits are there. *)
Lemma sd_run_done : forall n d0 bs, exists l bs', runA (sd_run n d0) bs = Done (l, bs').
Proof.
  induction n as [|n IH]; intros d0 bs; [eexists _, _; reflexivity|]. cbn [sd_run]. rewrite runA_bind.
  unfold sd_step. cbn [bind avail runA]. destruct (Z.leb_spec 45 (Z.of_nat (length bs))) as [H|H].
  - unfold scene_disp. repeat (cbn [bind rd runA]; lazymatch goal with |- context [Z.of_nat (length ?l) <? ?n] => destruct (Z.ltb_spec (Z.of_nat (length l)) n) as [K|K]; [rewrite ?skipn_length in K; exfalso; cbn in K; lia|clear K] end; cbn [orb Z.ltb Z.compare Pos.compare Pos.compare_cont]; cbv iota).
    cbn [runA]. rewrite runA_bind. match goal with |- context [runA (sd_run n ?d) ?b] => destruct (IH d b) as (l & b' & E) end. rewrite E. eexists _, _; reflexivity.
  - cbn [runA]. rewrite runA_bind. destruct (IH d0 bs) as (l & b' & E). rewrite E. eexists _, _; reflexivity.
Qed.

(** ** Local setup: layouts with measured positions *)
Lemma upd_same {A} (l : list A) i x : nth_error l i = Some x -> upd l i x = l.
Proof. intros H. unfold upd. rewrite <- (nth_skipn_cons l i x H). apply firstn_skipn. Qed.

Lemma skipn_upd {A} (l : list A) i v n : (i < length l)%nat -> skipn (S i + n) (upd l i v) = skipn (S i + n) l.
Proof.
  intros H. unfold upd. rewrite skipn_app, firstn_length_le by lia. rewrite (skipn_all2 (firstn i l)) by (rewrite firstn_length_le by lia; lia).
  cbn [app]. replace (S i + n - i)%nat with (S n) by lia. rewrite skipn_cons, skipn_skipn_add. reflexivity.
Qed.

Lemma run_map {A} (c : A -> bool) (f : A -> A) : forall n i (l : list A) bs, (i + n <= length l)%nat ->
  runA (forP n i (fun i l => s <- aget l (Z.of_nat i) ;; if c s then aset l (Z.of_nat i) (f s) else Ret l) l) bs
  = Done (firstn i l ++ map (fun s => if c s then f s else s) (firstn n (skipn i l)) ++ skipn (i + n) l, bs).
Proof.
  induction n as [|n IH]; intros i l bs H; cbn [forP].
  - cbn [runA firstn map app]. rewrite Nat.add_0_r, firstn_skipn. reflexivity.
  - destruct (nth_error_Some_ex l i) as [s Hs]; [lia|]. rewrite bind_assoc.
    rewrite (runA_aget l (Z.of_nat i) s) by (try lia; rewrite Nat2Z.id; exact Hs).
    set (s' := if c s then f s else s).
    assert (E : forall B (k : list A -> prog B) bs, runA (bind (if c s then aset l (Z.of_nat i) (f s) else Ret l) k) bs = runA (k (upd l i s')) bs).
    { intros B k b. unfold s'. destruct (c s); [rewrite run_set by lia; reflexivity|]. rewrite upd_same by exact Hs. reflexivity. }
    rewrite E, IH by (rewrite upd_len; lia). rewrite firstn_upd by lia. rewrite (nth_skipn_cons l i s Hs). cbn [firstn map].
    fold s'. rewrite <- app_assoc. replace (S i) with (i + 1)%nat by lia. cbn [app].
    pose proof (skipn_upd l i s' 0) as K0. pose proof (skipn_upd l i s' n) as Kn.
    replace (S i + 0)%nat with (i + 1)%nat in K0 by lia. replace (S i + n)%nat with (i + 1 + n)%nat in Kn by lia.
    rewrite K0, Kn by lia. replace (i + S n)%nat with (i + 1 + n)%nat by lia. reflexivity.
Qed.

Definition raw_pos (s : lspk) : option (Z * Z) := if z2b (ls_known s) then Some (ls_azi s, ls_ele s) else None.
Definition bit_known (s : lspk) : Prop := ls_known s = 0 \/ ls_known s = 1.

Lemma run_loudspk i ls p rest : valid_pos p -> (i < length ls)%nat ->
  exists s, raw_pos s = p /\ bit_known s /\
  runA (loudspk_one 0 0 0 i ls) (enc_ls_pos p ++ rest) = Done ((0, upd ls i s), rest).
Proof.
  intros V H. destruct (nth_error_Some_ex ls i H) as [s0 Hs0]. unfold loudspk_one, enc_ls_pos. change (0 <=? 1) with true. cbv iota.
  change (negb (0 =? 0)) with false. cbv iota.
  destruct p as [[a e]|]; cbn [enc_opt].
  - destruct V as [V1 V2]. rewrite bind_assoc. rdf. cbn [b2z].
    rewrite bind_assoc, (runA_aget ls (Z.of_nat i) s0) by (try lia; rewrite Nat2Z.id; exact Hs0).
    change (negb (1 =? 0)) with true. cbv iota. rewrite bind_assoc. rdf. rewrite bind_assoc. rdf. rewrite run_set by exact H. cbn [bind Z.eqb negb runA].
    eexists. split; [|split; [|reflexivity]]; [reflexivity|right; reflexivity].
  - rewrite bind_assoc. rdf. cbn [b2z].
    rewrite bind_assoc, (runA_aget ls (Z.of_nat i) s0) by (try lia; rewrite Nat2Z.id; exact Hs0).
    change (negb (0 =? 0)) with false. cbv iota. rewrite run_set by exact H. cbn [bind Z.eqb negb runA].
    eexists. split; [|split; [|reflexivity]]; [reflexivity|left; reflexivity].
Qed.

Lemma run_loudspks : forall ps i ls rest, Forall valid_pos ps -> (i + length ps <= length ls)%nat ->
  exists ls' ss, length ss = length ps /\ ls' = firstn i ls ++ ss ++ skipn (i + length ps) ls /\
    map raw_pos ss = ps /\ Forall bit_known ss /\
    runA (forE (length ps) i (loudspk_one 0 0 0) ls) (concat (map enc_ls_pos ps) ++ rest) = Done ((0, ls'), rest).
Proof.
  induction ps as [|p ps IH]; intros i ls rest HV HL.
  - exists ls, []. cbn [length app map]. rewrite Nat.add_0_r, firstn_skipn. repeat split. constructor.
  - cbn [length] in HL. destruct (run_loudspk i ls p (concat (map enc_ls_pos ps) ++ rest)) as (s & R & K & E).
    { exact (Forall_inv HV). } { lia. }
    cbn [length forE map concat]. rewrite <- app_assoc. rewrite runA_bind, E. cbn [Z.eqb].
    destruct (IH (S i) (upd ls i s) rest (Forall_inv_tail HV)) as (ls' & ss & L1 & L2 & L3 & L4 & L5); [rewrite upd_len; lia|].
    rewrite L5. exists ls', (s :: ss). split; [cbn; lia|]. split; [|split; [|split; [|reflexivity]]].
    + rewrite L2, firstn_upd by lia. rewrite <- app_assoc. cbn [app]. do 3 f_equal. unfold upd.
      rewrite skipn_app, firstn_length_le by lia. rewrite (skipn_all2 (firstn i ls)) by (rewrite firstn_length_le by lia; lia).
      cbn [app]. replace (S i + length ps - i)%nat with (S (length ps)) by lia. rewrite skipn_cons, skipn_skipn_add. f_equal. lia.
    + cbn [map]. rewrite R, L3. reflexivity.
    + constructor; assumption.
Qed.

(** More than 24 loudspeakers: the 25th is stored outside the arrays. *)
Lemma run_loudspks_oob : forall ps i ls rest, Forall valid_pos ps -> (i <= length ls)%nat -> (length ls < i + length ps)%nat ->
  runA (forE (length ps) i (loudspk_one 0 0 0) ls) (concat (map enc_ls_pos ps) ++ rest) = UB UOob.
Proof.
  induction ps as [|p ps IH]; intros i ls rest HV HI HL; [cbn in HL; lia|].
  cbn [length] in HL. cbn [length forE map concat]. rewrite <- app_assoc. rewrite runA_bind.
  destruct (Nat.lt_ge_cases i (length ls)) as [Hi|Hi].
  - destruct (run_loudspk i ls p (concat (map enc_ls_pos ps) ++ rest) (Forall_inv HV) Hi) as (s & _ & _ & E).
    rewrite E. cbn [Z.eqb]. apply IH; [exact (Forall_inv_tail HV)| |]; rewrite upd_len; lia.
  - assert (E : runA (loudspk_one 0 0 0 i ls) (enc_ls_pos p ++ concat (map enc_ls_pos ps) ++ rest) = UB UOob).
    { unfold loudspk_one. change (0 <=? 1) with true. cbv iota. unfold enc_ls_pos. rewrite bind_assoc.
      assert (EG : forall B (k : lspk -> prog B) bs, runA (bind (aget ls (Z.of_nat i)) k) bs = UB UOob).
      { intros B k bs. unfold aget. destruct (Z.leb_spec 0 (Z.of_nat i)); [|lia]. rewrite Nat2Z.id.
        destruct (nth_error ls i) eqn:EN; [|reflexivity]. assert (i < length ls)%nat by (apply nth_error_Some; congruence). lia. }
      destruct p as [[a e]|]; cbn [enc_opt]; rdf; rewrite bind_assoc, EG; reflexivity. }
    rewrite E. reflexivity.
Qed.


Lemma setup_run brir nsig u cicp ps track comp rest : lsetup_ok u -> fits 6 cicp -> (length ps <= 24)%nat -> Forall valid_pos ps -> 0 <= nsig ->
  exists u', runA (local_setup brir nsig u) (enc_setup cicp ps track comp ++ rest) = Done (Ok u', rest) /\
    lu_num u' = Z.of_nat (length ps) /\ l_type (lu_spk u') = 0 /\ l_idx (lu_spk u') = cicp /\
    map view_pos (firstn (length ps) (lu_ls u')) = map degrees ps /\
    z2b (lu_track u') = track /\ z2b (lu_comp u') = comp /\ lu_brir u' = 0 /\ lu_screen u' = 0 /\ lsetup_ok u'.
Proof.
  intros (U1 & U2 & U3 & U4) Hc HL HV HN. unfold local_setup, enc_setup. rdf.
  change (0 =? 1) with false. cbv iota. rewrite bind_assoc.
  unfold loud_spk_ren. rewrite bind_assoc. rdf. cbn [lu_spk lu_ls].
  rewrite bind_assoc. unfold spk_config_3d. rewrite bind_assoc. rdf. change (0 =? 0) with true. cbv iota zeta.
  rewrite bind_assoc. rdf. cbn [bind]. cbv iota.
  rewrite bind_assoc. rdf. rewrite bind_assoc. rdf. rewrite bind_assoc. rdf. cbn [b2z].
  cbn [l_type s_l_idx s_l_type]. rewrite bind_assoc, Nat2Z.id.
  match goal with |- context [concat (map enc_ls_pos ps) ++ ?r] => destruct (run_loudspks ps 0 (lu_ls u) r HV) as (ls' & ss & L1 & L2 & L3 & L4 & L5); [lia|] end.
  rewrite runA_bind, L5. cbv beta iota. change (negb (0 =? 0)) with false. cbv iota. rewrite bind_assoc. rdf. cbn [bind]. cbv iota.
  rewrite bind_assoc. unfold inv_quant. cbn [lu_num lu_hasgain lu_ls lu_spk lu_type lu_brir lu_hasdist lu_track lu_comp lu_wires lu_screen lu_scr_az lu_scr_l lu_scr_r lu_hasel lu_scr_t lu_scr_b].
  change (negb (0 =? 0)) with false. cbv iota. rewrite bind_assoc. cbn [bind].
  cbn [l_type s_l_idx s_l_type]. change (0 <=? 1) with true. cbv iota. rewrite Nat2Z.id.
  cbn [firstn Nat.add app] in L2.
  assert (LS : length ls' = 24%nat) by (rewrite L2, app_length, skipn_length; lia).
  assert (FS : firstn (length ps) ls' = ss) by (rewrite L2, firstn_app, L1, Nat.sub_diag; cbn [firstn]; rewrite app_nil_r; apply firstn_all2; lia).
  rewrite bind_assoc, runA_bind, (run_map (fun s => ls_known s =? 1) (fun s => mkLs (ls_known s) (clampz (-180) 180 (ls_azi s - 256)) (ls_ele s) (ls_dis s) (ls_cal s))) by lia.
  cbn [firstn app skipn Nat.add]. rewrite FS.
  set (s2 := map _ ss).
  rewrite bind_assoc, runA_bind, (run_map (fun s => ls_known s =? 1) (fun s => mkLs (ls_known s) (ls_azi s) (clampz (-90) 90 (ls_ele s - 128)) (ls_dis s) (ls_cal s))).
  2:{ rewrite app_length, skipn_length. unfold s2. rewrite map_length. lia. }
  cbn [firstn app skipn Nat.add].
  assert (L2' : length s2 = length ps) by (unfold s2; rewrite map_length; exact L1).
  rewrite firstn_app, L2', Nat.sub_diag. cbn [firstn]. rewrite app_nil_r, firstn_all2 by lia.
  change (0 =? 2) with false. cbv iota. cbn [bind]. cbv iota.
  cbn [lu_num lu_hasgain lu_ls lu_spk lu_type lu_brir lu_hasdist lu_track lu_comp lu_wires lu_screen lu_scr_az lu_scr_l lu_scr_r lu_hasel lu_scr_t lu_scr_b].
  rdf. destruct (Z.ltb_spec nsig 0); [lia|]. change (Z.to_nat 0) with 0%nat. cbn [forP bind].
  rdf. cbn [b2z]. change (negb (0 =? 0)) with false. cbv iota. cbn [runA].
  eexists. split; [reflexivity|].
  cbn [lu_num lu_hasgain lu_ls lu_spk lu_type lu_brir lu_hasdist lu_track lu_comp lu_wires lu_screen lu_scr_az lu_scr_l lu_scr_r lu_hasel lu_scr_t lu_scr_b l_type l_idx s_l_type s_l_idx].
  split; [reflexivity|]. split; [reflexivity|]. split; [reflexivity|]. split; [|split; [apply z2b_b2z|split; [apply z2b_b2z|split; [reflexivity|split; [reflexivity|]]]]].
  - set (s3 := map _ s2). assert (L3' : length s3 = length ps) by (unfold s3; rewrite map_length; exact L2').
    rewrite firstn_app, L3', Nat.sub_diag. cbn [firstn]. rewrite app_nil_r, firstn_all2 by lia.
    unfold s3, s2. rewrite <- L3, !map_map. apply map_ext_in. intros s Hs.
    rewrite Forall_forall in L4. destruct (L4 s Hs) as [K|K]; unfold view_pos, raw_pos, degrees, z2b, clampz; do 5 (rewrite ?K; cbn [Z.eqb Pos.eqb negb ls_known ls_azi ls_ele]); [reflexivity|].
    do 2 f_equal; lia.
  - repeat split; cbn [lu_ls lu_wires lu_spk l_spk l_flex s_l_idx s_l_type]; try assumption.
    set (s3 := map _ s2). assert (L3' : length s3 = length ps) by (unfold s3; rewrite map_length; exact L2').
    rewrite app_length, skipn_length, app_length, skipn_length. lia.
Qed.

Lemma setup_oob brir nsig u cicp ps track comp rest : lsetup_ok u -> fits 6 cicp -> (24 < length ps)%nat -> Z.of_nat (length ps) < 65536 -> Forall valid_pos ps ->
  runA (local_setup brir nsig u) (enc_setup cicp ps track comp ++ rest) = UB UOob.
Proof.
  intros (U1 & U2 & U3 & U4) Hc HL HL2 HV. unfold local_setup, enc_setup. rdf.
  change (0 =? 1) with false. cbv iota. rewrite bind_assoc.
  unfold loud_spk_ren. rewrite bind_assoc. rdf. cbn [lu_spk lu_ls].
  rewrite bind_assoc. unfold spk_config_3d. rewrite bind_assoc. rdf. change (0 =? 0) with true. cbv iota zeta.
  rewrite bind_assoc. rdf. cbn [bind]. cbv iota.
  rewrite bind_assoc. rdf. rewrite bind_assoc. rdf. rewrite bind_assoc. rdf. cbn [b2z].
  cbn [l_type s_l_idx s_l_type]. rewrite bind_assoc, Nat2Z.id.
  rewrite runA_bind, run_loudspks_oob by (try assumption; lia). reflexivity.
Qed.

(** ** Safety of the local setup when at most 24 loudspeakers are announced *)
Definition lay32 (l : layout) : Prop := length (l_spk l) = 32%nat /\ length (l_flex l) = 32%nat.

Lemma wp_spk3d l : lay32 l -> wp (spk_config_3d l) (fun r => lay32 (snd r)).
Proof.
  intros [H1 H2]. unfold spk_config_3d. apply wp_bindi, wp_rd; [lia|]. intros t _.
  destruct (t =? 0); [apply wp_bindi, wp_rd; [lia|]; intros i _; apply wp_ret; split; assumption|].
  destruct (t <? 3); [|apply wp_ret; split; assumption].
  apply wp_bindi, (wp_read_escape 5 8 16); try lia. intros n Hn.
  destruct (Z.ltb_spec 24 (n + 1)); [apply wp_ret; split; assumption|].
  destruct (t =? 2).
  - apply wp_bindi. unfold flexispk. apply wp_bindi, wp_rd; [lia|]. intros prec _. apply wp_bindi.
    eapply wp_mono; [|apply wp_flex_loop; [|lia| |]]; [|lia|lia|exact H2].
    intros arr Ha. apply wp_ret, wp_ret. split; [exact H1|exact Ha].
  - apply wp_bindi. apply (wp_for (fun _ a => length a = 32%nat)); [exact H1| |intros a Ha; apply wp_ret; split; [exact Ha|exact H2]].
    intros j a Hj Ha. apply wp_bindi, wp_rd; [lia|]. intros v _. apply wp_set; [lia|]. rewrite upd_len; lia.
Qed.

Lemma wp_loudspk ty hd hg i ls : (i < 24)%nat -> length ls = 24%nat -> wp (loudspk_one ty hd hg i ls) (fun r => length (snd r) = 24%nat).
Proof.
  intros Hi HL. unfold loudspk_one. apply wp_bindi.
  assert (K : forall Q : list lspk -> Prop, (forall l, length l = 24%nat -> Q l) ->
    wp (if ty <=? 1 then kn <- rd 1;; s <- aget ls (Z.of_nat i);; (if negb (kn =? 0) then a <- rd 9;; e <- rd 8;; aset ls (Z.of_nat i) (mkLs kn a e (ls_dis s) (ls_cal s)) else aset ls (Z.of_nat i) (mkLs kn (ls_azi s) (ls_ele s) (ls_dis s) (ls_cal s))) else Ret ls) Q).
  { intros Q HQ. destruct (ty <=? 1); [|apply wp_ret, HQ, HL]. apply wp_bindi, wp_rd; [lia|]. intros kn _. apply wp_bindi, wp_aget; [lia|]. intros s _.
    destruct (negb (kn =? 0)).
    - apply wp_bindi, wp_rd; [lia|]. intros a _. apply wp_bindi, wp_rd; [lia|]. intros e _. apply wp_set; [lia|]. apply HQ. rewrite upd_len; lia.
    - apply wp_set; [lia|]. apply HQ. rewrite upd_len; lia. }
  apply K. clear K. intros l1 H1. apply wp_bindi.
  assert (K : forall Q : Z * list lspk -> Prop, (forall e l, length l = 24%nat -> Q (e, l)) ->
    wp (if negb (hd =? 0) then d <- rd 1;; s <- aget l1 (Z.of_nat i);; ls <- aset l1 (Z.of_nat i) (mkLs (ls_known s) (ls_azi s) (ls_ele s) d (ls_cal s));; Ret (if d =? 0 then E_SPK_DIST else 0, ls) else Ret (0, l1)) Q).
  { intros Q HQ. destruct (negb (hd =? 0)); [|apply wp_ret, HQ, H1]. apply wp_bindi, wp_rd; [lia|]. intros d _. apply wp_bindi, wp_aget; [lia|]. intros s _.
    apply wp_bindi, wp_set; [lia|]. apply wp_ret, HQ. rewrite upd_len; lia. }
  apply K. clear K. intros e l2 H2. destruct (negb (e =? 0)); [apply wp_ret; exact H2|].
  destruct (negb (hg =? 0)); [|apply wp_ret; exact H2]. apply wp_bindi, wp_rd; [lia|]. intros g _. apply wp_bindi, wp_aget; [lia|]. intros s _.
  apply wp_bindi, wp_set; [lia|]. apply wp_ret. cbn [snd]. rewrite upd_len; lia.
Qed.

Lemma wp_forE_len ty hd hg n ls : (n <= 24)%nat -> length ls = 24%nat -> wp (forE n 0 (loudspk_one ty hd hg) ls) (fun r => length (snd r) = 24%nat).
Proof.
  intros Hn HL. apply (wp_forE (fun _ l => length l = 24%nat) (fun _ l => length l = 24%nat)); [exact HL| |cbn; auto|cbn; auto].
  intros j t Hj Ht. eapply wp_mono; [|apply wp_loudspk; [lia|exact Ht]]. intros [e l] H. cbn [fst snd] in *. destruct (e =? 0); exact H.
Qed.

Lemma wp_pass (n : nat) (c : lspk -> bool) f (ls : list lspk) (Q : list lspk -> Prop) : (n <= 24)%nat -> length ls = 24%nat -> (forall l, length l = 24%nat -> Q l) ->
  wp (forP n 0 (fun i ls => s <- aget ls (Z.of_nat i) ;; if c s then aset ls (Z.of_nat i) (f s) else Ret ls) ls) Q.
Proof.
  intros Hn HL HQ. apply (wp_for (fun _ l => length l = 24%nat)); [exact HL| |exact HQ].
  intros j t Hj Ht. apply wp_bindi, wp_aget; [lia|]. intros s _. destruct (c s); [|apply wp_ret; exact Ht]. apply wp_set; [lia|]. rewrite upd_len; lia.
Qed.


Lemma wp_inv_quant u : lsu_inv u -> wp (inv_quant u) lsu_inv.
Proof.
  intros ((U1 & U2 & U3) & UN). unfold inv_quant.
  set (n := Z.to_nat (lu_num u)). assert (Hn : (n <= 24)%nat) by (unfold n; lia).
  apply wp_bindi. assert (K : forall Q : list lspk -> Prop, (forall l, length l = 24%nat -> Q l) -> wp (if negb (lu_hasgain u =? 0) then
      forP n 0 (fun i ls => s <- aget ls (Z.of_nat i) ;; aset ls (Z.of_nat i) (mkLs (ls_known s) (ls_azi s) (ls_ele s) (ls_dis s) (clampz (-64) 63 (ls_cal s - 64)))) (lu_ls u)
         else Ret (lu_ls u)) Q).
  { intros Q HQ. destruct (negb (lu_hasgain u =? 0)); [|apply wp_ret, HQ, U1].
    exact (wp_pass n (fun _ => true) (fun s => mkLs (ls_known s) (ls_azi s) (ls_ele s) (ls_dis s) (clampz (-64) 63 (ls_cal s - 64))) (lu_ls u) Q Hn U1 HQ). }
  apply K. intros l1 H1. clear K. apply wp_bindi.
  assert (K : forall f (l1 : list lspk) (Q : list lspk -> Prop), length l1 = 24%nat -> (forall l, length l = 24%nat -> Q l) -> wp (if l_type (lu_spk u) <=? 1 then
      forP n 0 (fun i ls => s <- aget ls (Z.of_nat i) ;; if ls_known s =? 1 then aset ls (Z.of_nat i) (f s) else Ret ls) l1 else Ret l1) Q).
  { intros f l Q HL HQ. destruct (l_type (lu_spk u) <=? 1); [|apply wp_ret, HQ, HL]. apply wp_pass; assumption. }
  apply (K (fun s => mkLs (ls_known s) (clampz (-180) 180 (ls_azi s - 256)) (ls_ele s) (ls_dis s) (ls_cal s)) l1); [exact H1|]. intros l2 H2. apply wp_bindi.
  apply (K (fun s => mkLs (ls_known s) (ls_azi s) (clampz (-90) 90 (ls_ele s - 128)) (ls_dis s) (ls_cal s)) l2); [exact H2|]. intros l3 H3. apply wp_bindi.
  assert (KF : forall Q : unit -> Prop, Q tt -> wp (if l_type (lu_spk u) =? 2 then forP n 0 (fun i _ => chk (Z.of_nat i) 32) tt else Ret tt) Q).
  { intros Q HQ. destruct (l_type (lu_spk u) =? 2); [|apply wp_ret, HQ]. apply (wp_for (fun _ _ => True)); [exact I| |intros []; auto].
    intros j [] Hj _. apply wp_chk; [lia|exact I]. }
  apply KF. apply wp_ret. split; [|exact UN]. split; [exact H3|]. split; [exact U2|exact U3].
Qed.


(** The part of [loud_spk_ren] after the number of loudspeakers. *)
Lemma wp_ren_tail u num : lsu_inv u -> 0 <= num <= 24 ->
  wp (' (_, l) <- spk_config_3d (lu_spk u) ;;
  hd <- rd 1 ;;
  hg <- rd 1 ;;
  tr <- rd 1 ;;
  ' (e, ls) <- forE (Z.to_nat num) 0 (loudspk_one (l_type l) hd hg) (lu_ls u) ;;
  if negb (e =? 0) then
    Ret (e, mkLsu (lu_type u) (lu_brir u) l (lu_num u) hd hg tr ls (lu_comp u) (lu_wires u) (lu_screen u)
                  (lu_scr_az u) (lu_scr_l u) (lu_scr_r u) (lu_hasel u) (lu_scr_t u) (lu_scr_b u))
  else
  c <- rd 1 ;;
  Ret (0, mkLsu (lu_type u) (lu_brir u) l num hd hg tr ls c (lu_wires u) (lu_screen u)
                (lu_scr_az u) (lu_scr_l u) (lu_scr_r u) (lu_hasel u) (lu_scr_t u) (lu_scr_b u))) (fun r => lsu_inv (snd r)).
Proof.
  intros ((U1 & U2 & U3) & UN) Hn. apply wp_bindi. eapply wp_mono; [|apply wp_spk3d; exact U3]. intros [e l] HL. cbn [snd] in HL.
  apply wp_bindi, wp_rd; [lia|]. intros hd _. apply wp_bindi, wp_rd; [lia|]. intros hg _. apply wp_bindi, wp_rd; [lia|]. intros tr _.
  apply wp_bindi. eapply wp_mono; [|apply wp_forE_len; [lia|exact U1]]. intros [e1 ls] HS. cbn [snd] in HS.
  destruct (negb (e1 =? 0)).
  - apply wp_ret. split; [|exact UN]. split; [exact HS|]. split; [exact U2|exact HL].
  - apply wp_bindi, wp_rd; [lia|]. intros c _. apply wp_ret. split; [|exact Hn]. split; [exact HS|]. split; [exact U2|exact HL].
Qed.

(** The part of [local_setup] after the rendering information. *)
Lemma wp_setup_tail nsig u : lsu_inv u -> nsig <= 128 ->
  wp (nw <- rd 16 ;;
    if nsig <? nw then Ret (Er E_WIRES) else
    w <- forP (Z.to_nat nw) 0 (fun i w => v <- rd 16 ;; aset w (Z.of_nat i) v) (lu_wires u) ;;
    h <- rd 1 ;;
    let u := mkLsu (lu_type u) (lu_brir u) (lu_spk u) (lu_num u) (lu_hasdist u) (lu_hasgain u) (lu_track u) (lu_ls u)
                   (lu_comp u) w h (lu_scr_az u) (lu_scr_l u) (lu_scr_r u)
                   (lu_hasel u) (lu_scr_t u) (lu_scr_b u) in
    if negb (h =? 0) then u <- scrn_sz u ;; Ret (Ok u) else Ret (Ok u))
   (fun r => match r with Ok u' => lsu_inv u' | Er _ => True end).
Proof.
  intros ((U1 & U2 & U3) & UN) HN. apply wp_bindi, wp_rd; [lia|]. intros nw Hnw. destruct (Z.ltb_spec nsig nw); [apply wp_ret; exact I|].
  apply wp_bindi. apply (wp_for (fun _ w => length w = 128%nat)); [exact U2| |].
  { intros j w Hj Hw. apply wp_bindi, wp_rd; [lia|]. intros v _. apply wp_set; [lia|]. rewrite upd_len; lia. }
  intros w Hw. apply wp_bindi, wp_rd; [lia|]. intros h _. cbv zeta. destruct (negb (h =? 0)).
  - apply wp_bindi. unfold scrn_sz. apply wp_bindi, wp_rd; [lia|]. intros c _. apply wp_bindi.
    match goal with |- wp ?p ?Q => assert (K : forall R : Z * Z * Z -> Prop, (forall x, R x) -> wp p R) end.
    { intros R HR. destruct (c =? 0); repeat (apply wp_bindi, wp_rd; [lia|]; intros ? _); apply wp_ret, HR. }
    apply K. intros [[az l] r]. clear K. apply wp_bindi, wp_rd; [lia|]. intros hh _. apply wp_bindi.
    match goal with |- wp ?p ?Q => assert (K : forall R : Z * Z -> Prop, (forall x, R x) -> wp p R) end.
    { intros R HR. destruct (negb (hh =? 0)); repeat (apply wp_bindi, wp_rd; [lia|]; intros ? _); apply wp_ret, HR. }
    apply K. intros [t b]. apply wp_ret, wp_ret. split; [|exact UN]. split; [exact U1|]. split; [exact Hw|exact U3].
  - apply wp_ret. split; [|exact UN]. split; [exact U1|]. split; [exact Hw|exact U3].
Qed.

Lemma exec_rd_step {A} n (m : nat) v (k : Z -> prog A) s rest : n = Z.of_nat m -> (m <= 24)%nat -> 0 <= v < 2 ^ Z.of_nat m -> wf s ->
  rest_bits s = bits_of m v ++ rest -> exists s', wf s' /\ rest_bits s' = rest /\ exec (bind (rd n) k) s = exec (k v) s'.
Proof.
  intros -> Hm Hv W R. pose proof (exec_refines (rd (Z.of_nat m)) s W) as E. rewrite R in E.
  assert (E1 : runA (rd (Z.of_nat m)) (bits_of m v ++ rest) = Done (v, rest)).
  { apply (runA_rdb (Z.of_nat m) m v (fun x => Ret x) rest); [reflexivity|lia|exact Hv]. }
  rewrite E1 in E. destruct E as (s' & E & W' & R'). exists s'. split; [exact W'|]. split; [exact R'|]. rewrite exec_bind, E. reflexivity.
Qed.

Lemma exec_assoc {A B C} (p : prog A) (f : A -> prog B) (g : B -> prog C) s :
  exec (bind (bind p f) g) s = exec (bind p (fun x => bind (f x) g)) s.
Proof. rewrite !exec_bind. destruct (exec p s) as [[a s']|c|r]; [rewrite exec_bind; reflexivity|reflexivity|reflexivity]. Qed.

Lemma setup_safe brir nsig u s num rest : lsu_inv u -> nsig <= 128 -> 0 <= num <= 24 -> wf s ->
  rest_bits s = bits_of 1 0 ++ bits_of 16 num ++ rest ->
  match exec (local_setup brir nsig u) s with
  | Done (Ok u', _) => lsu_inv u'
  | Done (Er _, _) | Jmp _ => True
  | UB _ => False end.
Proof.
  intros HU HN Hn W R.
  set (u1 := mkLsu 0 (lu_brir u) (lu_spk u) (lu_num u) (lu_hasdist u) (lu_hasgain u) (lu_track u) (lu_ls u)
                 (lu_comp u) (lu_wires u) (lu_screen u) (lu_scr_az u) (lu_scr_l u) (lu_scr_r u)
                 (lu_hasel u) (lu_scr_t u) (lu_scr_b u)).
  assert (HU1 : lsu_inv u1) by exact HU.
  unfold local_setup.
  match goal with |- context [exec (bind (rd 1) ?k) s] => destruct (exec_rd_step 1 1 0 k s (bits_of 16 num ++ rest)) as (s1 & W1 & R1 & E1);
    [reflexivity|lia|cbn; lia|exact W|exact R|] end. rewrite E1. clear E1. cbv beta zeta. change (0 =? 1) with false. cbv iota. fold u1.
  rewrite exec_assoc. unfold loud_spk_ren at 1. rewrite exec_assoc.
  match goal with |- context [exec (bind (rd 16) ?k) s1] => destruct (exec_rd_step 16 16 num k s1 rest) as (s2 & W2 & R2 & E2);
    [reflexivity|lia|cbn; lia|exact W1|exact R1|] end. rewrite E2. clear E2. cbv beta.
  match goal with |- context [exec ?p s2] => assert (HW : wp p (fun r => match r with Ok u' => lsu_inv u' | Er _ => True end)) end.
  { apply wp_bindi. eapply wp_mono; [|apply wp_ren_tail; [exact HU1|exact Hn]]. intros [e u2] HU2. cbn [snd] in HU2.
    apply wp_bindi, wp_bindi. eapply wp_mono; [|apply wp_inv_quant; exact HU2]. intros u3 HU3. apply wp_ret.
    refine (wp_setup_tail nsig (mkLsu 0 0 (lu_spk u3) (lu_num u3) (lu_hasdist u3) (lu_hasgain u3) (lu_track u3) (lu_ls u3)
                 (lu_comp u3) (lu_wires u3) (lu_screen u3) (lu_scr_az u3) (lu_scr_l u3) (lu_scr_r u3)
                 (lu_hasel u3) (lu_scr_t u3) (lu_scr_b u3)) _ HN). exact HU3. }
  pose proof (wp_exec _ _ s2 HW W2) as K. destruct (exec _ s2) as [[[u'|c] s3]|c|r]; [exact (proj1 K)|exact I|exact I|exact K].
Qed.

(** ** Interaction packets: consequences and counterexamples *)
Lemma bytewise_narrow w : valid_wish w -> narrow w -> bytewise w = w.
Proof.
  intros (_ & _ & _ & V & VZ) [N NZ]. destruct w as [sg pr gs zm]. cbn [wi_groups wi_zoom] in *. unfold bytewise. cbn [wi_sign wi_preset wi_groups wi_zoom]. f_equal.
  - rewrite <- (map_id gs) at 2. apply map_ext_in. intros c Hc. rewrite Forall_forall in V, N. specialize (V c Hc). specialize (N c Hc).
    destruct c as [i w p]. destruct V as (_ & V & _). unfold byte_choice. unfold narrow_choice in N. cbn [ch_id ch_wire ch_play] in *. f_equal.
    destruct w as [w|]; [|reflexivity]. cbn. f_equal. apply Z.mod_small. unfold fits in V. lia.
  - destruct zm as [[[[a b] c] d]|]; [|reflexivity]. cbn. unfold fits in VZ. rewrite !Z.mod_small by lia. reflexivity.
Qed.

Lemma agrees_first a w : agrees_with a w -> first_agrees a w.
Proof. intros (H1 & H2 & H3). split; [exact H1|]. split; [|exact H3]. destruct (wi_groups w); [exact I|exact (Forall_inv H2)]. Qed.

Lemma packet_ok sv e w : ei_ok e -> valid_wish w -> narrow w -> (fst sv = true -> asi_ok (snd sv) /\ agrees_with (snd sv) w) ->
  forall s rest, wf s -> rest_bits s = enc_wish w ++ rest ->
  exists e' s', exec (ei_packet sv e) s = Done (Ok e', s') /\ rest_bits s' = rest /\ view_wish e' = w /\ ei_present e' = 1.
Proof.
  intros HE HV HN HA s rest W R.
  destruct (packet_run sv e w rest HE HV) as (e' & E & K1 & K2 & _).
  { intros Hp. destruct (HA Hp) as [A B]. split; [exact A|apply agrees_first, B]. }
  pose proof (exec_refines (ei_packet sv e) s W) as X. rewrite R, E in X. destruct X as (s' & X & W' & R').
  exists e', s'. rewrite bytewise_narrow in K1 by assumption. auto.
Qed.

(** Everything beyond a byte is dropped. *)
Lemma packet_bytes e a w : ei_ok e -> valid_wish w ->
  forall s rest, wf s -> rest_bits s = enc_wish w ++ rest ->
  exists e' s', exec (ei_packet (false, a) e) s = Done (Ok e', s') /\ rest_bits s' = rest /\ view_wish e' = bytewise w.
Proof.
  intros HE HV s rest W R.
  destruct (packet_run (false, a) e w rest HE HV) as (e' & E & K1 & _); [discriminate|].
  pose proof (exec_refines (ei_packet (false, a) e) s W) as X. rewrite R, E in X. destruct X as (s' & X & W' & R').
  exists e', s'. auto.
Qed.

(** A scene is known; only the first choice names a group of it. *)
Lemma packet_unknown e a w : ei_ok e -> valid_wish w -> narrow w -> asi_ok a -> first_agrees a w ->
  forall s rest, wf s -> rest_bits s = enc_wish w ++ rest ->
  exists e' s', exec (ei_packet (true, a) e) s = Done (Ok e', s') /\ rest_bits s' = rest /\ view_wish e' = w /\ ei_present e' = 1.
Proof.
  intros HE HV HN HA HF s rest W R.
  destruct (packet_run (true, a) e w rest HE HV) as (e' & E & K1 & K2 & _); [intros _; split; assumption|].
  pose proof (exec_refines (ei_packet (true, a) e) s W) as X. rewrite R, E in X. destruct X as (s' & X & W' & R').
  exists e', s'. rewrite bytewise_narrow in K1 by assumption. auto.
Qed.

(** Head of the packet up to the preset. *)
Lemma head_run pres a e w rest : ei_ok e -> valid_wish w -> wi_sign w = None ->
  (pres = true -> (a_np a <> 0 -> wi_preset w <> None) /\ Z.of_nat (length (wi_groups w)) = a_ng a) ->
  runA (ei_packet (pres, a) e) (enc_wish w ++ rest) =
  runA (r <- (r <- (if negb (b2z match wi_preset w with Some _ => true | None => false end =? 0) then
          id <- rd 5 ;;
          if pres : bool then
            n <- count_presets (Z.to_nat (a_ng a)) 0 id (a_presets a) ;;
            if n =? 0 then Ret (Er E_EI_ID) else Ret (Ok id)
          else Ret (Ok id)
        else Ret (Ok (ei_preset e))) ;;
     match r with
     | Er c => Ret (Er c)
     | Ok pid =>
       ' (_, gs) <- ei_status (pres, a) (Z.of_nat (length (wi_groups w))) (ei_groups e) ;;
       Ret (Ok (mkEi (ei_sign e) 0 (ei_signtype e) (b2z match wi_preset w with Some _ => true | None => false end) (Z.of_nat (length (wi_groups w))) pid gs
                  (ei_zoom e) (ei_zaz e) (ei_zel e) 1))
     end) ;;
    match r with
  | Er c => Ret (Er c)
  | Ok e =>
    z <- rd 1 ;;
    ' (za, ze) <- (if negb (z =? 0) then
                     a <- rd 10 ;; b <- rd 10 ;; c <- rd 9 ;; d <- rd 10 ;;
                     Ret ((u8 a, u8 b), (u8 c, u8 d))
                   else Ret (ei_zaz e, ei_zel e)) ;;
    Ret (Ok (mkEi (ei_sign e) (ei_signlen e) (ei_signtype e) (ei_mode e) (ei_num e)
                  (ei_preset e) (ei_groups e) z za ze 1))
  end)
  (match wi_preset w with None => [] | Some p => bits_of 5 p end ++ concat (map enc_choice (wi_groups w)) ++
   enc_opt (fun '(a, b, c, d) => bits_of 10 a ++ bits_of 10 b ++ bits_of 9 c ++ bits_of 10 d) (wi_zoom w) ++ rest).
Proof.
  intros (L1 & L2) (V1 & V2 & V3 & V4 & V5) HS HP. unfold ei_packet, enc_wish. rewrite HS.
  rdf. change (0 <? 0) with false. cbv iota. cbn [bind]. cbv iota.
  unfold ei_data. cbn [ei_sign ei_signlen ei_signtype ei_mode ei_num ei_preset ei_groups ei_zoom ei_zaz ei_zel ei_present].
  rewrite bind_assoc. rdf.
  set (mode := b2z match wi_preset w with Some _ => true | None => false end).
  replace (pres && negb (a_np a =? 0) && negb (mode =? 1))%bool with false.
  2:{ symmetry. destruct pres; [|reflexivity]. destruct (HP eq_refl) as (K & _).
      destruct (Z.eqb_spec (a_np a) 0); [reflexivity|]. specialize (K n). unfold mode. destruct (wi_preset w); [reflexivity|congruence]. }
  rewrite bind_assoc. rdf.
  replace (pres && negb (Z.of_nat (length (wi_groups w)) =? a_ng a))%bool with false.
  2:{ symmetry. destruct pres; [|reflexivity]. destruct (HP eq_refl) as (_ & K). rewrite K, Z.eqb_refl. reflexivity. }
  reflexivity.
Qed.

Lemma count_presets_oob : forall n i id ps bs, (i <= length ps)%nat -> (length ps < i + n)%nat -> runA (count_presets n i id ps) bs = UB UOob.
Proof.
  induction n as [|n IH]; intros i id ps bs H1 H2; [lia|]. cbn [count_presets].
  destruct (Nat.lt_ge_cases i (length ps)) as [Hi|Hi].
  - destruct (nth_error_Some_ex ps i Hi) as [p Hp]. rewrite (runA_aget ps (Z.of_nat i) p) by (try lia; rewrite Nat2Z.id; exact Hp).
    rewrite runA_bind, IH by lia. reflexivity.
  - unfold aget. destruct (Z.leb_spec 0 (Z.of_nat i)); [|lia]. rewrite Nat2Z.id. destruct (nth_error ps i) eqn:E; [|reflexivity].
    assert (i < length ps)%nat by (apply nth_error_Some; congruence). lia.
Qed.

(** More than eight groups and a preset: the preset table is read past its end. *)
Lemma packet_oob e a w p : ei_ok e -> valid_wish w -> wi_sign w = None -> asi_ok a -> 8 < a_ng a ->
  Z.of_nat (length (wi_groups w)) = a_ng a -> wi_preset w = Some p ->
  forall s rest, wf s -> rest_bits s = enc_wish w ++ rest -> exec (ei_packet (true, a) e) s = UB UOob.
Proof.
  intros HE HV HS (A1 & A2 & A3 & A4) H8 HL HP s rest W R.
  apply exec_ub; [exact W|discriminate|]. rewrite R, (head_run true a e w rest HE HV HS); [|intros _; split; [congruence|exact HL]].
  destruct HV as (_ & V2 & _). rewrite HP in *. cbn [b2z]. change (negb (1 =? 0)) with true. cbv iota. rewrite !bind_assoc. rdf.
  rewrite !bind_assoc. rewrite runA_bind, count_presets_oob by lia. reflexivity.
Qed.

Lemma countp_zero id ps : ~ In id (map p_id ps) -> countp id ps = 0.
Proof. intros H. destruct (Z.eq_dec (countp id ps) 0); [assumption|]. exfalso. apply H, countp_in. assumption. Qed.

(** A preset of the scene beyond the number of groups is refused. *)
Lemma packet_preset e a w p : ei_ok e -> valid_wish w -> wi_sign w = None -> asi_ok a -> a_ng a <= 8 ->
  Z.of_nat (length (wi_groups w)) = a_ng a -> wi_preset w = Some p ->
  ~ In p (map p_id (firstn (Z.to_nat (a_ng a)) (a_presets a))) ->
  forall s rest, wf s -> rest_bits s = enc_wish w ++ rest -> exists s', exec (ei_packet (true, a) e) s = Done (Er E_EI_ID, s').
Proof.
  intros HE HV HS (A1 & A2 & A3 & A4) H8 HL HP HI s rest W R.
  pose proof (exec_refines (ei_packet (true, a) e) s W) as X. rewrite R, (head_run true a e w rest HE HV HS) in X; [|intros _; split; [congruence|exact HL]].
  destruct HV as (_ & V2 & _). rewrite HP in *. cbn [b2z] in X. change (negb (1 =? 0)) with true in X. cbv iota in X. rewrite !bind_assoc in X.
  match type of X with agrees _ ?r => assert (E : exists l, r = Done (Er E_EI_ID, l)) end.
  { rdf. rewrite !bind_assoc. rewrite runA_bind, count_presets_run by lia. cbn [skipn]. rewrite countp_zero by exact HI. change (0 =? 0) with true. cbv iota. cbn [bind runA]. eexists. reflexivity. }
  destruct E as (l & E). rewrite E in X. destruct X as (s' & X & _). exists s'. exact X.
Qed.

Lemma countg_zero id gs : ~ In id (map g_id gs) -> countg id gs = 0.
Proof.
  intros H. unfold countg. destruct (filter (fun g => g_id g =? id) gs) as [|g l] eqn:E; [reflexivity|]. exfalso. apply H.
  assert (K : In g (filter (fun g => g_id g =? id) gs)) by (rewrite E; left; reflexivity).
  apply filter_In in K. destruct K as [K1 K2]. apply in_map_iff. exists g. split; [apply Z.eqb_eq, K2|exact K1].
Qed.

(** The first choice names no group of the scene: the error is dropped, the other choices
    are not read, and the packet counts as received. *)
Lemma packet_dropped e a c cs : let w := {| wi_sign := None; wi_preset := None; wi_groups := c :: cs; wi_zoom := None |} in
  ei_ok e -> valid_wish w -> asi_ok a -> a_np a = 0 -> Z.of_nat (length (c :: cs)) = a_ng a ->
  ~ known_group a c -> ch_play c = None ->
  forall s rest, wf s -> rest_bits s = enc_wish w ++ rest ->
  exists e' s', exec (ei_packet (true, a) e) s = Done (Ok e', s') /\ ei_present e' = 1 /\ ei_num e' = a_ng a /\
    forall i, (0 < i)%nat -> nth_error (ei_groups e') i = nth_error (ei_groups e) i.
Proof.
  intros w HE HV (A1 & A2 & A3 & A4) HP0 HL HK HO s rest W R.
  pose proof (exec_refines (ei_packet (true, a) e) s W) as X. rewrite R, (head_run true a e w rest HE HV eq_refl) in X; [|intros _; split; [congruence|exact HL]].
  destruct HV as (_ & _ & _ & V4 & _). unfold w in *. cbn [wi_preset wi_groups wi_zoom] in *. change (negb (b2z false =? 0)) with false in X. cbv iota in X.
  assert (LG : (0 < length (ei_groups e))%nat) by (destruct HE as [_ HE]; lia).
  destruct (nth_error_Some_ex (ei_groups e) 0 LG) as [g0 Hg0].
  match type of X with agrees _ ?r => assert (E : exists e' l, r = Done (Ok e', l) /\ ei_present e' = 1 /\ ei_num e' = a_ng a /\
    forall i, (0 < i)%nat -> nth_error (ei_groups e') i = nth_error (ei_groups e) i) end.
  { cbn [bind]. unfold ei_status. rewrite !bind_assoc. rewrite Nat2Z.id. cbn [length forE map concat app].
    rewrite bind_assoc. unfold ei_group_one. rewrite bind_assoc.
    change (Z.of_nat 0) with 0. rewrite (runA_aget (ei_groups e) 0 g0) by (try lia; exact Hg0).
    rewrite bind_assoc. unfold enc_choice at 1. rewrite HO. cbn [app]. rewrite <- !app_assoc.
    pose proof (Forall_inv V4) as (F1 & _ & _). rdf.
    rewrite bind_assoc. change 0 with (Z.of_nat 0) at 1. rewrite run_set by exact LG.
    rewrite bind_assoc, runA_bind, count_ids_run by lia. cbn [skipn]. rewrite countg_zero by exact HK.
    change (true && (0 + 0 =? 0))%bool with true. cbv iota. cbn [bind]. change (E_EI_ID =? 0) with false. cbv iota. cbn [bind]. cbv iota. cbn [bind].
    rdf. cbn [b2z]. change (negb (0 =? 0)) with false. cbv iota. cbn [bind]. cbv iota. cbn [runA].
    eexists _, _. split; [reflexivity|]. cbn [ei_present ei_num ei_groups]. split; [reflexivity|]. split; [exact HL|].
    intros i Hi. unfold upd. cbn [firstn app]. destruct i as [|i]; [lia|]. cbn [nth_error]. destruct (ei_groups e); [cbn in LG; lia|reflexivity]. }
  destruct E as (e' & l & E & K1 & K2 & K3). rewrite E in X. destruct X as (s' & X & _). exists e', s'. auto.
Qed.

(** A calibration gain of seven bits, as the standard writes it: 0 dB (64) becomes -31.5 dB. *)
Definition gain_bits : list bool :=
  bits_of 1 0 ++ bits_of 16 1 ++ bits_of 2 0 ++ bits_of 6 1 ++ flag false ++ flag true ++ flag false ++
  flag false ++ bits_of 7 64 ++ flag false ++ bits_of 16 0 ++ flag false.
Lemma gain_misread : exists u', runA (local_setup (Ret 0) 0 lsetup0) gain_bits = Done (Ok u', bits_of 6 0) /\
  map ls_cal (firstn 1 (lu_ls u')) = [-63].
Proof. eexists. split; vm_compute; reflexivity. Qed.

Lemma packet_safe sv e s : sv_ok sv -> (fst sv = true -> a_ng (snd sv) <= 8) -> length (ei_sign e) = 256%nat -> gs_ok (ei_groups e) -> wf s ->
  match exec (ei_packet sv e) s with
  | Done (Ok e', _) => length (ei_sign e') = 256%nat /\ gs_ok (ei_groups e') /\ (fst sv = true -> checked (snd sv) e')
  | Done (Er _, _) | Jmp _ => True
  | UB _ => False end.
Proof.
  intros A B C D W. pose proof (wp_exec _ _ s (wp_packet sv e A B C D) W) as H.
  destruct (exec (ei_packet sv e) s) as [[[e'|c] s']| |]; try exact I; try exact H. destruct H as (H & _). exact H.
Qed.

Lemma sd_exec n ds d0 rest s : wf s -> Forall valid_disp ds -> (length rest < 45)%nat -> rest_bits s = concat (map enc_disp ds) ++ rest ->
  exists s', exec (sd_run n d0) s = Done (map (disp_at ds d0) (seq 0 n), s').
Proof.
  intros W V L R. destruct (sd_run_all n ds d0 rest V L) as (bs & E).
  pose proof (exec_refines (sd_run n d0) s W) as X. rewrite R, E in X. destruct X as (s' & X & _). exists s'. exact X.
Qed.

Lemma sd_exec_any n d0 s : wf s -> exists l s', exec (sd_run n d0) s = Done (l, s') /\ length l = n.
Proof.
  intros W. destruct (sd_run_done n d0 (rest_bits s)) as (l & bs & E).
  pose proof (exec_refines (sd_run n d0) s W) as X. rewrite E in X. destruct X as (s' & X & _).
  exists l, s'. split; [exact X|]. pose proof (wp_exec _ _ s (wp_sd_run n d0) W) as H. rewrite X in H. apply H.
Qed.

Lemma setup_exec brir nsig u cicp ps track comp rest s : wf s -> lsetup_ok u -> fits 6 cicp -> (length ps <= 24)%nat -> Forall valid_pos ps -> 0 <= nsig ->
  rest_bits s = enc_setup cicp ps track comp ++ rest ->
  exists u' s', exec (local_setup brir nsig u) s = Done (Ok u', s') /\ rest_bits s' = rest /\
    lu_num u' = Z.of_nat (length ps) /\ l_type (lu_spk u') = 0 /\ l_idx (lu_spk u') = cicp /\
    map view_pos (firstn (length ps) (lu_ls u')) = map degrees ps /\
    z2b (lu_track u') = track /\ z2b (lu_comp u') = comp /\ lu_brir u' = 0 /\ lu_screen u' = 0.
Proof.
  intros W U C L V N R. destruct (setup_run brir nsig u cicp ps track comp rest U C L V N) as (u' & E & K1 & K2 & K3 & K4 & K5 & K6 & K7 & K8 & _).
  pose proof (exec_refines (local_setup brir nsig u) s W) as X. rewrite R, E in X. destruct X as (s' & X & _ & R').
  exists u', s'. auto 12.
Qed.

Lemma setup_oob_exec brir nsig u cicp ps track comp rest s : wf s -> lsetup_ok u -> fits 6 cicp -> (24 < length ps)%nat -> Z.of_nat (length ps) < 65536 -> Forall valid_pos ps ->
  rest_bits s = enc_setup cicp ps track comp ++ rest -> exec (local_setup brir nsig u) s = UB UOob.
Proof. intros W U C L L2 V R. apply exec_ub; [exact W|discriminate|]. rewrite R. apply setup_oob; assumption. Qed.
