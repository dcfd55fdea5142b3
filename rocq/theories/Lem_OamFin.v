(** * Lem_OamFin: statements about object metadata in their final form, and counterexamples *)

From Coq Require Import ZArith List Lia Bool SpecFloat.
From Verif Require Import Bits BitBuf Prog Wp Loops Leaf Frame Config Spec_Config Lem_Config Lem_ConfigFin Lem_Dmx F32 Oam Spec_Oam Spec_OamEnh
  Lem_OamSafe Lem_OamRT Lem_OamRT2 Lem_OamFrame Lem_OamDyn Lem_OamHist Lem_OamEnh Lem_MhasProps Lem_OamEnhRT Lem_OamRend.
Import ListNotations.
Open Scope Z_scope.

(** ** Accepted configurations have at most 24 objects *)
Lemma signals_nonneg ty : forall ts ns, Forall (fun k => 1 <= k) ns -> 0 <= signals_of ty ts ns.
Proof.
  induction ts as [|t ts IH]; destruct ns as [|n ns]; cbn [signals_of]; intros H; try lia.
  inversion_clear H as [|? ? H1 H2]. specialize (IH ns H2). destruct (t =? ty); lia.
Qed.

Lemma accepted_objects user u s u' s' : exec (mpegh_3da_config user u) s = Done ((0, u'), s') -> 0 <= q_obj (u_sig u') <= 24.
Proof.
  intros E. destruct (accepted_totals _ _ _ _ _ E) as (_ & _ & _ & A1 & A2 & A3 & _ & _ & _ & _ & A4).
  destruct (accepted_limits _ _ _ _ _ E) as (_ & (lim & L1 & L2 & _) & _). unfold core_channels in L2.
  assert (0 <= q_ch (u_sig u')) by (rewrite A1; apply signals_nonneg; exact A4).
  assert (0 <= q_obj (u_sig u')) by (rewrite A2; apply signals_nonneg; exact A4).
  assert (0 <= q_hoa (u_sig u')) by (rewrite A3; apply signals_nonneg; exact A4).
  assert (lim <= 24). { unfold level_limit in L1. destruct (_ || _); [injection L1 as <-; lia|]. destruct (_ || _); [injection L1 as <-; lia|].
    destruct (_ || _); [injection L1 as <-; lia|discriminate]. }
  lia.
Qed.

Lemma frames_safe user u s u' s' pw ds r : exec (mpegh_3da_config user u) s = Done ((0, u'), s') ->
  Forall are_bytes ds -> Z.of_nat (length ds) < 2 ^ 21 - 1 ->
  history pw (u_oam u') (zero_state (q_obj (u_sig u'))) ds <> UB r.
Proof.
  intros E HD HL F. pose proof (accepted_objects _ _ _ _ _ E) as HN.
  pose proof (history_ok pw (u_oam u') _ ds 128 0 (zero_state (q_obj (u_sig u'))) HD ltac:(lia) ltac:(lia) ltac:(lia) ltac:(lia)
    (zero_ok _ HN) eq_refl) as H. rewrite F in H. exact H.
Qed.

Lemma history_range pw c n ds st' : 0 <= n <= 24 -> Forall are_bytes ds -> Z.of_nat (length ds) < 2 ^ 21 - 1 ->
  history pw c (zero_state n) ds = Done st' -> in_range c n (o_dsc st') \/ o_dsc st' = o_dsc (zero_state n).
Proof.
  intros HN HD HL E.
  pose proof (history_ok pw c n ds 128 0 (zero_state n) HD ltac:(lia) ltac:(lia) ltac:(lia) ltac:(lia) (zero_ok _ HN) eq_refl) as H.
  rewrite E in H. tauto.
Qed.

Lemma history_safe pw c n ds r : 0 <= n <= 24 -> Forall are_bytes ds -> Z.of_nat (length ds) < 2 ^ 21 - 1 ->
  history pw c (zero_state n) ds <> UB r.
Proof.
  intros HN HD HL F.
  pose proof (history_ok pw c n ds 128 0 (zero_state n) HD ltac:(lia) ltac:(lia) ltac:(lia) ltac:(lia) (zero_ok _ HN) eq_refl) as H.
  rewrite F in H. exact H.
Qed.

(** ** Counterexamples *)
Definition look {A} (o : outcome ((Z * oamst) * rbuf)) (f : oamst -> A) : option A :=
  match o with Done ((0, st), _) => Some (f st) | _ => None end.
Lemma look_ex {A} o (f : oamst -> A) a : look o f = Some a -> exists st s, o = Done ((0, st), s) /\ f st = a.
Proof.
  unfold look. destruct o as [[[z st] s]|e|r]; try discriminate. destruct z; try discriminate. intros E. injection E as E.
  exists st, s. auto.
Qed.

Definition m_each : modes := mkModes Each Each Each Each Each Each.
Definition ob (az sw : Z) : obj := mkObj az 3 4 5 sw 0 0 0.

(** An azimuth of 127 steps in the second of two sub-frames. *)
Lemma far_az pw : exists c d st s v, exec (oam_payload pw c 1024 (zero_state 1)) (fresh d) = Done ((0, st), s) /\
  render_slots 2 true 0 (firstn 2 (o_pres st)) = [1; 2] /\ nth_error (d_az (o_dsc st)) 1 = Some v /\ ~ between (lit (-180) 1) (lit 180 1) v.
Proof.
  set (d := pack (concat (map (enc_frame true false) [Some (m_each, [ob 10 1]); Some (m_each, [ob 127 1])]))).
  set (c := mkOC 512 1024 1 0 1 [] 0).
  destruct (look_ex (exec (oam_payload pw c 1024 (zero_state 1)) (fresh d))
     (fun st => (render_slots 2 true 0 (firstn 2 (o_pres st)), nth_error (d_az (o_dsc st)) 1)) ([1; 2], Some (lit 381 2))) as (st & s & E & F).
  { unfold d, c. vm_compute. reflexivity. }
  injection F as F1 F2. exists c, d, st, s, (lit 381 2). split; [exact E|]. split; [exact F1|]. split; [exact F2|].
  intros (H1 & H2). vm_compute in H2. discriminate.
Qed.

(** A uniform spread sent once for all objects in the second sub-frame. *)
Lemma lost_spread pw : exists c fs st s,
  Forall (fun f => match f with None => True | Some (m, os) => length os = 2%nat /\ Forall legal_obj os /\ fair_modes true false m os end) fs /\
  oc_fl c = 512 /\ oc_ld c = 1 /\ oc_uni c = 1 /\ oc_dyn c = 0 /\ length fs = 2%nat /\
  exec (oam_payload pw c 1024 (zero_state 2)) (fresh (pack (concat (map (enc_frame true false) fs)))) = Done ((0, st), s) /\
  ~ shown true false 2 0 fs (o_raw st).
Proof.
  set (fs := [Some (m_each, [ob 10 1; ob 11 2]); Some (mkModes Each Each Each Each Fixed Each, [ob 10 5; ob 11 5])]).
  set (c := mkOC 512 1024 1 0 1 [] 0).
  destruct (look_ex (exec (oam_payload pw c 1024 (zero_state 2)) (fresh (pack (concat (map (enc_frame true false) fs)))))
     (fun st => nth_error (r_sw (o_raw st)) 2) (Some 0)) as (st & s & E & F).
  { unfold fs, c. vm_compute. reflexivity. }
  exists c, fs, st, s. split; [|split; [reflexivity|split; [reflexivity|split; [reflexivity|split; [reflexivity|split; [reflexivity|split; [exact E|]]]]]]].
  - assert (LO : forall a w, -128 <= a < 128 -> 0 <= w < 128 -> legal_obj (ob a w)).
    { intros a w Ha Hw. unfold legal_obj. cbn. lia. }
    constructor; [|constructor; [|constructor]]; (split; [reflexivity|]; split; [repeat constructor; apply LO; lia|]).
    + unfold fair_modes. cbn. auto 10.
    + unfold fair_modes. cbn. split; [exact I|]. split; [exact I|]. split; [exact I|]. split; [exact I|]. split; [|auto].
      intros x y [<-|[<-|[]]] [<-|[<-|[]]]; reflexivity.
  - intros (_ & H & _). destruct (H 0%nat (ob 10 5) eq_refl) as (_ & _ & _ & _ & H5 & _). cbn [Nat.mul Nat.add] in H5.
    rewrite F in H5. discriminate.
Qed.

(** Absolute updates: with a spread depth, and with a dynamic object priority. *)
Lemma abs_depth pw : exists c o st s, oc_fl c = 1024 /\ oc_ld c = 1 /\ oc_uni c = 0 /\ oc_dyn c = 0 /\ legal_obj o /\
  exec (oam_payload pw c 1024 (zero_state 1)) (fresh (pack (false :: enc_dynamic true (enc_absolute false false) [Some o]))) = Done ((0, st), s) /\
  ~ object_at false false (o_raw st) 0 o.
Proof.
  set (c := mkOC 1024 1024 1 0 0 [] 0). set (o := mkObj 10 3 4 5 6 7 8 0).
  destruct (look_ex (exec (oam_payload pw c 1024 (zero_state 1)) (fresh (pack (false :: enc_dynamic true (enc_absolute false false) [Some o]))))
     (fun st => nth_error (r_sd (o_raw st)) 0) (Some 16)) as (st & s & E & F).
  { unfold c, o. vm_compute. reflexivity. }
  exists c, o, st, s. do 4 (split; [reflexivity|]). split; [unfold legal_obj; cbn; lia|]. split; [exact E|].
  intros (_ & _ & _ & _ & _ & H & _). destruct (H eq_refl) as (_ & H2). change (nth_error (r_sd (o_raw st)) 0 = Some 8) in H2.
  rewrite F in H2. discriminate.
Qed.
Lemma abs_priority pw : exists c o st s, oc_fl c = 1024 /\ oc_ld c = 1 /\ oc_uni c = 1 /\ oc_dyn c = 1 /\ legal_obj o /\
  exec (oam_payload pw c 1024 (zero_state 1)) (fresh (pack (false :: enc_dynamic true (enc_absolute true true) [Some o]))) = Done ((0, st), s) /\
  ~ object_at true true (o_raw st) 0 o.
Proof.
  set (c := mkOC 1024 1024 1 1 1 [] 0). set (o := mkObj 10 3 4 5 6 7 8 5).
  destruct (look_ex (exec (oam_payload pw c 1024 (zero_state 1)) (fresh (pack (false :: enc_dynamic true (enc_absolute true true) [Some o]))))
     (fun st => nth_error (r_pri (o_raw st)) 0) (Some 0)) as (st & s & E & F).
  { unfold c, o. vm_compute. reflexivity. }
  exists c, o, st, s. do 4 (split; [reflexivity|]). split; [unfold legal_obj; cbn; lia|]. split; [exact E|].
  intros (_ & _ & _ & _ & _ & _ & H). specialize (H eq_refl). change (nth_error (r_pri (o_raw st)) 0 = Some 5) in H.
  rewrite F in H. discriminate.
Qed.

(** A second sub-frame that moves the object of the first by one step. *)
Definition step1 : delta := mkDelta 2 (Some 1) None None None None None None None.
Lemma diff_old pw : exists c st s, oc_fl c = 512 /\ oc_ld c = 1 /\ oc_uni c = 1 /\ oc_dyn c = 0 /\
  exec (oam_payload pw c 1024 (zero_state 1))
    (fresh (pack ((true :: true :: enc_intra true false m_each [ob 100 1]) ++ (true :: false :: enc_dynamic false (enc_delta true false) [Some step1]))))
    = Done ((0, st), s) /\
  nth_error (r_az (o_raw st)) 0 = Some 100 /\ nth_error (r_az (o_raw st)) 1 = Some 1.
Proof.
  set (c := mkOC 512 1024 1 0 1 [] 0).
  destruct (look_ex (exec (oam_payload pw c 1024 (zero_state 1))
    (fresh (pack ((true :: true :: enc_intra true false m_each [ob 100 1]) ++ (true :: false :: enc_dynamic false (enc_delta true false) [Some step1])))))
     (fun st => (nth_error (r_az (o_raw st)) 0, nth_error (r_az (o_raw st)) 1)) (Some 100, Some 1)) as (st & s & E & F).
  { unfold c. vm_compute. reflexivity. }
  injection F as F1 F2. exists c, st, s. do 4 (split; [reflexivity|]). auto.
Qed.

(** Metadata in the first sub-frame of one access unit, none in the next access unit: the
    renderer takes slot 2, which was never written. *)
Lemma stale_slot pw : exists c d1 d2 st1 s1 st2 s2, oc_fl c = 512 /\
  exec (oam_payload pw c 1024 (zero_state 1)) (fresh d1) = Done ((0, st1), s1) /\
  exec (oam_payload pw c 1024 st1) (fresh d2) = Done ((0, st2), s2) /\
  nth_error (d_az (o_dsc st2)) 0 = Some (az_degrees 100) /\
  render_slots 2 true 0 (firstn 2 (o_pres st2)) = [2; 2] /\
  nth_error (d_az (o_dsc st2)) 1 = Some (az_degrees 0).
Proof.
  set (c := mkOC 512 1024 1 0 1 [] 0).
  set (d1 := pack (concat (map (enc_frame true false) [Some (m_each, [ob 100 1]); None]))).
  set (d2 := pack (concat (map (enc_frame true false) [None; None]))).
  destruct (look_ex (exec (oam_payload pw c 1024 (zero_state 1)) (fresh d1))
     (fun st1 => look (exec (oam_payload pw c 1024 st1) (fresh d2)) (fun st2 => 
       (nth_error (d_az (o_dsc st2)) 0, render_slots 2 true 0 (firstn 2 (o_pres st2)), nth_error (d_az (o_dsc st2)) 1)))
     (Some (Some (az_degrees 100), [2; 2], Some (az_degrees 0)))) as (st1 & s1 & E1 & F).
  { unfold c, d1, d2. vm_compute. reflexivity. }
  apply look_ex in F. destruct F as (st2 & s2 & E2 & F). injection F as F1 F2 F3.
  exists c, d1, d2, st1, s1, st2, s2. split; [reflexivity|]. auto 10.
Qed.

(** Enhanced frames: a sector given by a box, then a predefined one, then the frame says to
    keep; the flag read is that of no frame sent before. *)
Definition sflags (st : enhst) : option (Z * Z) :=
  match nth_error (e_exc st) 0 with
  | Some x => match nth_error (ex_sec x) 0 with Some s => Some (sc_pre s, sc_idx s) | None => None end
  | None => None end.
Definition ecfg0 : ecfg := mkEcfg false false false (fun _ => false) (fun _ => false).
Definition enhc0 : enhc := mkEn 0 0 1 0 0 0 (repeat 0 24) (repeat 0 24) (repeat 0 24) 0.
Definition one_obj (u : upd (list sect)) : list eobj := [mkEobj 0 (New 0) (New 0) u].
Lemma keep_flag : exists st1 s1 st2 s2,
  exec (enh_frame enhc0 1 0 zero_enh) (fresh (pack (enc_enh ecfg0 false Keep Keep (one_obj (New [Predef 5]))))) = Done (st1, s1) /\
  exec (enh_frame enhc0 1 0 st1) (fresh (pack (enc_enh ecfg0 false Keep Keep (one_obj Keep)))) = Done (st2, s2) /\
  sflags st1 = Some (1, 5) /\ sflags st2 = Some (0, 5).
Proof.
  set (d1 := pack (enc_enh ecfg0 false Keep Keep (one_obj (New [Predef 5])))).
  set (d2 := pack (enc_enh ecfg0 false Keep Keep (one_obj Keep))).
  destruct (exec (enh_frame enhc0 1 0 zero_enh) (fresh d1)) as [[st1 s1]|e|r] eqn:E1; [|vm_compute in E1; discriminate|vm_compute in E1; discriminate].
  destruct (exec (enh_frame enhc0 1 0 st1) (fresh d2)) as [[st2 s2]|e|r] eqn:E2.
  - exists st1, s1, st2, s2. split; [reflexivity|]. split; [exact E2|]. 
    vm_compute in E1. injection E1 as <- <-. vm_compute in E2. injection E2 as <- <-. split; vm_compute; reflexivity.
  - vm_compute in E1. injection E1 as <- <-. vm_compute in E2. discriminate.
  - vm_compute in E1. injection E1 as <- <-. vm_compute in E2. discriminate.
Qed.

(** Earcons *)
Definition two_ears : ears := mkEars [10; 50] [0; 0] [3; 3] [32; 32] 0.
Lemma ears_same pw : exists st1 st2, earcon_md pw 1 two_ears (zero_state 2) = Ret (st1, st2) /\
  nth_error (d_az (o_dsc st1)) 0 = Some (g_az 10) /\ nth_error (d_az (o_dsc st1)) 1 = Some (g_az 10).
Proof.
  destruct (earcon_all pw two_ears 1 (zero_state 2) 10 0 3 32 (2 ^ 31) eq_refl eq_refl eq_refl eq_refl ltac:(lia)) as (st1 & st2 & E & _ & _ & P).
  { apply zero_sized. lia. }
  exists st1, st2. split; [exact E|]. split; apply P; lia.
Qed.

Lemma earcon_oob pw e : forall n b w d, wlen w 96 -> dlen d 96 -> length (ea_dist e) = 128%nat -> length (ea_el e) = 128%nat ->
  length (ea_az e) = 128%nat -> length (ea_gain e) = 128%nat -> (b <= 96)%nat -> (96 < b + n)%nat ->
  forP n b (earcon_body pw e) (w, d) = Undef UOob.
Proof.
  induction n as [|n IH]; intros b w d HW HD D1 D2 D3 D4 Hb Hn; [lia|]. cbn [forP].
  destruct (has_nth (ea_dist e) 0) as (dist & E3); [lia|]. destruct (has_nth (ea_el e) 0) as (el & E2); [lia|].
  destruct (has_nth (ea_az e) 0) as (az & E1); [lia|]. destruct (has_nth (ea_gain e) 0) as (g & E4); [lia|].
  destruct (Nat.eq_dec b 96) as [->|N].
  - unfold earcon_body. cbv zeta. change 0 with (Z.of_nat 0) at 1. rewrite (aget0 _ _ _ E3). cbn [bind].
    pose proof HW as ((L1 & L2 & L3 & L4) & _). unfold aset. rewrite L3. reflexivity.
  - destruct (earcon_loop pw e az el dist g E1 E2 E3 E4 1 b w d HW HD ltac:(lia)) as (w' & d' & Er & HW' & HD' & _).
    cbn [forP] in Er. destruct (earcon_body pw e b (w, d)) as [[w1 d1]|x|x|?|?|?|?]; cbn [bind] in *; try discriminate.
    injection Er as -> ->. apply IH; auto; lia.
Qed.

Lemma earcon_many pw e m st S : length (ea_dist e) = 128%nat -> length (ea_el e) = 128%nat ->
  length (ea_az e) = 128%nat -> length (ea_gain e) = 128%nat -> 96 <= m -> sized S st -> earcon_md pw m e st = Undef UOob.
Proof.
  intros D1 D2 D3 D4 Hm (S1 & S2 & S3 & S4 & S5). unfold earcon_md. cbv zeta.
  match goal with |- context [forP _ 0 ?f _] => change f with (earcon_body pw e) end.
  rewrite (earcon_oob pw e (Z.to_nat (m + 1)) 0 (o_raw st) (o_dsc st)); auto; lia.
Qed.

Lemma ears_disturb pw : exists st1 st2, earcon_md pw 0 two_ears (zero_state 1) = Ret (st1, st2) /\
  nth_error (r_az (o_raw (zero_state 1))) 0 = Some 0 /\ nth_error (r_az (o_raw st2)) 0 = Some 10.
Proof. do 2 eexists. split; [reflexivity|]. split; reflexivity. Qed.

(** ** Final forms *)
Lemma intra_exec pw c uni dyn m os st s rest : wf s -> rest_bits s = true :: enc_intra uni dyn m os ++ rest ->
  oc_ld c <> 0 -> oc_fl c = 1024 -> oc_uni c = flag uni -> oc_dyn c = flag dyn ->
  o_n st = Z.of_nat (length os) -> (0 < length os <= 24)%nat -> sized (2 ^ 31 - 1024) st ->
  Forall legal_obj os -> fair_modes uni dyn m os ->
  exists st' s', exec (oam_payload pw c 1024 st) s = Done ((0, st'), s') /\ rest_bits s' = rest /\
    forall i o, nth_error os i = Some o ->
      object_at uni dyn (o_raw st') i o /\ placed_at pw uni dyn (o_dsc st') i o.
Proof.
  intros W R. intros. destruct (payload_intra pw c uni dyn m os st rest) as (st' & E & P); auto.
  rewrite <- R in E. destruct (exec_of_run _ _ _ _ W E) as (s' & E' & _ & R'). exists st', s'. auto.
Qed.

Lemma subframes_exec pw c uni dyn n fs st s rest : wf s -> rest_bits s = concat (map (enc_frame uni dyn) fs) ++ rest ->
  oc_ld c <> 0 -> (oc_fl c = 256 \/ oc_fl c = 512) -> oc_uni c = flag uni -> oc_dyn c = flag dyn ->
  o_n st = Z.of_nat n -> (0 < n <= 24)%nat -> sized (2 ^ 31 - 1024) st ->
  oc_fl c * Z.of_nat (length fs) = 1024 -> Forall (frame_ok uni dyn n) fs ->
  exists st' s', exec (oam_payload pw c 1024 st) s = Done ((0, st'), s') /\ rest_bits s' = rest /\
    shown uni dyn n 0 fs (o_raw st') /\ firstn (length fs) (o_pres st') = present fs.
Proof.
  intros W R. intros. destruct (payload_subframes pw c uni dyn n fs st rest) as (st' & E & P); auto.
  rewrite <- R in E. destruct (exec_of_run _ _ _ _ W E) as (s' & E' & _ & R'). exists st', s'. auto.
Qed.

Lemma absolute_exec pw c us st s rest : wf s -> rest_bits s = false :: enc_dynamic true (enc_absolute true false) us ++ rest ->
  oc_ld c <> 0 -> oc_fl c = 1024 -> oc_uni c = 1 -> oc_dyn c = 0 -> no_fix (o_fix st) ->
  o_n st = Z.of_nat (length us) -> (length us <= 24)%nat -> sized (2 ^ 31 - 1024) st -> length (o_has st) = 96%nat ->
  Forall (fun u => match u with None => True | Some o => legal_obj o end) us ->
  exists st' s', exec (oam_payload pw c 1024 st) s = Done ((0, st'), s') /\ rest_bits s' = rest /\
    (forall i o, nth_error us i = Some (Some o) ->
       object_at true false (o_raw st') i o /\ placed_at pw true false (o_dsc st') i o) /\
    (forall i, nth_error us i = Some None -> row (o_raw st') i = row (o_raw st) i).
Proof.
  intros W R. intros. destruct (payload_absolute pw c us st rest) as (st' & E & P); auto.
  rewrite <- R in E. destruct (exec_of_run _ _ _ _ W E) as (s' & E' & _ & R'). exists st', s'. auto.
Qed.

Lemma diff_exec pw c uni dyn us st s rest : wf s -> rest_bits s = false :: enc_dynamic false (enc_delta uni dyn) us ++ rest ->
  oc_ld c <> 0 -> oc_fl c = 1024 -> oc_uni c = flag uni -> oc_dyn c = flag dyn -> no_fix (o_fix st) ->
  o_n st = Z.of_nat (length us) -> (length us <= 24)%nat -> sized (2 ^ 31 - 1024) st -> length (o_has st) = 96%nat ->
  Forall (fun u => match u with None => True | Some t => legal_delta t end) us ->
  (forall i, (i < 96)%nat -> roomy (row (o_raw st) i)) ->
  exists st' s', exec (oam_payload pw c 1024 st) s = Done ((0, st'), s') /\ rest_bits s' = rest /\
    (forall i t o, nth_error us i = Some (Some t) -> object_at uni dyn (o_raw st) i o ->
       object_at uni dyn (o_raw st') i (moved uni dyn t o) /\
       (legal_obj (moved uni dyn t o) -> placed_at pw uni dyn (o_dsc st') i (moved uni dyn t o))) /\
    (forall i, nth_error us i = Some None -> row (o_raw st') i = row (o_raw st) i).
Proof.
  intros W R. intros. destruct (payload_diff pw c uni dyn us st rest) as (st' & E & P); auto.
  rewrite <- R in E. destruct (exec_of_run _ _ _ _ W E) as (s' & E' & _ & R'). exists st', s'. auto.
Qed.

Lemma enh_exec c k indep gx gd xs st s rest : wf s -> rest_bits s = enc_enh k indep gx gd xs ++ rest ->
  cfg_is c k -> shape st -> (0 < length xs <= 24)%nat ->
  legal_upd indep (legal_sects (k_only k 0)) gx -> legal_upd indep seven_bits gd -> legal_objs k indep 0 xs ->
  exists st' s', exec (enh_frame c (Z.of_nat (length xs)) (flag indep) st) s = Done (st', s') /\ rest_bits s' = rest /\
    (forall j x, nth_error xs j = Some x -> obj_shows k st j x st') /\
    (k_cexc k = true -> exists old new, nth_error (e_exc st) 0 = Some old /\ nth_error (e_exc st') 0 = Some new /\
       shows_exc (k_only k 0) old gx new) /\
    (k_diff k = true -> k_cdiff k = true -> exists old new, nth_error (e_diff st) 0 = Some old /\ nth_error (e_diff st') 0 = Some new /\
       shows7 old gd new).
Proof.
  intros W R. intros. destruct (enh_read c k indep gx gd xs st rest) as (st' & E & P); auto.
  rewrite <- R in E. destruct (exec_of_run _ _ _ _ W E) as (s' & E' & _ & R'). exists st', s'. auto.
Qed.

Lemma enh_shape st : enh_ok st -> shape st.
Proof.
  intros (C & (E & X) & (PE & PX) & (F & _) & (PF & _) & (V & _) & (PV & _)).
  assert (M : forall l, Forall ex_ok l -> Forall xshape l).
  { intros l H. eapply Forall_impl; [|exact H]. intros x (A & B & _). split; auto. }
  unfold shape. auto 12.
Qed.
