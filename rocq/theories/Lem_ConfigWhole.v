(** * Lem_ConfigWhole: memory safety of the whole configuration parser

    Undefined behaviour is confined to two places: the object tables when the groups
    announce more than 24 objects, and a downmix extension. *)

From Coq Require Import ZArith List Lia Bool.
From Verif Require Import Bits BitBuf Prog Asi Escape Wp Wlp Cicp Hoa Mhas Config Leaf Spec_Config
  Lem_Config Lem_ConfigSafe Lem_Hoa Lem_HoaMat Spec_Asi Lem_Asi Lem_ConfigMem Lem_ConfigFrame.
Import ListNotations.
Open Scope Z_scope.

Definition counted (j : nat) (g : sigs) : Prop :=
  0 <= q_obj g /\ 0 <= q_hoa g /\ 0 <= q_gobj g <= Z.of_nat j /\ 0 <= q_gch g <= Z.of_nat j.

Lemma wp_sig_group_cfg i u cn :
  (i < 16)%nat -> cfg_ok u -> counted i (u_sig u) -> 0 <= cn <= Z.of_nat i ->
  wp (sig_group i (u, cn)) (fun r => fst r = 0 ->
    cfg_ok (fst (snd r)) /\ counted (S i) (u_sig (fst (snd r))) /\ 0 <= snd (snd r) <= Z.of_nat (S i) /\
    q_num (u_sig (fst (snd r))) = q_num (u_sig u) /\ u_ref (fst (snd r)) = u_ref u).
Proof.
  intros Hi C (B1 & B2 & B3 & B4) Hc. assert (C' := C). destruct C' as [C1 C2 C3 C4 C5 C6 C7 C8 C9 C10].
  assert (D := C3). destruct D as [D1 D2 D3 D4 D5 D6 D7 D8 D9 D10 D11 D12 D13 D14 D15 D16 D17].
  assert (S := C1). destruct S as [S1 S2 S3 S4 S5 S6 S7]. unfold sig_group. cbv zeta.
  wp1. wp1. apply wp_bindi, wp_asetL; [lia|]. intros tys Ht _.
  apply wp_bindi, wp_esc; try lia. intros ns Hns.
  apply wp_bindi, wp_asetL; [lia|]. intros nss Hn _.
  assert (SO : forall g', q_type g' = tys -> q_nsig g' = nss -> q_differs g' = q_differs (u_sig u) ->
    q_prio g' = q_prio (u_sig u) -> q_fixed g' = q_fixed (u_sig u) -> q_lay g' = q_lay (u_sig u) -> sig_ok g').
  { intros g' E1 E2 E3 E4 E5 E6. constructor; rewrite ?E1, ?E2, ?E3, ?E4, ?E5, ?E6; auto; lia. }
  destruct (v =? 3).
  { destruct (24 <? _); cbn; [discriminate|]. intros _. split; [|split; [unfold counted; cbn; lia|split; [lia|split; reflexivity]]].
    constructor; cbn; auto. constructor; cbn; auto; lia. }
  destruct (v =? 2).
  { wp1. wp1. wp1. apply (wp_mono _ (fun _ => True)).
    - cbn. intros _ _ _. split; [|split; [unfold counted; cbn; lia|split; [lia|split; reflexivity]]]. constructor; cbn; auto.
    - destruct (negb _); [apply wp_skip; [lia|exact I]|exact I]. }
  destruct (v =? 1).
  { destruct (24 <? _); cbn; [discriminate|]. intros _. split; [|split; [unfold counted; cbn; lia|split; [lia|split; reflexivity]]]. constructor; cbn; auto. }
  destruct (v =? 0); [|cbn; discriminate].
  destruct (_ || _); [cbn; discriminate|].
  wp1. wp1. apply wp_bindi, wp_asetL; [cbn; lia|]. cbn [q_differs q_lay s_q_ch s_q_gch s_q_nsig s_q_type s_q_differs]. intros dfs Hd _.
  destruct (v0 =? 1).
  - apply wp_bindi, wp_aget; [lia|]. intros l Hl.
    assert (HLl := nth_error_Forall _ _ _ _ S7 Hl).
    apply wp_bindi. eapply wp_mono; [|apply wp_group_layout; [exact HLl|apply C2]].
    intros [e l'] [D K]. cbn [fst snd] in *. apply wp_bindi, wp_asetL; [lia|].
    intros ls Hls Els. cbn. intros ->. specialize (K eq_refl). split; [|split; [unfold counted; cbn; lia|split; [lia|split; reflexivity]]].
    constructor; cbn; auto. constructor; cbn; try lia.
    + rewrite Els. apply Forall_aset; auto.
  - cbn. intros _. split; [|split; [unfold counted; cbn; lia|split; [lia|split; reflexivity]]]. constructor; cbn; auto. constructor; cbn; auto; lia.
Qed.

Definition kept (t u2 : ucfg) : Prop :=
  cfg_ok u2 /\ groups_ok (u_sig u2) /\ q_num (u_sig u2) = q_num (u_sig t) /\ u_ref u2 = u_ref t.
Lemma keep_if t (b : bool) (f : ucfg -> ucfg) u : (forall u', kept t u' -> kept t (f u')) -> kept t u ->
  kept t (if b then f u else u).
Proof. destruct b; auto. Qed.
Lemma keep_hoap t u : kept t u -> kept t (s_u_hoap u 1).
Proof. intros (C & H). split; [destruct C; constructor; auto|exact H]. Qed.
Lemma keep_oamp t u : kept t u -> kept t (s_u_oamp u 1).
Proof. intros (C & H). split; [destruct C; constructor; auto|exact H]. Qed.
Lemma keep_chp t u : kept t u -> kept t (s_u_chp u 1).
Proof. intros (C & H). split; [destruct C; constructor; auto|exact H]. Qed.

Lemma wp_signals_cfg u user (Q : Z * ucfg -> Prop) : cfg_ok u ->
  (forall u', cfg_ok u' -> groups_ok (u_sig u') -> 1 <= q_num (u_sig u') <= 16 -> u_ref u' = u_ref u -> Q (0, u')) ->
  (forall e u', e <> 0 -> Q (e, u')) -> wp (signals u user) Q.
Proof.
  intros C HQ HE. assert (C' := C). destruct C' as [C1 C2 C3 C4 C5 C6 C7 C8 C9 C10].
  assert (S := C1). destruct S as [S1 S2 S3 S4 S5 S6 S7].
  unfold signals. wp1. wp1. cbv zeta.
  destruct (Z.ltb_spec 16 (v + 1)); [apply wp_ret, HE; discriminate|].
  destruct (_ && _); [apply wp_ret, HE; discriminate|]. wp1.
  apply (wp_forE (fun j t => cfg_ok (fst t) /\ counted j (u_sig (fst t)) /\ 0 <= snd t <= Z.of_nat j /\
     q_num (u_sig (fst t)) = v + 1 /\ u_ref (fst t) = u_ref u) (fun e _ => e <> 0)).
  - cbn. split; [|split; [unfold counted; cbn; lia|split; [lia|split; reflexivity]]]. constructor; cbn; auto. constructor; cbn; auto.
  - intros j [t cn] Hj (A1 & A2 & A3 & A4 & A5). eapply wp_mono; [|apply wp_sig_group_cfg; auto; lia].
    intros [e [t' cn']] K. cbn [fst snd] in *. destruct (Z.eqb_spec e 0); auto.
    destruct (K e0) as (K1 & K2 & K3 & K4 & K5). split; [auto|]. split; [auto|]. split; [auto|]. split; congruence.
  - intros [t cn] (A1 & (B1 & B2 & B3 & B4) & A3 & A4 & A5). cbn [negb Z.eqb fst snd] in *.
    destruct (_ && _); [apply wp_ret, HE; discriminate|].
    assert (G : groups_ok (u_sig t)) by (constructor; lia).
    match goal with |- wp (Ret (0, ?x)) _ => set (u2 := x) end.
    assert (K : kept t u2).
    { subst u2. apply (keep_if t _ (fun u => s_u_chp u 1)); [intros; apply keep_chp; auto|].
      apply (keep_if t _ (fun u => s_u_oamp u 1)); [intros; apply keep_oamp; auto|].
      apply (keep_if t _ (fun u => s_u_hoap u 1)); [intros; apply keep_hoap; auto|].
      destruct G as [G1 G2 G3 G4]. destruct A1 as [X1 X2 X3 X4 X5 X6 X7 X8 X9 X10]. destruct X1.
      split; [constructor; cbn; auto; constructor; cbn; auto|]. split; [constructor; cbn; auto|]. split; reflexivity. }
    destruct K as (K1 & K2 & K3 & K4). clearbody u2.
    apply wp_ret, HQ; [exact K1|exact K2|lia|congruence].
  - intros e [t cn] He. destruct (Z.eqb_spec e 0); [congruence|]. intros _. apply wp_ret, HE. exact He.
Qed.

(** Completed runs keep the reader well-formed. *)
Lemma wlp_wf {A} (p : prog A) (Q : A -> Prop) s a s' : wlp p Q -> wf s -> exec p s = Done (a, s') -> wf s' /\ Q a.
Proof.
  intros W F E. assert (F' := F). destruct F' as (F1 & F2 & F3 & F4 & F5).
  destruct (exec_wlp p Q s a s' W ltac:(lia) E) as (K1 & K2 & K3 & K4).
  assert (K5 := exec_wlp_nofuel p Q s W ltac:(lia) ltac:(lia)). rewrite E in K5.
  split; [|exact K1]. unfold wf. rewrite K2. unfold bitpos in *. repeat split; auto; lia.
Qed.

(** ** Downmix extensions leave the rest of the configuration alone *)
Lemma wlp_esc n1 n2 n3 (Q : Z -> Prop) :
  0 <= n1 <= 24 -> 0 <= n2 <= 24 -> 0 <= n3 <= 24 ->
  (forall v, 0 <= v -> Q v) -> wlp (read_escape n1 n2 n3) Q.
Proof. intros. apply wp_wlp, wp_esc; auto. Qed.

Lemma wlp_any {A} (p : prog A) : wlp p (fun _ => True) -> forall (Q : A -> Prop), (forall a, Q a) -> wlp p Q.
Proof. intros H Q HQ. eapply wlp_mono; [|exact H]. auto. Qed.

Lemma wlp_forE {S} (body : nat -> S -> prog (Z * S)) (Q : Z * S -> Prop) : forall n i s,
  (forall j t, wlp (body j t) (fun _ => True)) -> (forall r, Q r) -> wlp (forE n i body s) Q.
Proof.
  induction n as [|n IH]; intros i s HB HQ; cbn [forE]; [apply wlp_ret, HQ|].
  apply wlp_bindi, wlp_any; [apply HB|]. intros [e t]. destruct (e =? 0); [apply IH; auto|apply wlp_ret, HQ].
Qed.

Lemma wlp_rd_bytes n buf : wlp (rd_bytes n buf) (fun _ => True).
Proof.
  unfold rd_bytes. apply (wlp_for (fun _ => True)); auto. intros j t _.
  apply wlp_bindi, wlp_rd; [lia|]. intros. apply wlp_aset; auto.
Qed.

Lemma wlp_dmx_one l m : wlp (dmx_one l m) (fun _ => True).
Proof.
  unfold dmx_one. cbv zeta. apply wlp_bindi, wlp_esc; try lia. intros t Ht.
  destruct (16 <=? t); [exact I|]. apply wlp_bindi, wlp_aset. intros _.
  apply wlp_bindi, wlp_aget. intros g0 _ _. apply wlp_bindi.
  apply (wlp_for (fun _ => True)); auto.
  { intros j b _. apply wlp_bindi, wlp_rd; [lia|]. intros. apply wlp_aset; auto. }
  intros g1 _. apply wlp_bindi, wlp_aset. intros _. apply wlp_bindi, wlp_esc; try lia. intros len Hlen.
  apply wlp_bindi, wlp_aset. intros _. apply wlp_bindi, wlp_aget. intros b0 _ _.
  apply wlp_bindi, wlp_any; [apply wlp_rd_bytes|]. intros b1. apply wlp_bindi.
  apply wlp_any.
  2:{ intros b2. apply wlp_bindi, wlp_aset. intros _. exact I. }
  destruct (len mod 8 =? 0); [exact I|].
  apply wlp_bindi, wlp_rd; [apply Z.mod_pos_bound; lia|]. intros. apply wlp_aset; auto.
Qed.

Lemma wlp_dmx_entry cicp i x : wlp (dmx_entry cicp i x) (fun _ => True).
Proof.
  unfold dmx_entry. cbv zeta. do 2 (apply wlp_bindi, wlp_rd; [lia|]; intros ? ?).
  apply wlp_bindi, wlp_aget. intros m0 _ _.
  destruct (_ || _); [apply wlp_bindi, wlp_aset; intros; exact I|].
  apply wlp_bindi, wlp_any.
  - destruct (v0 =? 1).
    + apply wlp_bindi, wlp_rd; [lia|]. intros lay _. apply wlp_bindi, wlp_esc; try lia. intros t Ht.
      destruct (8 <? t + 1); [exact I|]. apply wlp_forE; auto. intros. apply wlp_dmx_one.
    + destruct (v0 =? 0); [|exact I]. apply wlp_bindi, wlp_rd; [lia|]. intros; exact I.
  - intros [e m]. apply wlp_bindi, wlp_aset. intros _.
    destruct (negb (e =? 0)); [exact I|]. destruct (20 <? dm_lay m); exact I.
Qed.

Lemma wlp_dmx_config cicp x : wlp (dmx_config cicp x) (fun _ => True).
Proof.
  unfold dmx_config. cbv zeta. apply wlp_bindi, wlp_rd; [lia|]. intros t Ht. destruct (t =? 3); [exact I|].
  apply wlp_bindi, wlp_any.
  - destruct ((t =? 0) || (t =? 2)); [|exact I]. apply wlp_bindi, wlp_rd; [lia|]. intros p Hp.
    apply wlp_bindi, wlp_any.
    + destruct (p =? 0); [|exact I]. apply wlp_bindi, wlp_rd; [lia|]. intros a _. destruct (negb (a =? 0)); exact I.
    + intros [e y]. destruct (negb (e =? 0)); [exact I|]. apply wlp_bindi, wlp_rd; [lia|]. intros; exact I.
  - intros [e y]. destruct (negb (e =? 0)); [exact I|]. destruct ((t =? 1) || (t =? 2)); [|exact I].
    apply wlp_bindi, wlp_rd; [lia|]. intros n Hn. destruct (6 <? n); [exact I|].
    apply wlp_forE; auto. intros. apply wlp_dmx_entry.
Qed.

Lemma wlp_framed_lax {S} len (p : prog (Z * S)) (Q : Z * S -> Prop) : wlp p Q -> wlp (framed_lax len p) Q.
Proof.
  intros H. unfold framed_lax. apply wlp_bindi, wlp_avail. intros c0 _.
  apply wlp_bindi. eapply wlp_mono; [|exact H]. intros [e s] H1.
  destruct (Z.eqb_spec e 0) as [->|]; cbn [negb]; [|exact H1].
  apply wlp_bindi, wlp_avail. intros c1 _.
  destruct (Z.ltb_spec (c0 - c1) (len * 8)); [|exact H1].
  apply wlp_bindi, wlp_skip; [lia|exact H1].
Qed.

(** One extension: well-formed afterwards. *)
Lemma wlp_config_ext_one cicp j u : (j < 5)%nat -> cfg_ok u -> q_num (u_sig u) <= 31 ->
  wlp (config_ext_one cicp j u) (fun r => cfg_ok (snd r) /\ q_num (u_sig (snd r)) = q_num (u_sig u)).
Proof.
  intros Hj C Hn. unfold config_ext_one. cbv zeta.
  apply wlp_bindi, wlp_esc; try lia. intros ty Hty. apply wlp_bindi, wlp_esc; try lia. intros len Hlen.
  assert (C' := C). destruct C' as [C1 C2 C3 C4 C5 C6 C7 C8 C9 C10].
  assert (D := C3). destruct D as [D1 D2 D3 D4 D5 D6 D7 D8 D9 D10 D11 D12 D13 D14 D15 D16 D17].
  apply wlp_bindi, wp_wlp, wp_asetL; [lia|]. intros tys Ht _.
  destruct (Z.eq_dec ty 1) as [->|Hty1].
  2:{ apply wp_wlp. eapply wp_mono; [|apply (wp_config_ext_body cicp j u ty len Hj C Hn Hlen Hty1 tys); lia].
      intros r H. exact H. }
  destruct (1536 <? len). { split; [|reflexivity]. cfg_con. dec_con. }
  apply wlp_framed_lax. apply wlp_bindi, wlp_any; [apply wlp_dmx_config|]. intros [e x].
  destruct (negb (e =? 0)). { split; [|reflexivity]. cfg_con. dec_con. }
  apply wlp_bindi, wp_wlp, wp_mark_ext; [lia|dec_con|]. intros d' Hd' _.
  split; [|reflexivity]. cfg_con.
Qed.

Lemma exec_forE_ub {S} (I : nat -> S -> Prop) (body : nat -> S -> prog (Z * S)) r : forall n i t s,
  (forall j t, (i <= j < i + n)%nat -> I j t -> wlp (body j t) (fun x => fst x = 0 -> I (Datatypes.S j) (snd x))) ->
  I i t -> wf s -> exec (forE n i body t) s = UB r ->
  exists j t' s', (i <= j < i + n)%nat /\ I j t' /\ wf s' /\ exec (body j t') s' = UB r /\
    exec (forE (j - i) i body t) s = Done ((0, t'), s').
Proof.
  induction n as [|n IH]; intros i t s HB HI W E; cbn [forE] in E; [discriminate|].
  rewrite exec_bind in E. destruct (exec (body i t) s) as [[[e t1] s1]|c|r1] eqn:E1; [|discriminate|].
  - destruct (wlp_wf _ _ _ _ _ (HB i t ltac:(lia) HI) W E1) as [W1 K]. cbn [fst snd] in K.
    destruct (Z.eqb_spec e 0) as [->|]; [|discriminate].
    destruct (IH (Datatypes.S i) t1 s1) as (j & t' & s' & H1 & H2 & H3 & H4 & H5); auto.
    { intros j t' Hj. apply HB. lia. }
    exists j, t', s'. split; [lia|]. split; [exact H2|]. split; [exact H3|]. split; [exact H4|].
    replace (j - i)%nat with (Datatypes.S (j - Datatypes.S i)) by lia. cbn [forE]. rewrite exec_bind, E1. exact H5.
  - inversion E; subst. exists i, t, s. split; [lia|]. split; [exact HI|]. split; [exact W|]. split; [exact E1|].
    rewrite Nat.sub_diag. reflexivity.
Qed.

(** The first extension header of type 1 (a downmix configuration). *)
Definition at_downmix (s : rbuf) : Prop := exists s', exec (read_escape 4 8 16) s = Done (1, s').

Lemma config_extension_ub cicp u s r : cfg_ok u -> q_num (u_sig u) <= 31 -> wf s ->
  exec (config_extension cicp u) s = UB r ->
  exists j u' s' n s1, exec (config_ext_one cicp j u') s' = UB r /\ at_downmix s' /\
    exec (read_escape 2 4 8) s = Done (n, s1) /\
    exec (let d := s_d_cfgn (s_d_cfgl (s_d_cfgp (s_d_dmxp (u_dec u) 0) (repeat 0 (length (d_cfgp (u_dec u)))))
                       (repeat 0 (length (d_cfgl (u_dec u))))) (n + 1) in
      forE j 0 (config_ext_one cicp) (s_u_dec u d)) s1 = Done ((0, u'), s').
Proof.
  intros C Hn W E. unfold config_extension in E. cbv zeta in E. rewrite exec_bind in E.
  assert (Wt := wp_exec (read_escape 2 4 8) (fun v => 0 <= v) s (wp_esc 2 4 8 _ ltac:(lia) ltac:(lia) ltac:(lia) (fun v H => H)) W).
  destruct (exec (read_escape 2 4 8) s) as [[n s1]|c|r1] eqn:E1; [|discriminate|destruct Wt].
  destruct Wt as (Hn0 & W1 & _).
  destruct (Z.ltb_spec 5 (n + 1)); [discriminate|].
  match type of E with exec (forE _ _ _ ?x) _ = _ => set (u1 := x) in * end.
  destruct (exec_forE_ub (fun _ u => cfg_ok u /\ q_num (u_sig u) <= 31) (config_ext_one cicp) r (Z.to_nat (n + 1)) 0 u1 s1 ltac:(
    intros j t Hj [HC HN]; eapply wlp_mono; [|apply wlp_config_ext_one; [lia|exact HC|exact HN]];
    intros x [X1 X2] _; split; [exact X1|lia]) ltac:(
    split; [destruct C as [C1 C2 C3 C4 C5 C6 C7 C8 C9 C10];
      destruct C3 as [D1 D2 D3 D4 D5 D6 D7 D8 D9 D10 D11 D12 D13 D14 D15 D16 D17];
      cfg_con; dec_con; rewrite repeat_length; auto|exact Hn]) W1 E) as (j & u' & s' & Hj & [HC HN] & W' & E' & R').
  exists j, u', s', n, s1. split; [exact E'|]. split; [eapply config_ext_ub; [|exact HC|exact HN|exact W'|exact E']; lia|].
  split; [reflexivity|]. rewrite Nat.sub_0_r in R'. exact R'.
Qed.

Theorem config_ub user u s r : cfg_ok u -> wf s -> exec (mpegh_3da_config user u) s = UB r ->
  (exists u1 s1, exec (upto_signals user u) s = Done ((0, u1), s1) /\ 24 < q_obj (u_sig u1)) \/
  (exists cicp j u1 s1, exec (upto_ext user j u) s = Done ((0, u1), s1) /\
     exec (config_ext_one cicp j u1) s1 = UB r /\ at_downmix s1).
Proof.
  intros C W E. unfold mpegh_3da_config in E. cbv zeta in E.
  assert (WR : forall n s, wf s -> 0 <= n <= 24 -> match exec (rd n) s with Done (v, s') => 0 <= v < 2 ^ n /\ wf s' | Jmp _ => True | UB _ => False end).
  { intros n s0 W0 Hn. assert (K := wp_exec (rd n) (fun v => 0 <= v < 2 ^ n) s0 (wp_rd n _ Hn (fun v H => H)) W0).
    destruct (exec (rd n) s0) as [[v s1]| |]; [|exact I|exact K]. split; apply K. }
  rewrite exec_bind in E. assert (K := WR 8 s W ltac:(lia)). destruct (exec (rd 8) s) as [[prof s1]|c|r1] eqn:Q1; [|discriminate|destruct K].
  destruct K as [Hp W1].
  rewrite exec_bind in E. assert (K := WR 5 s1 W1 ltac:(lia)). destruct (exec (rd 5) s1) as [[fi s2]|c|r1] eqn:Q2; [|discriminate|destruct K].
  destruct K as [Hf W2]. destruct (negb (fi =? 31) && (8 <? fi)) eqn:Efi; [discriminate|].
  rewrite exec_bind in E.
  assert (K : match exec (if negb (fi =? 31) then aget sampling_rate_tbl fi else rd 24) s2 with Done (v, s') => wf s' | Jmp _ => True | UB _ => False end).
  { destruct (Z.eqb_spec fi 31); cbn [negb] in *.
    - assert (K := WR 24 s2 W2 ltac:(lia)). destruct (exec (rd 24) s2) as [[? ?]| |]; [apply K|exact I|exact K].
    - assert (K := wp_exec (aget sampling_rate_tbl fi) (fun _ => True) s2 (wp_aget sampling_rate_tbl fi _ ltac:(cbn [length sampling_rate_tbl]; change (2 ^ 5) with 32 in Hf; lia) (fun _ _ => I)) W2).
      destruct (exec (aget _ fi) s2) as [[? ?]| |]; [apply K|exact I|exact K]. }
  destruct (exec (if negb (fi =? 31) then _ else _) s2) as [[fr s3]|c|r1] eqn:Q3; [|discriminate|destruct K]. rename K into W3.
  destruct ((48000 <? fr) || (fr =? 0)); [discriminate|].
  rewrite exec_bind in E. assert (K := WR 3 s3 W3 ltac:(lia)). destruct (exec (rd 3) s3) as [[fl s4]|c|r1] eqn:Q4; [|discriminate|destruct K].
  destruct K as [_ W4]. destruct (4 <? fl); [discriminate|].
  rewrite exec_bind in E.
  assert (K := wp_exec (skip 1) (fun _ => True) s4 (wp_skip 1 _ ltac:(lia) I) W4).
  destruct (exec (skip 1) s4) as [[ut s5]|c|r1] eqn:Q5; [|discriminate|destruct K]. destruct K as (_ & W5 & _).
  rewrite exec_bind in E. assert (K := WR 1 s5 W5 ltac:(lia)). destruct (exec (rd 1) s5) as [[rdc s6]|c|r1] eqn:Q6; [|discriminate|destruct K].
  destruct K as [_ W6].
  rewrite exec_bind in E.
  match type of E with context [exec (ref_layout ?l) s6] =>
    assert (K := wp_exec (ref_layout l) _ s6 (wp_ref_layout l (cg_ref u C)) W6) end.
  destruct (exec (ref_layout _) s6) as [[[e l] s7]|c|r1] eqn:Q7; [|discriminate|destruct K]. destruct K as (HL & W7 & _). cbn [snd] in HL.
  destruct (negb (e =? 0)) eqn:Qe; [discriminate|].
  rewrite exec_bind in E.
  match type of E with context [exec (signals ?x user) s7] => set (u0 := x) in * end.
  assert (C0 : cfg_ok u0). { destruct C. constructor; auto. }
  assert (K := wp_exec (signals u0 user) (fun r => fst r = 0 -> cfg_ok (snd r) /\ groups_ok (u_sig (snd r)) /\
     1 <= q_num (u_sig (snd r)) <= 16 /\ u_ref (snd r) = u_ref u0) s7
     (wp_signals_cfg u0 user _ C0 (fun u' H1 H2 H3 H4 _ => conj H1 (conj H2 (conj H3 H4)))
       (fun e0 u' He H => match He H with end)) W7).
  destruct (exec (signals u0 user) s7) as [[[e1 u1] s8]|c|r1] eqn:ES; [|discriminate|destruct K].
  destruct K as (K & W8 & _). cbn [fst snd] in K. destruct (Z.eqb_spec e1 0) as [->|]; cbn [negb] in E; [|discriminate].
  destruct (K eq_refl) as (C1 & G1 & N1 & R1). clear K.
  assert (HS : exec (upto_signals user u) s = Done ((0, u1), s8)).
  { unfold upto_signals. cbv zeta. rewrite exec_bind, Q1, exec_bind, Q2, exec_bind, Q3, exec_bind, Q4, exec_bind, Q5,
      exec_bind, Q6, exec_bind.
    rewrite Q7. rewrite Qe. exact ES. }
  rewrite exec_bind in E.
  assert (K : match exec (if l_type (u_ref u1) =? 0 then aget num_ls_tbl (l_idx (u_ref u1)) else Ret (l_num (u_ref u1))) s8 with Done (v, s') => s' = s8 | Jmp _ => True | UB _ => False end).
  { destruct (l_type (u_ref u1) =? 0); [|reflexivity].
    assert (K := wp_exec (aget num_ls_tbl (l_idx (u_ref u1))) (fun _ => True) s8
      (wp_aget num_ls_tbl (l_idx (u_ref u1)) _ ltac:(rewrite num_ls_len; destruct (cg_ref u1 C1); lia) (fun _ _ => I)) W8).
    destruct (exec (aget _ _) s8) as [[? ?]| |] eqn:EA; [apply exec_aget_inv in EA; exact EA|exact I|exact K]. }
  destruct (exec (if l_type (u_ref u1) =? 0 then _ else _) s8) as [[ref s9]|c|r1]; [|discriminate|destruct K]. subst s9.
  rewrite exec_bind in E.
  destruct (Z_lt_dec 24 (q_obj (u_sig u1))) as [Hbig|Hsmall].
  { left. exists u1, s8. auto. }
  right.
  assert (K := wp_exec _ _ s8 (wp_decoder_config u1 C1 G1 ltac:(lia)) W8).
  destruct (exec (decoder_config u1) s8) as [[[e2 u2] s9]|c|r1] eqn:Q9; [|discriminate|destruct K].
  destruct K as ([C2 Es] & W9 & _). cbn [snd] in C2, Es.
  destruct (Z.eqb_spec e2 0) as [->|]; cbn [negb] in E; [|discriminate].
  assert (HE : exec (upto_elements user u) s = Done ((0, u2), s9)).
  { unfold upto_elements. rewrite exec_bind, HS. cbn [negb Z.eqb]. exact Q9. }
  match type of E with exec (if ?b then _ else _) _ = _ => destruct b end; [discriminate|].
  rewrite exec_bind in E. assert (K := WR 1 s9 W9 ltac:(lia)). destruct (exec (rd 1) s9) as [[ext s10]|c|r1] eqn:Q10; [|discriminate|destruct K].
  destruct K as [_ W10]. rewrite exec_bind in E.
  match type of E with match exec ?p s10 with _ => _ end = _ => destruct (exec p s10) as [[[e3 u3] s11]|c|r1] eqn:EX end;
    [|discriminate|].
  - exfalso. match type of E with exec (if ?b then _ else _) _ = _ => destruct b end; [discriminate|].
    match type of E with exec (if ?b then _ else _) _ = _ => destruct b end; [discriminate|].
    match type of E with exec (if ?b then _ else _) _ = _ => destruct b end; discriminate.
  - inversion E; subst r1. clear E. destruct (negb (ext =? 0)).
    2:{ destruct (1 <? _); discriminate. }
    match type of EX with context [config_extension ?c _] => set (cicp := c) in * end.
    destruct ((cicp <? 0) || (20 <? cicp)) eqn:EC; [discriminate|]. rewrite exec_bind in EX.
    match type of EX with context [exec (config_extension cicp ?x) s10] => set (u4 := x) in *;
      destruct (exec (config_extension cicp u4) s10) as [[[e4 u5] s11]|c|r1] eqn:EY end; [|discriminate|].
    + exfalso. destruct (negb (e4 =? 0)); [discriminate|].
      assert (K := wp_exec (aget num_ls_tbl cicp) (fun _ => True)). rewrite exec_bind in EX.
      assert (L : 0 <= cicp < 21) by lia. unfold aget in EX. destruct (0 <=? cicp) eqn:EL; [|lia].
      destruct (nth_error num_ls_tbl (Z.to_nat cicp)) eqn:EN; [discriminate|].
      apply nth_error_None in EN. rewrite num_ls_len in EN. lia.
    + inversion EX; subst r1. destruct (config_extension_ub cicp u4 s10 r) as (j & u' & s' & n & s1' & H1 & H2 & H3 & H4); auto.
      { subst u4. destruct C2 as [D1 D2 D3 D4 D5 D6 D7 D8 D9 D10]. constructor; auto. cbn. destruct D3. constructor; auto. }
      { subst u4. cbn. rewrite Es. lia. }
      exists cicp, j, u', s'. split; [|auto]. unfold upto_ext. rewrite exec_bind, HE. cbn [negb Z.eqb].
      rewrite exec_bind, Q10, exec_bind, H3. exact H4.
Qed.
