(** * Lem_ConfigFrame: how many bits elements and extensions take *)

From Coq Require Import ZArith List Lia Bool.
From Verif Require Import Bits BitBuf Prog Asi Escape Wp Wlp Cicp Hoa Mhas Config Leaf Spec_Config.
Import ListNotations.
Open Scope Z_scope.

Lemma exec_bind_inv {A B} (p : prog A) (f : A -> prog B) s b s' :
  exec (bind p f) s = Done (b, s') -> exists a s1, exec p s = Done (a, s1) /\ exec (f a) s1 = Done (b, s').
Proof. intros E. rewrite exec_bind in E. destruct (exec p s) as [[a s1]| |]; [eauto|discriminate|discriminate]. Qed.

Lemma exec_aset_inv {A} (l : list A) i v s a s' : exec (aset l i v) s = Done (a, s') -> s' = s.
Proof. unfold aset. destruct (_ && _); cbn; [congruence|discriminate]. Qed.
Lemma exec_aget_inv {A} (l : list A) i s a s' : exec (aget l i) s = Done (a, s') -> s' = s.
Proof. unfold aget. destruct (0 <=? i); [destruct (nth_error _ _)|]; cbn; try discriminate; congruence. Qed.
Lemma exec_ret_inv {A} (x : A) s a s' : exec (Ret x) s = Done (a, s') -> a = x /\ s' = s.
Proof. cbn. intros E. inversion E. auto. Qed.
Lemma exec_avail_inv s a s' : exec avail s = Done (a, s') -> a = r_cnt s /\ s' = s.
Proof. cbn. intros E. inversion E. auto. Qed.
Lemma exec_skip_inv n s a s' : 0 <= n -> exec (skip n) s = Done (a, s') -> r_cnt s - r_cnt s' = n.
Proof.
  intros Hn E. unfold skip in E. cbn [exec] in E.
  destruct (skip_bits n s) as [s1| |] eqn:E1; try discriminate. cbn [exec] in E. inversion E; subst.
  apply skip_bits_const in E1 as (_ & C & _); [lia|exact Hn].
Qed.

Lemma framed_strict_len {S} len (p : prog (Z * S)) s x s' :
  exec (framed_strict len p) s = Done ((0, x), s') -> r_cnt s - r_cnt s' = 8 * len.
Proof.
  unfold framed_strict. intros E.
  apply exec_bind_inv in E as (c0 & s0 & E0 & E). apply exec_avail_inv in E0 as [-> ->].
  apply exec_bind_inv in E as ([e y] & s1 & E1 & E).
  destruct (Z.eqb_spec e 0) as [->|He]; cbn [negb] in E; [|apply exec_ret_inv in E as [E _]; congruence].
  apply exec_bind_inv in E as (c1 & s2 & E2 & E). apply exec_avail_inv in E2 as [-> ->].
  destruct (Z.ltb_spec (len * 8) (r_cnt s - r_cnt s1)); [apply exec_ret_inv in E as [E _]; discriminate|].
  destruct (Z.ltb_spec (r_cnt s - r_cnt s1) (len * 8)).
  - apply exec_bind_inv in E as (tt' & s3 & E3 & E). apply exec_skip_inv in E3; [|lia].
    apply exec_ret_inv in E as [_ ->]. lia.
  - apply exec_ret_inv in E as [_ ->]. lia.
Qed.

Lemma framed_lax_len {S} len (p : prog (Z * S)) s x s' :
  exec (framed_lax len p) s = Done ((0, x), s') -> 8 * len <= r_cnt s - r_cnt s'.
Proof.
  unfold framed_lax. intros E.
  apply exec_bind_inv in E as (c0 & s0 & E0 & E). apply exec_avail_inv in E0 as [-> ->].
  apply exec_bind_inv in E as ([e y] & s1 & E1 & E).
  destruct (Z.eqb_spec e 0) as [->|He]; cbn [negb] in E; [|apply exec_ret_inv in E as [E _]; congruence].
  apply exec_bind_inv in E as (c1 & s2 & E2 & E). apply exec_avail_inv in E2 as [-> ->].
  destruct (Z.ltb_spec (r_cnt s - r_cnt s1) (len * 8)).
  - apply exec_bind_inv in E as (tt' & s3 & E3 & E). apply exec_skip_inv in E3; [|lia].
    apply exec_ret_inv in E as [_ ->]. lia.
  - apply exec_ret_inv in E as [_ ->]. lia.
Qed.

Lemma eats_esc n1 n2 n3 (Q : Z -> Z -> Prop) : 0 <= n1 -> 0 <= n2 -> 0 <= n3 ->
  (forall v n, 0 <= v -> 0 <= n -> Q v n) -> eats (read_escape n1 n2 n3) Q.
Proof.
  intros H1 H2 H3 HQ. unfold read_escape.
  apply (eats_bind _ _ (fun v n => 0 <= v < 2 ^ n1 /\ n = n1)); [apply eats_rd; auto|]. intros v n [Hv ->].
  destruct (v =? _).
  - apply (eats_bind _ _ (fun v n => 0 <= v < 2 ^ n2 /\ n = n2)); [apply eats_rd; auto|]. intros v2 n [Hv2 ->].
    destruct (v2 =? _).
    + apply (eats_bind _ _ (fun v n => 0 <= v < 2 ^ n3 /\ n = n3)); [apply eats_rd; auto|]. intros v3 n [Hv3 ->].
      apply eats_ret. apply HQ; [apply Z.mod_pos_bound; reflexivity|lia].
    + apply eats_ret. apply HQ; [apply Z.mod_pos_bound; reflexivity|lia].
  - apply eats_ret. apply HQ; lia.
Qed.

Lemma esc_cnt n1 n2 n3 s v s' : 0 <= n1 -> 0 <= n2 -> 0 <= n3 -> 0 <= r_cnt s ->
  exec (read_escape n1 n2 n3) s = Done (v, s') -> 0 <= v /\ 0 <= r_cnt s' <= r_cnt s.
Proof.
  intros H1 H2 H3 Hc E.
  destruct (eats_esc n1 n2 n3 (fun v n => 0 <= v /\ 0 <= n) H1 H2 H3 (fun v n Hv Hn => conj Hv Hn) s v s' Hc E) as [[K1 K2] K3]. lia.
Qed.

Lemma rd_cnt n s v s' : 0 <= n -> 0 <= r_cnt s -> exec (rd n) s = Done (v, s') -> 0 <= r_cnt s' <= r_cnt s.
Proof.
  intros Hn Hc E. destruct (eats_rd n (fun _ m => m = n) Hn (fun _ _ => eq_refl) s v s' Hc E) as [K1 K2]. lia.
Qed.

Lemma rd_bytes_len n buf s b s' : 0 <= n -> 0 <= r_cnt s -> exec (rd_bytes n buf) s = Done (b, s') ->
  r_cnt s - r_cnt s' = 8 * n.
Proof.
  intros Hn Hc E. unfold rd_bytes in E.
  assert (K := eats_forP (fun i b => v <- rd 8 ;; aset b (Z.of_nat i) v) 8 (Z.to_nat n) 0 buf).
  destruct (K ltac:(intros j t; apply (eats_bind _ _ (fun _ m => m = 8)); [apply eats_rd; [lia|auto]|];
     intros v m ->; apply eats_aset; intros; lia) s b s' Hc E) as [K1 K2]. lia.
Qed.

(** ** Extension elements *)
Theorem ext_element_framed i u s u' s' : 0 <= r_cnt s ->
  exec (ext_element i u) s = Done ((0, u'), s') ->
  exists ty len s1, exec ext_element_header s = Done ((ty, len), s1) /\ r_cnt s1 - r_cnt s' = 8 * len.
Proof.
  intros Hc E. unfold ext_element in E. cbv zeta in E.
  apply exec_bind_inv in E as (ty & s1 & E1 & E).
  apply exec_bind_inv in E as (et & s1' & X & E). apply exec_aset_inv in X. subst s1'.
  apply exec_bind_inv in E as (len & s2 & E2 & E).
  destruct (1536 <=? len); [apply exec_ret_inv in E as [E _]; discriminate|].
  apply exec_bind_inv in E as (pl & s2' & X & E). apply exec_aset_inv in X. subst s2'.
  apply exec_bind_inv in E as (flag & s3 & E3 & E).
  apply exec_bind_inv in E as (def & s4 & E4 & E).
  apply exec_bind_inv in E as (frag & s5 & E5 & E).
  apply exec_bind_inv in E as (el & s5' & X & E). apply exec_aget_inv in X. subst s5'.
  apply exec_bind_inv in E as (els & s5' & X & E). apply exec_aset_inv in X. subst s5'.
  destruct (esc_cnt 4 8 16 s ty s1 ltac:(lia) ltac:(lia) ltac:(lia) Hc E1) as [Hty C1].
  destruct (esc_cnt 4 8 16 s1 len s2 ltac:(lia) ltac:(lia) ltac:(lia) ltac:(lia) E2) as [Hlen C2].
  assert (C3 := rd_cnt 1 s2 flag s3 ltac:(lia) ltac:(lia) E3).
  assert (H4 : exists d0, exec (if flag =? 0 then Ret 0 else read_escape 8 16 0) s3 = Done (d0, s4) /\ 0 <= r_cnt s4).
  { destruct (flag =? 0).
    - apply exec_ret_inv in E4 as [_ ->]. exists 0. split; [reflexivity|lia].
    - apply exec_bind_inv in E4 as (d0 & s4' & E4 & X). apply exec_ret_inv in X as [_ ->]. exists d0. split; [exact E4|].
      destruct (esc_cnt 8 16 0 s3 d0 s4' ltac:(lia) ltac:(lia) ltac:(lia) ltac:(lia) E4). lia. }
  destruct H4 as (d0 & E4' & C4).
  assert (C5 := rd_cnt 1 s4 frag s5 ltac:(lia) C4 E5).
  exists ty, len, s5. split.
  { unfold ext_element_header. rewrite exec_bind, E1, exec_bind, E2, exec_bind, E3, exec_bind, E4', exec_bind, E5. reflexivity. }
  destruct (ty =? 14); [apply framed_strict_len in E; exact E|].
  destruct (ty =? 13).
  { destruct (24 <? _); [apply exec_ret_inv in E as [E _]; discriminate|].
    apply exec_bind_inv in E as ([e u1] & s6 & E6 & E).
    destruct (Z.eqb_spec e 0) as [->|He]; cbn [negb] in E; [|apply exec_ret_inv in E as [E _]; congruence].
    apply exec_ret_inv in E as [_ ->]. apply framed_strict_len in E6. exact E6. }
  destruct (ty =? 7).
  { apply exec_bind_inv in E as (pl2 & s5' & X & E). apply exec_aset_inv in X. subst s5'.
    apply framed_strict_len in E. exact E. }
  destruct (ty =? 5).
  { apply exec_bind_inv in E as (pl2 & s5' & X & E). apply exec_aset_inv in X. subst s5'.
    apply framed_strict_len in E. exact E. }
  destruct ((ty =? 4) || (ty =? 9)).
  { destruct (negb (frag =? 0)); [apply exec_ret_inv in E as [E _]; discriminate|].
    apply exec_bind_inv in E as (pl2 & s5' & X & E). apply exec_aset_inv in X. subst s5'.
    destruct (_ && _); [apply exec_ret_inv in E as [E _]; discriminate|].
    apply exec_bind_inv in E as (b & s5' & X & E). apply exec_aget_inv in X. subst s5'.
    apply exec_bind_inv in E as (b' & s6 & E6 & E).
    apply exec_bind_inv in E as (bs & s6' & X & E). apply exec_aset_inv in X. subst s6'.
    apply exec_ret_inv in E as [_ ->]. apply rd_bytes_len in E6; lia. }
  destruct (ty =? 3).
  { destruct (_ || _) eqn:O; [apply exec_ret_inv in E as [E _]; discriminate|].
    apply exec_ret_inv in E as [_ ->]. assert (len = 0) by lia. lia. }
  destruct (ty =? 0).
  { destruct (_ || _) eqn:O; [apply exec_ret_inv in E as [E _]; discriminate|].
    apply exec_ret_inv in E as [_ ->]. assert (len = 0) by lia. lia. }
  apply exec_bind_inv in E as (c & s5' & X & E). apply exec_avail_inv in X as [-> ->].
  destruct (_ <? len); [apply exec_ret_inv in E as [E _]; discriminate|].
  apply exec_bind_inv in E as (t0 & s6 & E6 & E). apply exec_skip_inv in E6; [|lia].
  apply exec_ret_inv in E as [_ ->]. lia.
Qed.

(** ** Configuration extensions *)
Lemma exec_mark d j len s d' s' : exec (mark_ext d j len) s = Done (d', s') -> s' = s.
Proof.
  unfold mark_ext. intros E. apply exec_bind_inv in E as (p & s1 & X & E). apply exec_aset_inv in X. subst s1.
  apply exec_bind_inv in E as (l & s1 & X & E). apply exec_aset_inv in X. subst s1. apply exec_ret_inv in E as [_ ->]. reflexivity.
Qed.

Lemma eats_sig_group_info g : eats (sig_group_info g) (fun _ n => 0 <= q_num g -> n = 4 * (q_num g + 1)).
Proof.
  unfold sig_group_info. apply (eats_bind _ _ (fun _ n => 0 <= q_num g -> n = 4 * (q_num g + 1))).
  - eapply eats_mono; [|apply (eats_forP _ 4)].
    + cbv beta. intros [p f] n -> Hq. lia.
    + intros j [p f]. apply (eats_bind _ _ (fun _ m => m = 3)); [apply eats_rd; [lia|auto]|]. intros a m ->.
      apply (eats_bind _ _ (fun _ m => m = 0)); [apply eats_aset; auto|]. intros p' m ->.
      apply (eats_bind _ _ (fun _ m => m = 1)); [apply eats_rd; [lia|auto]|]. intros b m ->.
      apply (eats_bind _ _ (fun _ m => m = 0)); [apply eats_aset; auto|]. intros f' m ->.
      apply eats_ret. lia.
  - intros [p f] n Hn. apply eats_ret. intros Hq. specialize (Hn Hq). lia.
Qed.

Lemma fill_len : forall n i (t : ucfg) s r s', 0 <= r_cnt s ->
  exec (forE n i (fun (_ : nat) (u : ucfg) =>
      v <- rd 8 ;; if negb (v =? 0xA5) then Ret (E_FILLBYTE, u) else Ret (0, u)) t) s = Done ((0, r), s') ->
  r_cnt s - r_cnt s' = 8 * Z.of_nat n.
Proof.
  induction n as [|n IH]; intros i t s r s' Hc E; cbn [forE] in E.
  - apply exec_ret_inv in E as [_ ->]. lia.
  - apply exec_bind_inv in E as ([e u1] & s1 & E1 & E).
    apply exec_bind_inv in E1 as (v & s2 & E2 & E1).
    destruct (eats_rd 8 (fun _ m => m = 8) ltac:(lia) (fun _ _ => eq_refl) s v s2 Hc E2) as [K1 K2].
    destruct (negb (v =? 0xA5)); apply exec_ret_inv in E1 as [E1 ->]; injection E1 as -> ->.
    + cbn in E. inversion E.
    + change (0 =? 0) with true in E. cbv iota in E. apply IH in E; [|lia]. lia.
Qed.

Definition config_ext_exact (ty : Z) : Prop := ty = 0 \/ ty = 2 \/ ty = 5 \/ 7 < ty.

Theorem config_ext_framed cicp j u s u' s' : 0 <= r_cnt s ->
  exec (config_ext_one cicp j u) s = Done ((0, u'), s') ->
  exists ty len s1, exec config_ext_header s = Done ((ty, len), s1) /\
    (config_ext_exact ty -> r_cnt s1 - r_cnt s' = 8 * len) /\
    (ty = 1 \/ ty = 3 \/ ty = 4 -> 8 * len <= r_cnt s1 - r_cnt s') /\
    (ty = 6 -> 0 <= q_num (u_sig u) -> r_cnt s1 - r_cnt s' = 4 * (q_num (u_sig u) + 1)).
Proof.
  intros Hc E. unfold config_ext_one in E. cbv zeta in E.
  apply exec_bind_inv in E as (ty & s1 & E1 & E). apply exec_bind_inv in E as (len & s2 & E2 & E).
  apply exec_bind_inv in E as (tys & s2' & X & E). apply exec_aset_inv in X. subst s2'.
  destruct (esc_cnt 4 8 16 s ty s1 ltac:(lia) ltac:(lia) ltac:(lia) Hc E1) as [Hty C1].
  destruct (esc_cnt 4 8 16 s1 len s2 ltac:(lia) ltac:(lia) ltac:(lia) ltac:(lia) E2) as [Hlen C2].
  exists ty, len, s2. split; [unfold config_ext_header; rewrite exec_bind, E1, exec_bind, E2; reflexivity|].
  destruct (1536 <? len); [apply exec_ret_inv in E as [E _]; discriminate|]. unfold config_ext_exact.
  destruct (Z.eqb_spec ty 7) as [->|N7]; [repeat split; intros; lia|].
  destruct (Z.eqb_spec ty 4) as [->|N4].
  { destruct (21 <? _); [apply exec_ret_inv in E as [E _]; discriminate|].
    apply framed_lax_len in E. repeat split; intros; lia. }
  destruct (Z.eqb_spec ty 1) as [->|N1]; [apply framed_lax_len in E; repeat split; intros; lia|].
  destruct (Z.eqb_spec ty 2) as [->|N2].
  { apply exec_bind_inv in E as (d & s2' & X & E). apply exec_mark in X. subst s2'.
    apply exec_bind_inv in E as (b & s2' & X & E). apply exec_aget_inv in X. subst s2'.
    apply exec_bind_inv in E as (b' & s3 & E3 & E).
    apply exec_bind_inv in E as (bs & s3' & X & E). apply exec_aset_inv in X. subst s3'.
    apply exec_ret_inv in E as [_ ->]. apply rd_bytes_len in E3; [|lia|lia]. repeat split; intros; lia. }
  destruct (Z.eqb_spec ty 3) as [->|N3].
  { destruct (_ && _); [apply exec_ret_inv in E as [E _]; discriminate|].
    apply framed_lax_len in E. repeat split; intros; lia. }
  destruct (Z.eqb_spec ty 6) as [->|N6].
  { apply exec_bind_inv in E as (g & s3 & E3 & E). apply exec_ret_inv in E as [_ ->].
    destruct (eats_sig_group_info _ s2 g s3 ltac:(lia) E3) as [K _]. cbn in K.
    split; [intros; lia|]. split; [intros; lia|]. intros _. exact K. }
  destruct (Z.eqb_spec ty 0) as [->|N0].
  { apply fill_len in E; [|lia]. rewrite Z2Nat.id in E by lia. repeat split; intros; lia. }
  apply exec_bind_inv in E as (c & s2' & X & E). apply exec_avail_inv in X as [-> ->].
  destruct (_ <? len); [apply exec_ret_inv in E as [E _]; discriminate|].
  apply exec_bind_inv in E as (t0 & s3 & E3 & E). apply exec_ret_inv in E as [_ ->].
  destruct (eats_forP (fun (_ : nat) (_ : unit) => skip 8) 8 (Z.to_nat len) 0 tt
    ltac:(intros; apply eats_skip; [lia|reflexivity]) s2 t0 s3 ltac:(lia) E3) as [K _].
  rewrite Z2Nat.id in K by lia. repeat split; intros; lia.
Qed.
