(** * Lem_ConfigSafe: the configuration parser stays inside its tables *)

From Coq Require Import ZArith List Lia Bool.
From Verif Require Import Bits BitBuf Prog Asi Escape Wp Wlp Cicp Hoa Mhas Config Leaf Spec_Config.
Import ListNotations.
Open Scope Z_scope.

(** ** Table sizes, as declared in ia_core_coder_config.h *)
Record lay_ok (l : layout) : Prop := {
  lo_spk : length (l_spk l) = 24%nat;
  lo_flex : length (l_flex l) = 32%nat;
  lo_idx : 0 <= l_idx l <= 20 }.
Record lay_dim (l : layout) : Prop := {
  ld_spk : length (l_spk l) = 24%nat;
  ld_flex : length (l_flex l) = 32%nat }.

Lemma wp_esc n1 n2 n3 (Q : Z -> Prop) :
  0 <= n1 <= 24 -> 0 <= n2 <= 24 -> 0 <= n3 <= 24 ->
  (forall v, 0 <= v -> Q v) -> wp (read_escape n1 n2 n3) Q.
Proof.
  intros H1 H2 H3 HQ.
  rewrite <- (Z2Nat.id n1), <- (Z2Nat.id n2), <- (Z2Nat.id n3) by lia.
  apply wp_read_escape; try lia. intros v Hv. apply HQ. lia.
Qed.

Lemma wp_asetL {A} (l : list A) i v (Q : list A -> Prop) :
  0 <= i < Z.of_nat (length l) ->
  (forall l', length l' = length l -> l' = firstn (Z.to_nat i) l ++ v :: skipn (S (Z.to_nat i)) l -> Q l') ->
  wp (aset l i v) Q.
Proof. intros H HQ. apply wp_aset; [exact H|]. apply HQ; [|reflexivity]. apply aset_length. lia. Qed.

Lemma wp_fill_loop (n : nat) (f : nat -> prog Z) (l : list Z) (Q : list Z -> Prop) :
  (n <= length l)%nat -> (forall i, wp (f i) (fun _ => True)) ->
  (forall l', length l' = length l -> Q l') ->
  wp (forP n 0 (fun i l => v <- f i ;; aset l (Z.of_nat i) v) l) Q.
Proof.
  intros Hn Hf HQ. apply (wp_for (fun _ t => length t = length l)); [reflexivity| |auto].
  intros j t Hj Ht. apply wp_bindi. eapply wp_mono; [|apply Hf]. intros v _.
  apply wp_asetL; [lia|]. intros l' Hl' _. lia.
Qed.

Lemma wp_spk_description f prec : wp (spk_description f prec) (fun _ => True).
Proof.
  unfold spk_description. cbv zeta. wp1. wp1. wp1. { wps. exact I. }
  wp1. wp1. wp1.
  apply (wp_mono _ (fun _ => True)).
  - intros [e f']  _. wp1; [wps; exact I|]. wp1.
    apply (wp_mono _ (fun _ => True)); [|wps; exact I]. intros a _.
    wp1; [wp1; exact I|]. wp1. apply (wp_mono _ (fun _ => True)); [|wps; exact I].
    intros f2 _. wps. exact I.
  - wp1; [|wps; exact I]. wp1. apply (wp_mono _ (fun _ => True)); [|wps; exact I].
    intros a _. wps; exact I.
Qed.

Lemma wp_flex_loop prec n : n <= 24 -> forall fuel i arr,
  0 <= i -> n - i <= Z.of_nat fuel -> length arr = 32%nat ->
  wp (flex_loop fuel i n prec arr) (fun arr' => length arr' = 32%nat).
Proof.
  intros Hn. induction fuel as [|m IH]; intros i arr Hi Hf Hl; cbn [flex_loop].
  - destruct (Z.leb_spec n i); [exact Hl|lia].
  - destruct (Z.leb_spec n i); [exact Hl|].
    apply wp_bindi, wp_aget; [lia|]. intros f0 _. apply wp_bindi.
    apply (wp_mono _ (fun _ => True)); [|apply wp_spk_description]. intros [e f] _.
    match goal with |- context [let '(az, f) := ?x in _] => destruct x as [az f'] end.
    apply wp_bindi, wp_asetL; [lia|]. intros arr1 H1 _.
    destruct (_ && _); [|apply IH; lia].
    apply wp_bindi. wp1. destruct (negb _); [|apply IH; lia].
    apply wp_bindi, wp_asetL; [lia|]. intros arr2 H2 _. apply IH; lia.
Qed.

Lemma wp_flexispk l n : n <= 24 -> lay_dim l ->
  wp (flexispk l n) (fun l' => lay_dim l' /\ l_idx l' = l_idx l /\ l_num l' = l_num l /\ l_type l' = l_type l).
Proof.
  intros Hn [H1 H2]. unfold flexispk. wp1. wp1. wp1. eapply wp_mono; [|apply wp_flex_loop; try lia; exact H2].
  intros arr Ha. repeat split; auto.
Qed.

Lemma wp_spk_list l n : n <= 24 -> lay_dim l ->
  wp (spk_list l n) (fun r => lay_dim (snd r) /\ l_idx (snd r) = l_idx l).
Proof.
  intros Hn HL. unfold spk_list.
  apply (wp_forE (fun _ t => lay_dim t /\ l_idx t = l_idx l) (fun _ t => lay_dim t /\ l_idx t = l_idx l)); auto.
  intros j t Hj [[H1 H2] H3]. wp1. wp1. apply wp_bindi, wp_asetL; [lia|].
  intros a Ha _. destruct (42 <? v); cbn; (split; [split; cbn; lia|exact H3]).
Qed.

Lemma wp_ref_layout l : lay_ok l ->
  wp (ref_layout l) (fun r => lay_ok (snd r)).
Proof.
  intros [H1 H2 H3]. unfold ref_layout. cbv zeta. wp1. wp1.
  destruct (negb (v =? 0)).
  - apply wp_bindi, wp_esc; try lia. intros n Hn.
    destruct (Z.ltb_spec 24 (n + 1)); [cbn; constructor; auto|].
    destruct (v =? 2).
    + apply wp_bindi. eapply wp_mono; [|apply wp_flexispk]; [|cbn; lia|constructor; auto].
      cbn. intros l' ([D1 D2] & E1 & E2 & E3).
      destruct ((l_num l' <=? 0) || (20 <? l_num l')) eqn:E; cbn; constructor; cbn; auto; lia.
    + destruct (v =? 1).
      * eapply wp_mono; [|apply wp_spk_list]; [|cbn; lia|constructor; auto].
        cbn. intros r ([D1 D2] & E1). constructor; auto. lia.
      * cbn. constructor; auto.
  - wp1. wp1. destruct ((v0 <=? 0) || (20 <? v0)) eqn:E; cbn; constructor; cbn; auto; lia.
Qed.

Lemma num_ls_len : length num_ls_tbl = 21%nat. Proof. reflexivity. Qed.

Lemma wp_group_layout l nch refi : lay_ok l -> 0 <= refi <= 20 ->
  wp (group_layout l nch refi) (fun r => lay_dim (snd r) /\ (fst r = 0 -> lay_ok (snd r))).
Proof.
  intros [H1 H2 H3] Hr. unfold group_layout. cbv zeta. wp1. wp1. wp1.
  apply (wp_mono _ (fun r => lay_dim (snd r) /\ (fst r = 0 -> lay_ok (snd r)))).
  - intros [e l'] [D K]. cbn [fst snd] in *. destruct (Z.eqb_spec e 0) as [->|He]; cbn [negb].
    + specialize (K eq_refl). assert (K' := K). destruct K as [K1 K2 K3].
      apply wp_bindi, wp_aget; [rewrite num_ls_len; lia|]. intros a _.
      apply wp_bindi, wp_aget; [rewrite num_ls_len; lia|]. intros b _.
      destruct (_ && _); cbn; auto.
    + cbn. split; auto; congruence.
  - destruct (negb (v =? 0)).
    + apply wp_bindi, wp_esc; try lia. intros n Hn.
      destruct (Z.ltb_spec 24 (n + 1)); [cbn; split; [split; auto|discriminate]|].
      destruct (v =? 2).
      * apply wp_bindi. eapply wp_mono; [|apply wp_flexispk]; [|cbn; lia|constructor; auto].
        cbn. intros l' ([D1 D2] & E1 & E2 & E3). split; [split; auto|]. intros _. constructor; auto; lia.
      * destruct (v =? 1).
        { eapply wp_mono; [|apply wp_spk_list]; [|cbn; lia|constructor; auto].
          cbn. intros r ([D1 D2] & E1). split; [split; auto|]. intros _. constructor; auto; lia. }
        cbn. split; [split; auto|]. intros _. constructor; auto.
    + wp1. wp1. destruct (Z.ltb_spec 20 v0); cbn; (split; [split; auto|]); [discriminate|].
      intros _. constructor; cbn; auto; lia.
Qed.

Record sig_ok (g : sigs) : Prop := {
  so_type : length (q_type g) = 32%nat;
  so_nsig : length (q_nsig g) = 32%nat;
  so_diff : length (q_differs g) = 32%nat;
  so_prio : length (q_prio g) = 32%nat;
  so_fixed : length (q_fixed g) = 32%nat;
  so_len : length (q_lay g) = 32%nat;
  so_lay : Forall lay_ok (q_lay g) }.

Lemma nth_error_Forall {A} (P : A -> Prop) l n a : Forall P l -> nth_error l n = Some a -> P a.
Proof. intros H E. apply nth_error_In in E. rewrite Forall_forall in H. auto. Qed.

Lemma wp_sig_group i u cn :
  (i < 16)%nat -> sig_ok (u_sig u) -> lay_ok (u_ref u) -> 0 <= cn <= Z.of_nat i ->
  wp (sig_group i (u, cn)) (fun r => fst r = 0 ->
    sig_ok (u_sig (fst (snd r))) /\ lay_ok (u_ref (fst (snd r))) /\ 0 <= snd (snd r) <= Z.of_nat (S i)).
Proof.
  intros Hi [S1 S2 S3 S4 S5 S6 S7] HL Hc. unfold sig_group. cbv zeta.
  wp1. wp1. apply wp_bindi, wp_asetL; [lia|]. intros tys Ht _.
  apply wp_bindi, wp_esc; try lia. intros ns Hns.
  apply wp_bindi, wp_asetL; [lia|]. intros nss Hn _.
  destruct (v =? 3). { destruct (24 <? _); cbn; [discriminate|]. intros _. split; [constructor; cbn; auto; lia|]. split; [auto|lia]. }
  destruct (v =? 2).
  { wp1. wp1. wp1. apply (wp_mono _ (fun _ => True)).
    - cbn. intros _ _ _. split; [constructor; cbn; auto; lia|]. split; [auto|lia].
    - destruct (negb _); [apply wp_skip; [lia|exact I]|exact I]. }
  destruct (v =? 1). { destruct (24 <? _); cbn; [discriminate|]. intros _. split; [constructor; cbn; auto; lia|]. split; [auto|lia]. }
  destruct (v =? 0); [|cbn; discriminate].
  destruct (_ || _); [cbn; discriminate|].
  wp1. wp1. apply wp_bindi, wp_asetL; [cbn; lia|]. cbn [q_differs q_lay s_q_ch s_q_gch s_q_nsig s_q_type s_q_differs]. intros dfs Hd _.
  destruct (v0 =? 1).
  - apply wp_bindi, wp_aget; [lia|]. intros l Hl.
    assert (HLl := nth_error_Forall _ _ _ _ S7 Hl).
    apply wp_bindi. eapply wp_mono; [|apply wp_group_layout; [exact HLl|apply HL]].
    intros [e l'] [D K]. cbn [fst snd] in *. apply wp_bindi, wp_asetL; [lia|].
    intros ls Hls Els. cbn. intros ->. specialize (K eq_refl). split; [|split; [auto|lia]].
    constructor; cbn; try lia.
    + rewrite Els. apply Forall_aset; auto.
  - cbn. intros _. split; [constructor; cbn; auto; lia|]. split; [auto|lia].
Qed.

Lemma wp_signals u user :
  sig_ok (u_sig u) -> lay_ok (u_ref u) ->
  wp (signals u user) (fun r => fst r = 0 -> sig_ok (u_sig (snd r)) /\ lay_ok (u_ref (snd r)) /\ u_dec (snd r) = u_dec (snd r)).
Proof.
  intros HS HL. unfold signals. wp1. wp1. cbv zeta.
  destruct (Z.ltb_spec 16 (v + 1)); [cbn; discriminate|].
  destruct (_ && _); [cbn; discriminate|]. wp1.
  apply (wp_forE (fun j t => sig_ok (u_sig (fst t)) /\ lay_ok (u_ref (fst t)) /\ 0 <= snd t <= Z.of_nat j) (fun e _ => e <> 0)).
  - cbn. destruct HS. split; [constructor; auto|]. split; [auto|lia].
  - intros j [t cn] Hj (A1 & A2 & A3). eapply wp_mono; [|apply wp_sig_group; auto; lia].
    intros [e [t' cn']] K. cbn [fst snd] in *. destruct (Z.eqb_spec e 0); auto.
  - intros [t cn] (A1 & A2 & A3). cbn [negb Z.eqb fst snd] in *.
    destruct (_ && _); [cbn; discriminate|].
    destruct (0 <? q_ghoa (u_sig t)), (0 <? q_gobj (u_sig t)), (0 <? q_gch (u_sig t));
      cbn; intros _; destruct A1; (split; [constructor; auto|auto]).
  - intros e [t cn] He. destruct (Z.eqb_spec e 0); [congruence|]. cbn. congruence.
Qed.
