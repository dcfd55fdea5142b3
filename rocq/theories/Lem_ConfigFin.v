(** * Lem_ConfigFin: configuration lemmas in the form of the properties *)

From Coq Require Import ZArith List Lia Bool.
From Verif Require Import Bits BitBuf BitWrite Prog Asi Escape Wp Frame Cicp Hoa Mhas Config Leaf Spec_Config
  Lem_Config Lem_ConfigProps.
Import ListNotations.
Open Scope Z_scope.

Lemma accepted_limits user u s u' s' :
  exec (mpegh_3da_config user u) s = Done ((0, u'), s') ->
  1 <= u_freq u' <= 48000 /\
  (exists lim, level_limit (d_prof (u_dec u')) = Some lim /\ core_channels u' <= lim /\ ref_channels u' <= lim) /\
  (16 < core_channels u' \/ 16 < ref_channels u' ->
     q_gch (u_sig u') = 0 /\ q_ghoa (u_sig u') = 0 /\
     forall i, (i < Z.to_nat (d_num (u_dec u')))%nat ->
       (nth i (d_type (u_dec u')) 255 = 0 /\ el_nf (nth i (d_elem (u_dec u')) elem0) = 0 /\ el_enf (nth i (d_elem (u_dec u')) elem0) = 0) \/
       (nth i (d_type (u_dec u')) 255 = 3 /\ nth i (d_etype (u_dec u')) 0 <> 9)).
Proof.
  intros E. destruct (config_accepted_exec _ _ _ _ _ E) as [A B C _ _ _ _].
  split; [exact C|]. split; [exact A|]. intros H. destruct (B H) as (B1 & B2 & B3). split; [exact B1|]. split; [exact B2|].
  intros i Hi. specialize (B3 i Hi). unfold elem_allowed in B3. cbv zeta in B3.
  destruct (Z.eqb_spec (nth i (d_type (u_dec u')) 255) 0); [left; lia|].
  destruct (Z.eqb_spec (nth i (d_type (u_dec u')) 255) 3); [|discriminate].
  right. split; [assumption|]. destruct (Z.eqb_spec (nth i (d_etype (u_dec u')) 0) 9); [discriminate|assumption].
Qed.

Lemma accepted_totals user u s u' s' :
  exec (mpegh_3da_config user u) s = Done ((0, u'), s') ->
  let g := u_sig u' in let n := Z.to_nat (q_num g) in
  1 <= q_num g <= 16 /\ 1 <= d_num (u_dec u') <= 50 /\ 0 <= u_flen u' <= 4 /\
  q_ch g = signals_of 0 (firstn n (q_type g)) (firstn n (q_nsig g)) /\
  q_obj g = signals_of 1 (firstn n (q_type g)) (firstn n (q_nsig g)) /\
  q_hoa g = signals_of 3 (firstn n (q_type g)) (firstn n (q_nsig g)) /\
  q_gch g = groups_of 0 (firstn n (q_type g)) /\ q_gobj g = groups_of 1 (firstn n (q_type g)) /\
  q_ghoa g = groups_of 3 (firstn n (q_type g)) /\
  Forall (fun t => 0 <= t <= 3) (firstn n (q_type g)) /\ Forall (fun k => 1 <= k) (firstn n (q_nsig g)).
Proof.
  intros E. destruct (config_accepted_exec _ _ _ _ _ E) as [_ _ _ F N T D].
  cbv zeta. destruct T as (T0 & T1 & T2 & T3 & T4 & T5 & T6 & T7 & T8). repeat (split; [assumption|]). assumption.
Qed.

Lemma sig_group_info_not_exact g s g' s' : 0 <= q_num g -> 0 <= r_cnt s -> exec (sig_group_info g) s = Done (g', s') ->
  r_cnt s - r_cnt s' <> 4 * q_num g.
Proof. intros A B E. rewrite (sig_group_info_bits g s g' s' A B E). lia. Qed.
