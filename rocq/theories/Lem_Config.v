(** * Lem_Config: what an accepted stream configuration satisfies *)

From Coq Require Import ZArith List Lia Bool.
From Verif Require Import Bits BitBuf Prog Asi Escape Wp Wlp Cicp Hoa Mhas Config Leaf Spec_Config.
Import ListNotations.
Open Scope Z_scope.

Lemma leaf_let {A B} (p : prog A) (f : A -> prog B) (Q : B -> Prop) :
  (forall a, leaf (f a) Q) -> leaf (bind p f) Q.
Proof. intros H. apply leaf_bind, leaf_any, H. Qed.

Lemma leaf_framed_strict {S} len (p : prog (Z * S)) (Q : Z * S -> Prop) :
  leaf p (fun r => Q r /\ forall e, Q (e, snd r)) -> leaf (framed_strict len p) Q.
Proof.
  intros H. unfold framed_strict. apply leaf_let. intros c0. apply leaf_bind.
  eapply leaf_mono; [|exact H]. intros [e s] [H1 H2]. cbn [snd] in H2.
  destruct (negb (e =? 0)); [exact H1|]. apply leaf_let. intros c1.
  destruct (len * 8 <? c0 - c1); [apply H2|]. destruct (c0 - c1 <? len * 8); [|apply H2].
  apply leaf_let. intros _. apply H2.
Qed.

Lemma leaf_framed_lax {S} len (p : prog (Z * S)) (Q : Z * S -> Prop) :
  leaf p (fun r => Q r /\ forall e, Q (e, snd r)) -> leaf (framed_lax len p) Q.
Proof.
  intros H. unfold framed_lax. apply leaf_let. intros c0. apply leaf_bind.
  eapply leaf_mono; [|exact H]. intros [e s] [H1 H2]. cbn [snd] in H2.
  destruct (negb (e =? 0)); [exact H1|]. apply leaf_let. intros c1.
  destruct (c0 - c1 <? len * 8); [|apply H2].
  apply leaf_let. intros _. apply H2.
Qed.

(** The part of the state that the element and extension parsers leave alone. *)
Definition core_view (u : ucfg) :=
  (u_fidx u, u_freq u, u_flen u, u_rdc u, u_ref u, u_nout u, u_3b u,
   (q_num (u_sig u), q_type (u_sig u), q_nsig (u_sig u), q_ch (u_sig u), q_obj (u_sig u),
    q_hoa (u_sig u), q_gch (u_sig u), q_gobj (u_sig u), q_ghoa (u_sig u), q_lay (u_sig u))).
Definition keeps (u : ucfg) {A} (r : A * ucfg) : Prop := core_view (snd r) = core_view u.

Ltac lf1 :=
  lazymatch goal with
  | |- leaf (bind (bind _ _) _) _ => apply leaf_bind
  | |- leaf (bind (if _ then _ else _) _) _ => apply leaf_let; intros
  | |- leaf (bind _ (fun pat => match pat with _ => _ end)) _ => fail
  | |- leaf (bind _ _) _ => apply leaf_let; intros
  | |- leaf (Ret _) _ => cbn [leaf]
  | |- leaf (Undef _) _ => exact I
  | |- leaf (if ?c then _ else _) _ => let E := fresh "E" in destruct c eqn:E
  | |- leaf (match ?x with _ => _ end) _ => destruct x
  | |- leaf (let _ := _ in _) _ => cbv zeta
  end.
Ltac lfs := repeat lf1.

Lemma leaf_ext_element i u : leaf (ext_element i u) (keeps u).
Proof.
  unfold ext_element. cbv zeta.
  do 2 (apply leaf_let; intros). apply leaf_let; intros len.
  destruct (1536 <=? len); [reflexivity|].
  apply leaf_let; intros pl. apply leaf_let; intros flag. apply leaf_let; intros def.
  apply leaf_let; intros frag. apply leaf_let; intros el. apply leaf_let; intros els.
  destruct (a =? 14). { apply leaf_framed_strict. apply leaf_let. intros p. split; reflexivity. }
  destruct (a =? 13).
  { destruct (24 <? _); [reflexivity|]. apply leaf_bind.
    apply leaf_mono with (Q := keeps u).
    - intros [e u'] H. destruct (negb (e =? 0)); [exact H|]. exact H.
    - apply leaf_framed_strict. apply leaf_let. intros [e c]. split; reflexivity. }
  destruct (a =? 7).
  { apply leaf_let. intros pl2. cbv zeta. apply leaf_framed_strict. apply leaf_let. intros [h|e]; split; reflexivity. }
  destruct (a =? 5).
  { apply leaf_let. intros pl2. apply leaf_framed_strict. apply leaf_let. intros [e c]; split; reflexivity. }
  destruct ((a =? 4) || (a =? 9)).
  { destruct (negb (frag =? 0)); [reflexivity|]. apply leaf_let. intros pl2.
    destruct (_ && _); [reflexivity|]. do 3 (apply leaf_let; intros). reflexivity. }
  destruct (a =? 3). { destruct (_ || _); reflexivity. }
  destruct (a =? 0). { destruct (_ || _); reflexivity. }
  apply leaf_let. intros c. destruct (_ <? _); [reflexivity|]. apply leaf_let. reflexivity.
Qed.

Lemma leaf_dec_element i u :
  leaf (dec_element i u) (fun r => keeps u r).
Proof.
  unfold dec_element. cbv zeta.
  apply leaf_let; intros ty. apply leaf_let; intros tys. apply leaf_let; intros el.
  destruct (ty =? 3).
  { apply leaf_bind. eapply leaf_mono; [|apply leaf_ext_element]. intros [e u'] H.
    unfold keeps in H. cbn [snd] in H.
    destruct (negb (e =? 0)); [exact H|]. do 2 (apply leaf_let; intros). exact H. }
  destruct (ty =? 2). { apply leaf_let; intros els. apply leaf_let; intros [oc k]. reflexivity. }
  destruct (ty =? 1).
  { apply leaf_let; intros [e [el' oc]]. apply leaf_let; intros els. reflexivity. }
  apply leaf_let; intros tw. destruct (negb (tw =? 0)); [apply leaf_let; reflexivity|].
  do 5 (apply leaf_let; intros). apply leaf_let; intros [oc k]. reflexivity.
Qed.

Lemma dec_num_ext i u : leaf (ext_element i u) (fun r => d_num (u_dec (snd r)) = d_num (u_dec u)).
Proof.
  unfold ext_element. cbv zeta.
  do 2 (apply leaf_let; intros). apply leaf_let; intros len.
  destruct (1536 <=? len); [reflexivity|].
  apply leaf_let; intros pl. apply leaf_let; intros flag. apply leaf_let; intros def.
  apply leaf_let; intros frag. apply leaf_let; intros el. apply leaf_let; intros els.
  destruct (a =? 14). { apply leaf_framed_strict. apply leaf_let. intros p. split; reflexivity. }
  destruct (a =? 13).
  { destruct (24 <? _); [reflexivity|]. apply leaf_bind.
    apply leaf_mono with (Q := fun r : Z * ucfg => d_num (u_dec (snd r)) = d_num (u_dec u)).
    - intros [e u'] H. destruct (negb (e =? 0)); [exact H|]. exact H.
    - apply leaf_framed_strict. apply leaf_let. intros [e c]. split; reflexivity. }
  destruct (a =? 7).
  { apply leaf_let. intros pl2. cbv zeta. apply leaf_framed_strict. apply leaf_let. intros [h|e]; split; reflexivity. }
  destruct (a =? 5).
  { apply leaf_let. intros pl2. apply leaf_framed_strict. apply leaf_let. intros [e c]; split; reflexivity. }
  destruct ((a =? 4) || (a =? 9)).
  { destruct (negb (frag =? 0)); [reflexivity|]. apply leaf_let. intros pl2.
    destruct (_ && _); [reflexivity|]. do 3 (apply leaf_let; intros). reflexivity. }
  destruct (a =? 3). { destruct (_ || _); reflexivity. }
  destruct (a =? 0). { destruct (_ || _); reflexivity. }
  apply leaf_let. intros c. destruct (_ <? _); [reflexivity|]. apply leaf_let. reflexivity.
Qed.

Lemma dec_num_element i u : leaf (dec_element i u) (fun r => d_num (u_dec (snd r)) = d_num (u_dec u)).
Proof.
  unfold dec_element. cbv zeta.
  apply leaf_let; intros ty. apply leaf_let; intros tys. apply leaf_let; intros el.
  destruct (ty =? 3).
  { apply leaf_bind. eapply leaf_mono; [|apply dec_num_ext]. intros [e u'] H. cbn [snd] in H.
    destruct (negb (e =? 0)); [exact H|]. do 2 (apply leaf_let; intros). exact H. }
  destruct (ty =? 2). { apply leaf_let; intros els. apply leaf_let; intros [oc k]. reflexivity. }
  destruct (ty =? 1).
  { apply leaf_let; intros [e [el' oc]]. apply leaf_let; intros els. reflexivity. }
  apply leaf_let; intros tw. destruct (negb (tw =? 0)); [apply leaf_let; reflexivity|].
  do 5 (apply leaf_let; intros). apply leaf_let; intros [oc k]. reflexivity.
Qed.

Lemma read_escape_range n1 n2 n3 :
  0 <= n1 -> 0 <= n2 -> 0 <= n3 -> leaf (read_escape n1 n2 n3) (fun v => 0 <= v < 2 ^ 32 \/ 0 <= v < 2 ^ n1).
Proof.
  intros H1 H2 H3. unfold read_escape. apply leaf_bind, leaf_rd. intros v Hv.
  destruct (v =? _).
  - apply leaf_bind, leaf_rd. intros v2 Hv2. destruct (v2 =? _).
    + apply leaf_bind, leaf_rd. intros v3 Hv3. left. apply Z.mod_pos_bound. reflexivity.
    + left. apply Z.mod_pos_bound. reflexivity.
  - right. auto.
Qed.

Lemma leaf_esc n1 n2 n3 (Q : Z -> Prop) :
  0 <= n1 -> 0 <= n2 -> 0 <= n3 -> (forall v, 0 <= v -> Q v) -> leaf (read_escape n1 n2 n3) Q.
Proof.
  intros H1 H2 H3 H. eapply leaf_mono; [|apply read_escape_range; auto]. cbv beta.
  intros v Hv. apply H. lia.
Qed.

Lemma leaf_decoder_config u :
  leaf (decoder_config u) (fun r => keeps u r /\ (fst r = 0 -> 1 <= d_num (u_dec (snd r)) <= 50)).
Proof.
  unfold decoder_config. cbv zeta. apply leaf_bind, leaf_esc; try lia. intros n Hn.
  destruct (Z.ltb_spec 50 (n + 1)); [split; [reflexivity|discriminate]|].
  apply leaf_let. intros elp.
  apply (leaf_forE (fun _ t => core_view t = core_view u /\ d_num (u_dec t) = n + 1)
           (fun t => core_view t = core_view u)).
  - split; reflexivity.
  - intros j t _ [H1 H2].
    eapply leaf_mono; [|apply leaf_conj; [apply leaf_dec_element|apply dec_num_element]].
    intros [e t'] [K1 K2]. unfold keeps in K1. cbn [fst snd] in *. repeat split; congruence.
  - intros t [H1 H2]. split; [exact H1|]. cbn [fst snd]. lia.
  - intros e t He H1. split; [exact H1|]. cbn [fst]. congruence.
Qed.

Lemma leaf_sig_group_info g :
  leaf (sig_group_info g) (fun g' =>
    (q_num g', q_type g', q_nsig g', q_ch g', q_obj g', q_hoa g', q_gch g', q_gobj g', q_ghoa g', q_lay g')
    = (q_num g, q_type g, q_nsig g, q_ch g, q_obj g, q_hoa g, q_gch g, q_gobj g, q_ghoa g, q_lay g)).
Proof. unfold sig_group_info. apply leaf_let. intros [p f]. reflexivity. Qed.

(** The extensions leave the elements alone too. *)
Definition ext_view (u : ucfg) :=
  (core_view u, (d_num (u_dec u), d_type (u_dec u), d_elem (u_dec u), d_etype (u_dec u))).

Lemma leaf_mark_ext d j len : leaf (mark_ext d j len) (fun d' =>
  (d_num d', d_type d', d_elem d', d_etype d') = (d_num d, d_type d, d_elem d, d_etype d)).
Proof. unfold mark_ext. do 2 (apply leaf_let; intros). reflexivity. Qed.

Lemma ext_view_dec u d' :
  (d_num d', d_type d', d_elem d', d_etype d') =
    (d_num (u_dec u), d_type (u_dec u), d_elem (u_dec u), d_etype (u_dec u)) ->
  ext_view (s_u_dec u d') = ext_view u.
Proof. intros H. unfold ext_view. cbn. f_equal. exact H. Qed.

Lemma leaf_config_ext_one cicp j u : leaf (config_ext_one cicp j u) (fun r => ext_view (snd r) = ext_view u).
Proof.
  unfold config_ext_one. cbv zeta.
  apply leaf_let; intros ty. apply leaf_let; intros len. apply leaf_let; intros tys.
  destruct (1536 <? len); [reflexivity|].
  destruct (ty =? 7); [apply leaf_let; reflexivity|].
  destruct (ty =? 4).
  { destruct (21 <? _); [reflexivity|]. apply leaf_framed_lax. apply leaf_let. intros [m|e]; [|split; reflexivity].
    apply leaf_bind. eapply leaf_mono; [|apply leaf_mark_ext]. intros d' H.
    split; cbn [snd]; intros; apply (ext_view_dec u d'); rewrite H; reflexivity. }
  destruct (ty =? 1).
  { apply leaf_framed_lax. apply leaf_let. intros [e x]. destruct (negb (e =? 0)); [split; reflexivity|].
    apply leaf_bind. eapply leaf_mono; [|apply leaf_mark_ext]. intros d' H.
    split; cbn [snd]; intros; apply (ext_view_dec u d'); rewrite H; reflexivity. }
  destruct (ty =? 2).
  { apply leaf_bind. eapply leaf_mono; [|apply leaf_mark_ext]. intros d' H.
    do 3 (apply leaf_let; intros). apply (ext_view_dec u). exact H. }
  destruct (ty =? 3).
  { destruct (_ && _); [reflexivity|]. apply leaf_framed_lax. apply leaf_let. intros [a|e]; split; reflexivity. }
  destruct (ty =? 6).
  { apply leaf_bind. eapply leaf_mono; [|apply leaf_sig_group_info]. intros g H. unfold ext_view, core_view. cbn [leaf snd].
    cbn in *. inversion H. reflexivity. }
  destruct (ty =? 0).
  { apply (leaf_forE (fun _ t => ext_view t = ext_view u) (fun t => ext_view t = ext_view u)); [reflexivity| | |].
    - intros k t _ H. apply leaf_let. intros v. destruct (negb _); (split; [intros _; exact H|exact H]).
    - intros t H. exact H.
    - intros e t _ H. exact H. }
  apply leaf_let. intros c. destruct (_ <? _); [reflexivity|]. apply leaf_let. reflexivity.
Qed.

Lemma leaf_config_extension cicp u : leaf (config_extension cicp u) (fun r => ext_view (snd r) = ext_view u).
Proof.
  unfold config_extension. apply leaf_let. intros n. destruct (5 <? n + 1); [reflexivity|]. cbv zeta.
  apply (leaf_forE (fun _ t => ext_view t = ext_view u) (fun t => ext_view t = ext_view u)).
  - reflexivity.
  - intros j t _ H. eapply leaf_mono; [|apply leaf_config_ext_one]. intros [e t'] K.
    cbn [fst snd] in *. split; congruence.
  - intros t H. exact H.
  - intros e t _ H. exact H.
Qed.

(** ** The signal groups *)
Lemma signals_of_snoc ty t n : forall ts ns, length ts = length ns ->
  signals_of ty (ts ++ [t]) (ns ++ [n]) = signals_of ty ts ns + (if t =? ty then n else 0).
Proof.
  induction ts as [|a ts IH]; destruct ns as [|b ns]; cbn [length signals_of app]; intros H; try discriminate.
  - destruct (t =? ty); lia.
  - rewrite IH by lia. lia.
Qed.
Lemma groups_of_snoc ty t : forall ts,
  groups_of ty (ts ++ [t]) = groups_of ty ts + (if t =? ty then 1 else 0).
Proof. induction ts as [|a ts IH]; cbn [groups_of app]; [lia|rewrite IH; lia]. Qed.

(** The totals are those of the first [j] groups. *)
Definition tot (j : nat) (g : sigs) : Prop :=
  length (firstn j (q_type g)) = length (firstn j (q_nsig g)) /\
  q_ch g = signals_of 0 (firstn j (q_type g)) (firstn j (q_nsig g)) /\
  q_obj g = signals_of 1 (firstn j (q_type g)) (firstn j (q_nsig g)) /\
  q_hoa g = signals_of 3 (firstn j (q_type g)) (firstn j (q_nsig g)) /\
  q_gch g = groups_of 0 (firstn j (q_type g)) /\
  q_gobj g = groups_of 1 (firstn j (q_type g)) /\
  q_ghoa g = groups_of 3 (firstn j (q_type g)) /\
  Forall (fun n => 1 <= n) (firstn j (q_nsig g)) /\
  Forall (fun t => 0 <= t <= 3) (firstn j (q_type g)).

Definition sig_frame (u u' : ucfg) : Prop :=
  u_freq u' = u_freq u /\ u_flen u' = u_flen u /\ u_ref u' = u_ref u /\ q_num (u_sig u') = q_num (u_sig u).

Lemma leaf_sig_group i u cn :
  tot i (u_sig u) ->
  leaf (sig_group i (u, cn)) (fun r =>
    sig_frame u (fst (snd r)) /\ (fst r = 0 -> tot (S i) (u_sig (fst (snd r))))).
Proof.
  intros (T0 & T1 & T2 & T3 & T4 & T5 & T6 & T7 & T8). unfold sig_group. cbv zeta.
  apply leaf_bind, leaf_rd. intros ty Hty. specialize (Hty ltac:(lia)). change (2 ^ 3) with 8 in Hty.
  apply leaf_bind, leaf_aset. intros L1. apply leaf_bind, leaf_esc; try lia. intros ns Hns.
  apply leaf_bind, leaf_aset. intros L2. rewrite Nat2Z.id.
  assert (E1 := firstn_aset (q_type (u_sig u)) i ty ltac:(lia)).
  assert (E2 := firstn_aset (q_nsig (u_sig u)) i (ns + 1) ltac:(lia)).
  assert (F7 : Forall (fun n => 1 <= n) (firstn i (q_nsig (u_sig u)) ++ [ns + 1])).
  { apply Forall_app. split; [exact T7|]. constructor; [lia|constructor]. }
  assert (F8 : ty <= 3 -> Forall (fun n => 0 <= n <= 3) (firstn i (q_type (u_sig u)) ++ [ty])).
  { intros Hle. apply Forall_app. split; [exact T8|]. constructor; [lia|constructor]. }
  assert (FR : forall u', u_freq u' = u_freq u -> u_flen u' = u_flen u -> u_ref u' = u_ref u ->
      q_num (u_sig u') = q_num (u_sig u) -> sig_frame u u') by (unfold sig_frame; auto).
  assert (TT : forall g, q_type g = firstn i (q_type (u_sig u)) ++ ty :: skipn (S i) (q_type (u_sig u)) ->
      q_nsig g = firstn i (q_nsig (u_sig u)) ++ ns + 1 :: skipn (S i) (q_nsig (u_sig u)) ->
      ty <= 3 ->
      q_ch g = q_ch (u_sig u) + (if ty =? 0 then ns + 1 else 0) ->
      q_obj g = q_obj (u_sig u) + (if ty =? 1 then ns + 1 else 0) ->
      q_hoa g = q_hoa (u_sig u) + (if ty =? 3 then ns + 1 else 0) ->
      q_gch g = q_gch (u_sig u) + (if ty =? 0 then 1 else 0) ->
      q_gobj g = q_gobj (u_sig u) + (if ty =? 1 then 1 else 0) ->
      q_ghoa g = q_ghoa (u_sig u) + (if ty =? 3 then 1 else 0) -> tot (S i) g).
  { intros g G1 G2 G3 G4 G5 G6 G7 G8 G9. unfold tot. rewrite G1, G2, E1, E2.
    rewrite !signals_of_snoc, !groups_of_snoc by exact T0. rewrite !app_length.
    cbn [length]. intuition congruence. }
  destruct (Z.eqb_spec ty 3) as [->|N3].
  { destruct (24 <? ns + 1); (split; [apply FR; reflexivity|]); cbn [fst snd]; [discriminate|].
    intros _. apply TT; cbn; lia || reflexivity. }
  destruct (Z.eqb_spec ty 2) as [->|N2].
  { do 2 (apply leaf_let; intros). split; [apply FR; reflexivity|]. intros _. apply TT; cbn; lia || reflexivity. }
  destruct (Z.eqb_spec ty 1) as [->|N1].
  { destruct (24 <? ns + 1); (split; [apply FR; reflexivity|]); cbn [fst snd]; [discriminate|].
    intros _. apply TT; cbn; lia || reflexivity. }
  destruct (Z.eqb_spec ty 0) as [->|N0]; [|split; [apply FR; reflexivity|discriminate]].
  destruct (_ || _); [split; [apply FR; reflexivity|discriminate]|].
  apply leaf_let. intros df. apply leaf_let. intros dfs.
  destruct (df =? 1).
  - apply leaf_let. intros l. apply leaf_let. intros [e l']. apply leaf_let. intros ls.
    split; [apply FR; reflexivity|]. intros _. apply TT; cbn; lia || reflexivity.
  - split; [apply FR; reflexivity|]. intros _. apply TT; cbn; lia || reflexivity.
Qed.

Lemma leaf_signals u user :
  leaf (signals u user) (fun r => let u' := snd r in
    u_freq u' = u_freq u /\ u_flen u' = u_flen u /\ u_ref u' = u_ref u /\
    (fst r = 0 -> 1 <= q_num (u_sig u') <= 16 /\ tot (Z.to_nat (q_num (u_sig u'))) (u_sig u'))).
Proof.
  unfold signals. apply leaf_bind, leaf_rd. intros n Hn. specialize (Hn ltac:(lia)). cbv zeta.
  destruct (Z.ltb_spec 16 (n + 1)) as [|Hle]; [repeat split; discriminate|].
  destruct (_ && _); [repeat split; discriminate|]. apply leaf_bind.
  apply (leaf_forE
    (fun j t => tot j (u_sig (fst t)) /\ u_freq (fst t) = u_freq u /\ u_flen (fst t) = u_flen u /\
       u_ref (fst t) = u_ref u /\ q_num (u_sig (fst t)) = n + 1)
    (fun t => u_freq (fst t) = u_freq u /\ u_flen (fst t) = u_flen u /\ u_ref (fst t) = u_ref u)).
  - cbn. unfold tot. cbn. repeat split; constructor.
  - intros j [t cn] _ (T & A1 & A2 & A3 & A4). eapply leaf_mono; [|apply leaf_sig_group; exact T].
    intros [e [t' cn']] [(B1 & B2 & B3 & B4) B5]. cbn [fst snd] in *.
    split; [intros He; split; [auto|]|]; repeat split; congruence.
  - intros [t cn] (T & A1 & A2 & A3 & A4). cbn [negb Z.eqb fst snd] in *.
    destruct (_ && _); [repeat split; auto; discriminate|].
    assert (K : forall g', (q_num g', q_type g', q_nsig g', q_ch g', q_obj g', q_hoa g', q_gch g', q_gobj g', q_ghoa g') =
       (q_num (u_sig t), q_type (u_sig t), q_nsig (u_sig t), q_ch (u_sig t), q_obj (u_sig t), q_hoa (u_sig t),
        q_gch (u_sig t), q_gobj (u_sig t), q_ghoa (u_sig t)) ->
       1 <= q_num g' <= 16 /\ tot (Z.to_nat (q_num g')) g').
    { intros g' Hg. inversion Hg as [[K1 K2 K3 K4 K5 K6 K7 K8 K9]]. rewrite K1, A4. split; [lia|].
      cbn [Nat.add] in T; unfold tot in *. rewrite K2, K3, K4, K5, K6, K7, K8, K9. exact T. }
    destruct (0 <? q_ghoa (u_sig t)), (0 <? q_gobj (u_sig t)), (0 <? q_gch (u_sig t));
      cbn [leaf snd fst]; (split; [exact A1|split; [exact A2|split; [exact A3|intros _; apply K; reflexivity]]]).
  - intros e [t cn] He (A1 & A2 & A3). cbn [fst snd] in *.
    destruct (Z.eqb_spec e 0); [congruence|]. cbn [negb leaf fst snd]. repeat split; auto; congruence.
Qed.

(** ** The whole configuration *)
Record accepted (u : ucfg) : Prop := {
  acc_level : exists lim, level_limit (d_prof (u_dec u)) = Some lim /\
    core_channels u <= lim /\ ref_channels u <= lim;
  acc_big : 16 < core_channels u \/ 16 < ref_channels u ->
    q_gch (u_sig u) = 0 /\ q_ghoa (u_sig u) = 0 /\
    forall i, (i < Z.to_nat (d_num (u_dec u)))%nat -> elem_allowed (u_dec u) i = true;
  acc_freq : 1 <= u_freq u <= 48000;
  acc_flen : 0 <= u_flen u <= 4;
  acc_num : 1 <= q_num (u_sig u) <= 16;
  acc_tot : tot (Z.to_nat (q_num (u_sig u))) (u_sig u);
  acc_elem : 1 <= d_num (u_dec u) <= 50 }.

Lemma profile_check_ok p core ref gch ghoa :
  profile_check p core ref gch ghoa = 0 ->
  exists lim, level_limit p = Some lim /\ core <= lim /\ ref <= lim /\
    (16 < core \/ 16 < ref -> gch = 0 /\ ghoa = 0).
Proof.
  unfold profile_check, level_limit. intros H.
  destruct ((p =? 0x0B) || (p =? 0x10)).
  { destruct ((5 <? core) || (5 <? ref)) eqn:E; [discriminate H|]. exists 5. split; [reflexivity|lia]. }
  destruct ((p =? 0x0C) || (p =? 0x11)).
  { destruct ((9 <? core) || (9 <? ref)) eqn:E; [discriminate H|]. exists 9. split; [reflexivity|lia]. }
  rewrite (orb_comm (p =? 0x0D)).
  destruct ((p =? 0x12) || (p =? 0x0D)); [|discriminate H].
  destruct (_ || _) eqn:E; [discriminate H|]. exists 24. split; [reflexivity|lia].
Qed.

Lemma core_view_sig u u' : core_view u' = core_view u ->
  core_channels u' = core_channels u /\ ref_channels u' = ref_channels u /\
  u_freq u' = u_freq u /\ u_flen u' = u_flen u /\
  q_num (u_sig u') = q_num (u_sig u) /\ q_gch (u_sig u') = q_gch (u_sig u) /\
  q_ghoa (u_sig u') = q_ghoa (u_sig u) /\ u_ref u' = u_ref u /\
  (forall j, tot j (u_sig u) -> tot j (u_sig u')).
Proof.
  unfold core_view. intros H.
  injection H as H1 H2 H3 H4 H5 H6 H7 H8 H9 H10 H11 H12 H13 H14 H15 H16 H17.
  unfold core_channels, ref_channels, tot. rewrite H2, H3, H5, H8, H9, H10, H11, H12, H13, H14, H15, H16.
  repeat split; intros; tauto.
Qed.

Lemma elem_allowed_view d d' i :
  (d_num d', d_type d', d_elem d', d_etype d') = (d_num d, d_type d, d_elem d, d_etype d) ->
  elem_allowed d' i = elem_allowed d i.
Proof. intros H. injection H as H1 H2 H3 H4. unfold elem_allowed. rewrite H2, H3, H4. reflexivity. Qed.

Lemma config_accepted user u :
  leaf (mpegh_3da_config user u) (fun r => fst r = 0 -> accepted (snd r)).
Proof.
  unfold mpegh_3da_config. cbv zeta.
  apply leaf_bind, leaf_rd. intros prof Hprof. specialize (Hprof ltac:(lia)).
  apply leaf_let. intros fi. destruct (_ && _) eqn:Efi; [discriminate|].
  apply leaf_bind. apply leaf_mono with (Q := fun v => 0 <= v).
  2:{ destruct (negb (fi =? 31)).
      - apply leaf_aget. intros v _ Hv. apply nth_error_In in Hv.
        repeat (destruct Hv as [<-|Hv]; [lia|]). destruct Hv.
      - apply leaf_rd. intros v Hv. specialize (Hv ltac:(lia)). lia. }
  intros fr Hfr0. destruct ((48000 <? fr) || (fr =? 0)) eqn:Efr; [discriminate|].
  apply leaf_bind, leaf_rd. intros fl Hfl. specialize (Hfl ltac:(lia)).
  destruct (Z.ltb_spec 4 fl); [discriminate|].
  apply leaf_let. intros _. apply leaf_let. intros rdc. apply leaf_let. intros [e l].
  destruct (negb (e =? 0)) eqn:Ee; [intros K; cbn [fst] in K; subst; discriminate|]. clear Ee e.
  apply leaf_bind. eapply leaf_mono; [|apply leaf_signals]. intros [e u1]. cbn [fst snd].
  intros (S1 & S2 & S3 & S4). cbn in S1, S2, S3.
  destruct (Z.eqb_spec e 0) as [->|Ne]; cbn [negb]; [|intros K; cbn [fst] in K; congruence].
  specialize (S4 eq_refl). destruct S4 as [S4 S5].
  apply leaf_bind. apply leaf_mono with (Q := fun ref => ref = ref_channels u1).
  2:{ unfold ref_channels. destruct (l_type (u_ref u1) =? 0); [|reflexivity].
      apply leaf_aget. intros v _ Hv. unfold num_ls. symmetry. apply nth_error_nth. exact Hv. }
  intros ref ->. apply leaf_bind. eapply leaf_mono; [|apply leaf_decoder_config].
  intros [e u2] [K1 K2]. unfold keeps in K1. cbn [fst snd] in *.
  destruct (Z.eqb_spec e 0) as [->|Ne]; cbn [negb]; [|intros K; cbn [fst] in K; congruence].
  specialize (K2 eq_refl).
  destruct (((16 <? _) || _) && _) eqn:Eel; [discriminate|].
  apply leaf_let. intros ext. apply leaf_bind.
  apply leaf_mono with (Q := fun r => fst r = 0 -> ext_view (snd r) = ext_view u2).
  2:{ destruct (negb (ext =? 0)).
      - generalize (if negb (user =? 0) then user else l_idx (u_ref u2)). intros cicp.
        destruct ((cicp <? 0) || (20 <? cicp)); [discriminate|]. apply leaf_bind. eapply leaf_mono; [|apply leaf_config_extension].
        intros [e u3] K3. cbn [snd] in K3.
        destruct (negb (e =? 0)) eqn:Ee; [intros K; cbn [fst] in K; subst; discriminate|].
        apply leaf_let. intros nl. intros _. cbn [snd]. exact K3.
      - destruct (1 <? _); intros _; reflexivity. }
  intros [e u3] K3. cbn [fst snd] in K3.
  destruct (Z.eqb_spec e 0) as [->|Ne]; cbn [negb]; [|intros K; cbn [fst] in K; congruence].
  specialize (K3 eq_refl). unfold ext_view in K3.
  assert (K := f_equal snd K3). apply (f_equal fst) in K3. cbn [fst snd] in K, K3. injection K as K4 K5 K6 K7.
  destruct (prof <? 11); [discriminate|].
  fold (core_channels u1) in *.
  destruct (Z.eqb_spec (profile_check (profile_used prof (d_compp (u_dec u3)) (d_compat (u_dec u3)))
     (core_channels u1) (ref_channels u1) (q_gch (u_sig u1)) (q_ghoa (u_sig u1))) 0) as [Ep|Ep];
    cbn [negb]; [|cbn [leaf fst]; congruence].
  apply profile_check_ok in Ep. destruct Ep as (lim & P1 & P2 & P3 & P4).
  cbn [leaf fst snd]. intros _.
  match goal with |- accepted (s_u_dec ?w _) => set (u4 := w) end.
  assert (V4 : core_view u4 = core_view u4 /\ u_sig u4 = u_sig u3 /\ u_ref u4 = u_ref u3 /\
     u_freq u4 = u_freq u3 /\ u_flen u4 = u_flen u3).
  { split; [reflexivity|]. subst u4. repeat match goal with |- context [if ?c then _ else _] => destruct c end;
      repeat split; reflexivity. }
  destruct V4 as (_ & V1 & V2 & V3 & V4). clearbody u4.
  destruct (core_view_sig u1 u2 K1) as (C1 & C2 & C3 & C4 & C5 & C6 & C7 & C8 & C9).
  destruct (core_view_sig u2 u3 K3) as (D1 & D2 & D3 & D4 & D5 & D6 & D7 & D8 & D9).
  assert (X1 : core_channels (s_u_dec u4 (s_d_prof (u_dec u3) (profile_used prof (d_compp (u_dec u3)) (d_compat (u_dec u3))))) = core_channels u1).
  { rewrite <- C1, <- D1. unfold core_channels. cbn [u_sig s_u_dec]. rewrite V1. reflexivity. }
  assert (X2 : ref_channels (s_u_dec u4 (s_d_prof (u_dec u3) (profile_used prof (d_compp (u_dec u3)) (d_compat (u_dec u3))))) = ref_channels u1).
  { rewrite <- C2, <- D2. unfold ref_channels. cbn [u_ref s_u_dec]. rewrite V2. reflexivity. }
  constructor; rewrite ?X1, ?X2; cbn.
  - exists lim. auto.
  - intros Hb. rewrite V1, D6, D7, C6, C7. destruct (P4 Hb) as [P5 P6]. split; [exact P5|split; [exact P6|]].
    intros i Hi. change (elem_allowed (s_d_prof (u_dec u3) (profile_used prof (d_compp (u_dec u3)) (d_compat (u_dec u3)))) i)
      with (elem_allowed (u_dec u3) i).
    rewrite (elem_allowed_view (u_dec u2) (u_dec u3)) by congruence.
    assert (Hf : forallb (elem_allowed (u_dec u2)) (seq 0 (Z.to_nat (d_num (u_dec u2)))) = true).
    { destruct (forallb _ _); [reflexivity|]. lia. }
    rewrite forallb_forall in Hf. apply Hf, in_seq. rewrite K4 in Hi. lia.
  - rewrite V3, D3, C3, S1. lia.
  - rewrite V4, D4, C4, S2. lia.
  - rewrite V1, D5, C5. exact S4.
  - rewrite V1, D5, C5. apply D9, C9, S5.
  - rewrite K4. exact K2.
Qed.
