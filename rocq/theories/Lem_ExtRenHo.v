(** * Lem_ExtRenHo: the HOA metadata as the external renderer reads it *)

From Coq Require Import ZArith List Lia Bool ZifyBool.
From Verif Require Import Bits BitBuf BitWrite Prog Wp F32 Pcm Config Hoa Oam Lem_MhasProps
  Spec_Config Spec_ConfigFull ExtRen Spec_ExtRen Lem_OamFrame Lem_ExtRen Lem_ExtRenCh Lem_ExtRenOb.
Import ListNotations.
Open Scope Z_scope.

Definition p_preset : prog (Z * gscreen) :=
  i <- rd 5 ;; h <- rd 1 ;;
  if h =? 0 then Ret (i, GStd) else
  c <- rd 1 ;;
  if c =? 0 then
    a <- rd 10 ;; b <- rd 10 ;; t <- rd 9 ;; e <- rd 9 ;; Ret (i, GSides a b t e)
  else a <- rd 9 ;; t <- rd 9 ;; e <- rd 9 ;; Ret (i, GCentered a t e).

Lemma send_screen s x : screen_ok s x ->
  exists ops v, x_screen_ext x = Done ops /\ screen_view s x v /\ sends (x_screen s ++ ops) p_screen v.
Proof.
  intros (H1 & H2 & H3 & H4 & H5 & H6 & H7 & H8 & H9). unfold x_screen_ext.
  match goal with |- context [each _ _ ?f] => set (body := f) end.
  destruct (each_sends p_preset (fun k e => pre_view x k e) body (Z.to_nat (sx_num x)) 0 0%nat)
    as (ops & vs & E & L & N & Sv).
  { intros k Hk. destruct (H9 k Hk) as ((id & N1 & R1) & (non & N2 & R2) & (cen & N3 & R3) & (lf & N4 & R4) &
      (rt & N5 & R5) & (tp & N6 & R6) & (bt & N7 & R7)).
    unfold body. rewrite Z.add_0_l, (el_nth _ _ _ N1), (el_nth _ _ _ N2).
    assert (V : pre_view x (0 + k) (id, if non =? 0 then GStd else if cen =? 0 then GSides lf rt tp bt else GCentered lf tp bt)).
    { exists non, cen, lf, rt, tp, bt. cbn [Nat.add fst snd]. repeat split; auto. }
    destruct (Z.eqb_spec non 0).
    { do 2 eexists. split; [reflexivity|]. split; [exact V|]. subst non.
      split; [okW|]. intros r. unfold p_preset. rdw. rdw. reflexivity. }
    assert (non = 1) by lia. subst non.
    rewrite (el_nth _ _ _ N3), (el_nth _ _ _ N4), (el_nth _ _ _ N5), (el_nth _ _ _ N6), (el_nth _ _ _ N7).
    do 2 eexists. split; [reflexivity|]. split; [exact V|]. assert (C : cen = 0 \/ cen = 1) by lia.
    destruct C as [-> | ->]; cbn [Z.eqb Pos.eqb app]; (split; [okW|]); intros r; unfold p_preset; rdw; rdw;
      cbn [Z.eqb Pos.eqb]; rdw; cbn [Z.eqb Pos.eqb]; repeat rdw; reflexivity. }
  rewrite E. eexists. exists (mkGs (if sz_non s =? 0 then None else Some (sz_az s, sz_el s, sz_bot s))
    (if sx_over x =? 0 then None else Some (sx_dl x, sx_dr x)) vs).
  split; [reflexivity|]. split; [repeat split; auto|].
  assert (C1 : sz_non s = 0 \/ sz_non s = 1) by lia. assert (C2 : sx_over x = 0 \/ sx_over x = 1) by lia.
  destruct Sv as (O & R).
  unfold x_screen. destruct C1 as [C1|C1], C2 as [C2|C2]; rewrite C1, C2; cbn [Z.eqb Pos.eqb app];
    (split; [okW; exact O|]); intros r; unfold p_screen; rdw; cbn [Z.eqb Pos.eqb]; rewrite ?bind_assoc; cbn [bind];
    repeat (rewrite ?bind_assoc; rdw; cbn [bind Z.eqb Pos.eqb]); fold p_preset; rewrite runA_bind, R; reflexivity.
Qed.

Lemma hoa_at_cons ts : forall k j js, hoa_at ts k = j :: js ->
  exists m, j = (k + m)%nat /\ nth_error ts m = Some 3 /\
    (forall i, (i < m)%nat -> exists t, nth_error ts i = Some t /\ t <> 3) /\
    hoa_at (skipn (S m) ts) (S j) = js.
Proof.
  induction ts as [|t ts IH]; intros k j js H; [discriminate|]. cbn [hoa_at] in H.
  destruct (Z.eqb_spec t 3) as [->|Ne].
  - injection H as <- <-. exists 0%nat. split; [lia|]. split; [reflexivity|]. split; [intros i Hi; lia|].
    reflexivity.
  - destruct (IH _ _ _ H) as (m & -> & N & B & T). exists (S m). split; [lia|]. split; [exact N|]. split.
    + intros [|i] Hi; [exists t; auto|]. apply B. lia.
    + exact T.
Qed.
Lemma seek_to ty types : forall m i fuel, (m <= fuel)%nat ->
  nth_error types (i + m) = Some ty ->
  (forall k, (k < m)%nat -> exists t, nth_error types (i + k) = Some t /\ t <> ty) ->
  seek fuel ty types (Z.of_nat i) = Done (Z.of_nat (i + m)).
Proof.
  induction m as [|m IH]; intros i fuel Hf N B.
  - rewrite Nat.add_0_r in *. destruct fuel; cbn [seek]; rewrite (el_nth _ _ _ N), Z.eqb_refl; reflexivity.
  - destruct fuel as [|fuel]; [lia|]. cbn [seek]. destruct (B 0%nat ltac:(lia)) as (t & T & Tn).
    rewrite Nat.add_0_r in T. rewrite (el_nth _ _ _ T). destruct (Z.eqb_spec t ty); [contradiction|].
    replace (Z.of_nat i + 1) with (Z.of_nat (S i)) by lia. rewrite IH; [f_equal; lia|lia| |].
    + replace (S i + m)%nat with (i + S m)%nat by lia. exact N.
    + intros k Hk. replace (S i + k)%nat with (i + S k)%nat by lia. apply B. lia.
Qed.

Lemma nth_skipn' {A} (l : list A) i k : nth_error (skipn i l) k = nth_error l (i + k).
Proof. revert i. induction l as [|x l IH]; intros [|i]; try reflexivity; [destruct k; reflexivity|]. cbn [skipn Nat.add nth_error]. apply IH. Qed.
Lemma nth_firstn_some {A} (l : list A) n k x : nth_error (firstn n l) k = Some x -> nth_error l k = Some x.
Proof.
  revert n k. induction l as [|y l IH]; intros n k H; destruct n; destruct k; try discriminate H; auto.
  cbn [firstn nth_error] in H. apply IH in H. exact H.
Qed.

Lemma send_hgroup a i j js num : ho_ok a ->
  hoa_at (skipn i (firstn num (q_type (a_sig a)))) i = j :: js ->
  (exists f, nth_error (q_fixed (a_sig a)) j = Some f /\ 0 <= f <= 1) ->
  (exists p, nth_error (q_prio (a_sig a)) j = Some p /\ 0 <= p <= 7) ->
  exists ops g, x_hoa_group a (Z.of_nat i) = Done (ops, Z.of_nat (S j)) /\ ho_view a j g /\
    sends ops p_gha_group g /\ hoa_at (skipn (S j) (firstn num (q_type (a_sig a)))) (S j) = js.
Proof.
  intros (H1 & H2 & Hn & Hm & Hs & Sc & _) T (f & Nf & Rf) (p & Np & Rp).
  destruct (hoa_at_cons _ _ _ _ T) as (m & -> & N & B & Rest).
  rewrite nth_skipn' in N.
  unfold x_hoa_group.
  assert (Lm : (i + m < length (q_type (a_sig a)))%nat).
  { apply nth_firstn_some in N. apply nth_error_Some. congruence. }
  rewrite (seek_to 3 _ m); [| lia | eapply nth_firstn_some, N | ].
  2:{ intros k Hk. destruct (B k Hk) as (t & Nt & Tn). rewrite nth_skipn' in Nt. exists t.
      split; [eapply nth_firstn_some, Nt|exact Tn]. }
  rewrite (el_nth _ _ _ Nf), (el_nth _ _ _ Np), Hn, Hm. cbn [Z.eqb].
  destruct (send_screen _ _ Sc) as (sops & v & Es & Vs & (Os & Rs)).
  assert (C : a_srel a = 0 \/ a_srel a = 1) by lia.
  assert (Sk : hoa_at (skipn (S (i + m)) (firstn num (q_type (a_sig a)))) (S (i + m)) = js).
  { rewrite <- Rest. f_equal. rewrite skipn_skipn_add. f_equal. lia. }
  destruct C as [C|C]; rewrite C; cbn [Z.eqb].
  - eexists. exists (mkGh f p (a_order a) None None None).
    split; [do 2 f_equal; lia|]. split; [repeat split; auto|]. split; [|exact Sk].
    cbn [app]. split; [okW|]. intros r. unfold p_gha_group. repeat (rdw; cbn [Z.eqb bind]). reflexivity.
  - rewrite Es. set (X := x_screen (a_scr a) ++ sops) in *. clearbody X.
    eexists. exists (mkGh f p (a_order a) None None (Some v)).
    split; [do 2 f_equal; lia|]. split; [repeat split; auto; try apply Vs|]. split; [|exact Sk].
    cbn [app]. split; [okW; exact Os|]. intros r. unfold p_gha_group. repeat (rdw; cbn [Z.eqb bind]).
    rewrite bind_assoc, runA_bind, Rs. reflexivity.
Qed.

Lemma send_hgroups a num : ho_ok a -> forall js i,
  hoa_at (skipn i (firstn num (q_type (a_sig a)))) i = js ->
  (forall j, In j js ->
    (exists f, nth_error (q_fixed (a_sig a)) j = Some f /\ 0 <= f <= 1) /\
    (exists p, nth_error (q_prio (a_sig a)) j = Some p /\ 0 <= p <= 7)) ->
  exists ops gs, x_hoa_groups (length js) (Z.of_nat i) a = Done ops /\ Forall2 (ho_view a) js gs /\
    sends ops (many (length js) p_gha_group) gs.
Proof.
  intros Ok. induction js as [|j js IH]; intros i T H.
  - exists [], []. split; [reflexivity|]. split; [constructor|]. split; [constructor|reflexivity].
  - destruct (H j (or_introl eq_refl)) as (Hf & Hp).
    destruct (send_hgroup a i j js num Ok T Hf Hp) as (o & g & E & V & (O1 & R1) & Rest).
    destruct (IH (S j) Rest) as (ops & gs & E2 & V2 & (O2 & R2)).
    { intros k Hk. apply H. right. exact Hk. }
    exists (o ++ ops), (g :: gs). cbn [length x_hoa_groups]. rewrite E, E2. split; [reflexivity|].
    split; [constructor; assumption|]. split; [apply Forall_app; auto|]. intros r. cbn [many].
    rewrite obits_app, <- app_assoc, runA_bind, R1, runA_bind, R2. reflexivity.
Qed.

Lemma hoa_at_len ts : forall k, (length (hoa_at ts k) <= length ts)%nat.
Proof. induction ts as [|t ts IH]; intros k; [cbn; lia|]. cbn [hoa_at]. destruct (t =? 3); cbn [length]; specialize (IH (S k)); lia. Qed.

Lemma send_hoa a mem : ho_ok a -> are_bytes mem -> (0 < length mem)%nat ->
  exists d n gs, ho_store a mem = Done (d, n) /\ length d = length mem /\
    Forall2 (ho_view a) (hoa_at (firstn (Z.to_nat (q_num (a_sig a))) (q_type (a_sig a))) 0) gs /\
    (n <= Z.of_nat (length mem) -> reads p_gha d (mkFc (a_fl a / 64) 0 0, gs)).
Proof.
  intros Ok B L. pose proof Ok as (H1 & H2 & Hn & Hm & Hs & Sc & Pm & Tl & Q & Hj).
  set (js := hoa_at _ 0) in *.
  destruct (send_hgroups a (Z.to_nat (q_num (a_sig a))) Ok js 0 eq_refl Hj) as (ops & gs & E & V & (O & R)).
  unfold ho_store, x_hoa_meta. rewrite Q, Nat2Z.id. cbn [Z.of_nat] in E. rewrite E.
  assert (Lj : (length js <= 32)%nat).
  { unfold js. etransitivity; [apply hoa_at_len|]. rewrite firstn_length. lia. }
  destruct (Z.eqb_spec (pm_present (a_prod a)) 1); [contradiction|].
  rewrite Z.shiftr_div_pow2 by lia. change (2 ^ 6) with 64.
  assert (F : 0 <= a_fl a / 64 < 64).
  { split; [apply Z.div_pos; lia|apply Z.div_lt_upper_bound; lia]. }
  rewrite app_nil_r.
  destruct (store_reads (WB (a_fl a / 64) 6 :: WB 0 2 :: WB (Z.of_nat (length js)) 9 :: ops)
     mem p_gha (mkFc (a_fl a / 64) 0 0, gs)) as (d & m & E2 & _ & Ld & Rd); auto.
  { set (q := a_fl a / 64) in *. clearbody q. split.
    - okW. exact O.
    - intros r. unfold p_gha, p_frame. rewrite bind_assoc. rdw. rewrite bind_assoc. rdw. cbn [Z.eqb bind].
      rdw. rewrite Nat2Z.id, runA_bind, R. reflexivity. }
  exists d, m, gs. auto.
Qed.
