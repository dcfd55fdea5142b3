(** * Lem_Displace: where scene displacement finds the channels of each kind of layout *)

From Coq Require Import ZArith List Lia Bool.
From Verif Require Import Bits BitBuf BitWrite Prog Asi Escape Wp Cicp Config Spec_Asi Lem_MhasProps Lem_ConfigSafe Lem_AsiRT
  Spec_Flex Spec_ConfigFull Lem_Flex Displace.
Import ListNotations.
Open Scope Z_scope.

Lemma named_pos i l grp k bs : holds_reflay (RNamed i) l -> 1 <= i <= 20 ->
  runA (channel_pos l grp k (num_ls i)) bs = Done (Some (0, 0), bs).
Proof.
  intros [_ H] I. unfold channel_pos. rewrite H. destruct (Z.ltb_spec 0 i); [|lia]. rewrite Z.eqb_refl. reflexivity.
Qed.

Lemma entry_pos l grp k n v f az el lfe bs : l_idx l = 0 -> 0 <= k -> l_num l = n ->
  nth_error (l_spk l) (Z.to_nat k) = Some v -> 0 <= v ->
  nth_error (l_flex l) (Z.to_nat k) = Some f -> 0 <= f_idx f ->
  nth_error ls_geo_tbl (Z.to_nat (f_idx f)) = Some (az, el, lfe) ->
  runA (channel_pos l grp k n) bs = Done (Some (az, el), bs).
Proof.
  intros HI HK HN HV V0 HF HX HG. unfold channel_pos. rewrite HI. change (0 <? 0) with false. cbv iota.
  rewrite (runA_aget _ _ v) by auto. rewrite HN, Z.eqb_refl. cbn [negb].
  rewrite (runA_aget _ _ f) by auto. destruct (Z.leb_spec 0 v); [|lia].
  rewrite (runA_aget _ _ (az, el, lfe)) by auto. reflexivity.
Qed.

Lemma Forall2_nth {A B} (P : A -> B -> Prop) l m : Forall2 P l m -> forall i x, nth_error l i = Some x ->
  exists y, nth_error m i = Some y /\ P x y.
Proof.
  induction 1 as [|a b l m H F IH]; intros [|i] x Hx; cbn in *; try discriminate.
  - injection Hx as <-. eauto.
  - apply IH. exact Hx.
Qed.
Lemma nth_err_len {A} (l : list A) i x : nth_error l i = Some x -> (i < length l)%nat.
Proof. intros H. apply nth_error_Some. congruence. Qed.

Lemma flex_entry fine xs l k x : holds_reflay (RFlex fine xs) l -> nth_error (speakers xs) k = Some x ->
  exists f, nth_error (l_flex l) k = Some f /\ holds_spk fine x f.
Proof.
  intros (_ & _ & _ & F) H. destruct (Forall2_nth _ _ _ F k x H) as (f & Hf & P). exists f. split; [|exact P].
  rewrite nth_firstn_lt in Hf; [exact Hf|]. exact (nth_err_len _ _ _ H).
Qed.

Lemma geo_get i : 0 <= i <= 42 -> nth_error ls_geo_tbl (Z.to_nat i) = Some (ls_geo i).
Proof. intros H. unfold ls_geo. apply nth_error_nth'. cbn. lia. Qed.

Lemma flex_index_pos fine xs l grp k i m bs : holds_reflay (RFlex fine xs) l -> l_idx l = 0 -> lay_dim l ->
  Forall (fun v => 0 <= v) (l_spk l) -> (length (speakers xs) <= 24)%nat ->
  nth_error (speakers xs) k = Some (ByIndex i, m) -> 0 <= i <= 42 ->
  runA (channel_pos l grp (Z.of_nat k) (Z.of_nat (length (speakers xs)))) bs = Done (Some (fst (ls_geo i)), bs).
Proof.
  intros H HI [D1 D2] NN L HK I. destruct (flex_entry _ _ _ _ _ H HK) as (f & Hf & P1 & P2).
  destruct (nth_err_some (l_spk l) k) as [v Hv]; [apply nth_err_len in HK; lia|].
  rewrite (surjective_pairing (fst (ls_geo i))).
  apply entry_pos with (v := v) (f := f) (lfe := snd (ls_geo i)); rewrite ?Nat2Z.id; auto; try lia.
  - apply H.
  - exact (nth_error_Forall _ _ _ _ NN Hv).
  - rewrite P2, geo_get by exact I. destruct (ls_geo i) as [[a b] c]. reflexivity.
Qed.

Lemma first_pos l grp k bs : l_idx l = 0 -> lay_dim l -> Forall (fun v => 0 <= v) (l_spk l) -> 0 <= l_num l <= 24 ->
  Z.of_nat k < l_num l -> (forall f, nth_error (l_flex l) k = Some f -> f_idx f = 0) ->
  runA (channel_pos l grp (Z.of_nat k) (l_num l)) bs = Done (Some (30, 0), bs).
Proof.
  intros HI [D1 D2] NN L HK HF.
  destruct (nth_err_some (l_spk l) k) as [v Hv]; [lia|]. destruct (nth_err_some (l_flex l) k) as [f Hf]; [lia|].
  apply entry_pos with (v := v) (f := f) (lfe := 0); rewrite ?Nat2Z.id; auto; try lia.
  - exact (nth_error_Forall _ _ _ _ NN Hv).
  - rewrite (HF f Hf). lia.
  - rewrite (HF f Hf). reflexivity.
Qed.
