(** * Lem_DrcRTI: round trip of DRC instruction blocks and of the whole configuration *)

From Coq Require Import ZArith List Lia Bool Permutation.
From Verif Require Import Bits BitBuf Prog Asi Wp Wlp Leaf Loud DrcCfg Spec_Asi Spec_Drc Spec_DrcCfg
  Lem_Asi Lem_AsiRT Lem_Loud Lem_DrcCfg Lem_DrcGrp Lem_DrcRT.
Import ListNotations.
Open Scope Z_scope.

(** ** The channel list *)
Lemma repeat_loop {A} (a : A) : forall n i acc bs, (length acc + n <= 16)%nat ->
  runA (forP n i (fun _ l => chk (zlen l) CHANNEL_MAX ;;; Ret (l ++ [a])) acc) bs = Done (acc ++ repeat a n, bs).
Proof.
  induction n as [|n IH]; intros i acc bs H; cbn [forP repeat].
  - rewrite app_nil_r. reflexivity.
  - rewrite runA_bind, runA_chk by (unfold zlen, CHANNEL_MAX; lia). cbn [runA].
    rewrite IH by (rewrite app_length; cbn; lia). rewrite <- app_assoc. reflexivity.
Qed.

Lemma expand_cons {A} (r : m_run A) rs : expand (r :: rs) =
  (fst r :: match snd r with None => [] | Some n => repeat (fst r) (Z.to_nat (n + 1)) end) ++ expand rs.
Proof. reflexivity. Qed.

Lemma channels_rt {M A} (val : M -> A) (enc : M -> list bool) (item : prog (res (A * Z)))
    (ok : M -> Prop) :
  (forall m b rest, ok m -> runA item (enc m ++ flag b ++ rest) = Done (Ok (val m, b2z b), rest)) ->
  forall (runs : list (m_run M)) fuel cnt acc rest,
  Forall (fun r => ok (fst r) /\ fits_opt 5 (snd r)) runs ->
  zlen acc + Z.of_nat (length (expand runs)) = cnt -> cnt <= 16 -> (Z.to_nat (cnt - zlen acc) <= fuel)%nat ->
  runA (channel_loop fuel item cnt acc) (concat (map (fun r => enc (fst r) ++ enc_more (snd r)) runs) ++ rest)
  = Done (Ok (acc ++ map val (expand runs)), rest).
Proof.
  intros HI. induction runs as [|[m o] runs IH]; intros fuel cnt acc rest HF HC H16 HN.
  - cbn in HC. cbn [map concat app].
    destruct fuel; cbn [channel_loop]; (destruct (Z.leb_spec cnt (zlen acc)); [|lia]); cbn; rewrite app_nil_r; reflexivity.
  - rewrite expand_cons in HC |- *. cbn [fst snd] in HC |- *. rewrite app_length in HC. cbn [length] in HC.
    destruct fuel as [|fuel]; [lia|]. cbn [channel_loop].
    destruct (Z.leb_spec cnt (zlen acc)); [lia|].
    pose proof (Forall_inv HF) as (Hm & Ho). cbn [fst snd] in Hm, Ho.
    cbn [map concat fst snd]. rewrite <- !app_assoc. rewrite runA_bind.
    set (R := concat _ ++ rest).
    assert (E1 : runA item (enc m ++ enc_more o ++ R)
       = Done (Ok (val m, match o with None => 0 | Some _ => 1 end), match o with None => R | Some n => bits_of 5 n ++ R end)).
    { unfold enc_more. destruct o as [n|]; [rewrite <- app_assoc|]; rewrite HI by exact Hm; reflexivity. }
    rewrite E1. rewrite runA_chk by (unfold zlen, CHANNEL_MAX in *; lia). cbv zeta.
    assert (ZA : zlen (acc ++ [val m]) = zlen acc + 1) by (unfold zlen; rewrite app_length; cbn; lia).
    destruct o as [n|].
    + cbn in Ho. rewrite repeat_length in HC. assert (Hn := Ho). unfold fits in Hn. change (2 ^ 5) with 32 in Hn.
      cbn [Z.eqb Pos.eqb]. rewrite runA_rdb; [|reflexivity|lia|exact Ho].
      rewrite ZA. destruct (Z.ltb_spec CHANNEL_MAX (zlen acc + 1 + (n + 1))) as [H1|_]; [unfold CHANNEL_MAX in H1; lia|].
      rewrite runA_bind, repeat_loop by (unfold zlen in *; rewrite app_length; cbn [length]; lia).
      unfold R. rewrite IH; [|exact (Forall_inv_tail HF)| |exact H16|].
      * rewrite <- !app_assoc. cbn [app map]. rewrite map_app. do 4 f_equal.
        f_equal. f_equal. clear. induction (Z.to_nat (n + 1)); cbn; congruence.
      * unfold zlen in *. rewrite !app_length, repeat_length. cbn [length]. lia.
      * unfold zlen in *. rewrite !app_length, repeat_length. cbn [length]. lia.
    + cbn [Z.eqb]. unfold R. rewrite IH; [|exact (Forall_inv_tail HF)| |exact H16|].
      * rewrite <- app_assoc. reflexivity.
      * cbn [length] in HC. lia.
      * lia.
Qed.

Lemma plain_item_rt n o b rest : n <= 24 -> index_in n o ->
  runA plain_item (bits_of 6 (index_code o) ++ flag b ++ rest) = Done (Ok (index_of o, b2z b), rest).
Proof.
  intros HN HI. assert (H : 0 <= index_code o <= 24) by (destruct o; cbn in *; lia).
  unfold plain_item, flag. rewrite (runA_rd2 7 6 1); [|reflexivity|lia|change (2 ^ Z.of_nat 6) with 64; lia|destruct b; cbn; lia].
  change (2 ^ Z.of_nat 1) with 2. cbv zeta. assert (Hb : 0 <= b2z b < 2) by (destruct b; cbn; lia).
  rewrite Z.add_comm, Z.div_add, Z.div_small, Z.mod_add, Z.add_0_l by lia. rewrite !Z.mod_small by lia.
  destruct (Z.ltb_spec GAIN_SET_MAX (index_code o)) as [H1|_]; [unfold GAIN_SET_MAX in H1; lia|].
  cbn [runA]. do 4 f_equal. destruct o; cbn; lia.
Qed.

Lemma duck_item_rt n (m : option Z * option (bool * Z)) b rest : n <= 24 -> index_in n (fst m) -> fits_signed5 3 (snd m) ->
  runA duck_item ((bits_of 6 (index_code (fst m)) ++ enc_scaling (snd m)) ++ flag b ++ rest)
  = Done (Ok ((index_of (fst m), scaling_of (snd m)), b2z b), rest).
Proof.
  intros HN HI HS. assert (H : 0 <= index_code (fst m) <= 24) by (destruct (fst m); cbn in *; lia).
  unfold duck_item. rewrite <- app_assoc. rewrite runA_rdb; [|reflexivity|lia|change (2 ^ 6) with 64; lia].
  destruct (Z.ltb_spec GAIN_SET_MAX (index_code (fst m))) as [H1|_]; [unfold GAIN_SET_MAX in H1; lia|].
  rewrite runA_bind, scaling_rt by exact HS. rewrite runA_flag. cbn [runA]. do 5 f_equal.
  destruct (fst m); cbn; lia.
Qed.

(** ** Grouping *)
Lemma group_loop_run {A} eqb unused (l : list A) : forall uniq cg bs, (length uniq + length l <= 16)%nat ->
  exists u c, runA (group_loop eqb unused l uniq cg) bs = Done ((u, c), bs) /\ (length u <= length uniq + length l)%nat.
Proof.
  induction l as [|x l IH]; intros uniq cg bs H; cbn [group_loop].
  - eexists _, _. split; [reflexivity|lia].
  - cbn [length] in H |- *. destruct (unused x).
    + destruct (IH uniq (cg ++ [-1]) bs) as (u & c & E & L); [lia|]. exists u, c. split; [exact E|lia].
    + destruct (find_pos eqb x uniq 0) as [n|].
      * destruct (IH uniq (cg ++ [n]) bs) as (u & c & E & L); [lia|]. exists u, c. split; [exact E|lia].
      * rewrite runA_chk by (unfold zlen, CHANNEL_MAX; lia).
        destruct (IH (uniq ++ [x]) (cg ++ [zlen uniq]) bs) as (u & c & E & L); [rewrite app_length; cbn; lia|].
        exists u, c. split; [exact E|]. rewrite app_length in L. cbn in L. lia.
Qed.

Lemma group_loop_pure {A} eqb unused (l : list A) : forall uniq cg bs bs' x y b b',
  runA (group_loop eqb unused l uniq cg) bs = Done (x, b) -> runA (group_loop eqb unused l uniq cg) bs' = Done (y, b') -> y = x.
Proof.
  induction l as [|a l IH]; intros uniq cg bs bs' x y b b'; cbn [group_loop].
  - cbn. congruence.
  - destruct (unused a); [apply IH|]. destruct (find_pos eqb a uniq 0); [apply IH|].
    unfold chk. destruct (_ && _); cbn [bind runA]; [apply IH|discriminate].
Qed.

Lemma duck_loop_run k : 0 <= k -> forall (l : list (Z * Z)) uniq cg seq bs, (length uniq + length l <= 16)%nat ->
  (seq = -1 \/ seq = k) -> (forall c, In c l -> 0 <= fst c -> fst c = k) ->
  (seq = k \/ exists c, In c l /\ fst c = k) ->
  exists u c, runA (duck_other_loop l uniq cg seq) bs = Done (Ok (u, c, k), bs) /\ (length u <= length uniq + length l)%nat.
Proof.
  intros Hk. induction l as [|[idx f] l IH]; intros uniq cg seq bs H HS HA HE; cbn [duck_other_loop].
  - destruct HE as [->|(c & [] & _)]. destruct (Z.eqb_spec k (-1)); [lia|]. eexists _, _. split; [reflexivity|lia].
  - cbn [length] in H |- *. destruct (Z.leb_spec 0 idx) as [Hi|Hi].
    + assert (idx = k) by (apply (HA (idx, f)); [left; reflexivity|exact Hi]). subst idx.
      replace (negb (k =? seq) && (0 <? seq)) with false.
      2: { destruct HS as [->| ->]; [rewrite andb_comm; reflexivity|rewrite Z.eqb_refl; reflexivity]. }
      destruct (IH uniq (cg ++ [-1]) k bs) as (u & c & E & L); [lia|auto| |auto|].
      * intros c Hc. apply HA. right. exact Hc.
      * exists u, c. split; [exact E|lia].
    + assert (HE' : seq = k \/ exists c, In c l /\ fst c = k).
      { destruct HE as [->|(c & [<-|Hc] & X)]; [auto|cbn in X; lia|]. right. eauto. }
      assert (HA' : forall c, In c l -> 0 <= fst c -> fst c = k) by (intros c Hc; apply HA; right; exact Hc).
      destruct (find_pos Z.eqb f uniq 0) as [n|].
      * destruct (IH uniq (cg ++ [n]) seq bs) as (u & c & E & L); [lia|auto|auto|auto|]. exists u, c. split; [exact E|lia].
      * rewrite runA_chk by (unfold zlen, CHANNEL_MAX; lia).
        destruct (IH (uniq ++ [f]) (cg ++ [zlen uniq]) seq bs) as (u & c & E & L); [rewrite app_length; cbn; lia|auto|auto|auto|].
        exists u, c. split; [exact E|]. rewrite app_length in L. cbn in L. lia.
Qed.

Lemma part_in {A B} (key : A -> B) U chs gr cg : partitioned key U chs gr cg ->
  forall b, In b gr <-> exists x, In x chs /\ U x /\ key x = b.
Proof.
  intros (P1 & P2 & P3 & P4 & P5) b. split.
  - intros H. apply In_nth_error in H. destruct H as (g & Hg). destruct (P5 _ _ Hg) as (ch & x & X1 & X2 & X3 & _).
    exists x. split; [eapply nth_error_In; eauto|auto].
  - intros (x & X1 & X2 & <-). apply In_nth_error in X1. destruct X1 as (ch & X1).
    destruct (P4 _ _ X1 X2) as (g & _ & G). eapply nth_error_In; eauto.
Qed.
Lemma same_length {A} (l r : list A) : NoDup l -> NoDup r -> (forall x, In x l <-> In x r) -> length l = length r.
Proof. intros H1 H2 H. apply Permutation_length, NoDup_Permutation; assumption. Qed.

(** ** Gain modifiers of the groups *)
Definition mods_body (c : coef) (uniq : list Z) (g : nat) (acc : list gmod) : prog (res (list gmod)) :=
  i <- aget uniq (Z.of_nat g) ;;
  if i <? 0 then Ret (Er E_DRC_UNEXPECTED) else
  chk (Z.of_nat g) GROUP_MAX ;;;
  bc <- band_count_of c i ;;
  m <- gain_modifiers bc ;;
  Ret (Ok (acc ++ [m])).

Lemma stored_sets_length cut : forall ms k gs, stored_sets cut k ms gs -> length gs = length ms.
Proof. induction ms as [|m ms IH]; intros k [|g gs] H; cbn in *; try tauto. f_equal. eapply IH, H. Qed.
Lemma stored_sets_nth cut : forall ms k gs j m, stored_sets cut k ms gs -> nth_error ms j = Some m ->
  exists g k', nth_error gs j = Some g /\ stored_set cut k' m g.
Proof.
  induction ms as [|m0 ms IH]; intros k [|g gs] j m H E; cbn in H; try tauto.
  - destruct j; discriminate.
  - destruct j as [|j]; cbn in E.
    + inversion E; subst. exists g, k. split; [reflexivity|apply H].
    + destruct H as (_ & H). destruct (IH _ _ _ _ H E) as (g' & k' & X & Y). exists g', k'. auto.
Qed.

Definition valid_mod (m : m_mod) : Prop :=
  match mm_scale m with None => True | Some (a, b) => fits 4 a /\ fits 4 b end /\ fits_signed5 5 (mm_off m).

Lemma valid_set_bands m : valid_set m -> n_bands m <= 4.
Proof. intros (_ & V). unfold n_bands. destruct (_ =? 3); [lia|]. destruct V as (V & _). lia. Qed.

Definition mod_in (mc : m_coef) (g : gmod) (k : Z) : Prop :=
  exists s, nth_error (mc_sets mc) (Z.to_nat k) = Some s /\ gm_bands g = n_bands s.

Lemma mods_rt mc c : stored_coef to_word8 mc c -> Forall valid_set (mc_sets mc) ->
  forall suf mods pre acc rest, length suf = length mods -> Forall valid_mod mods ->
  (length pre + length suf <= 16)%nat -> (forall k, In k suf -> 0 <= k < Z.of_nat (length (mc_sets mc))) ->
  exists gs, runA (forR (length suf) (length pre) (mods_body c (pre ++ suf)) acc) (concat (map enc_mod mods) ++ rest)
      = Done (Ok (acc ++ gs), rest) /\
    map (fun g => (gm_att g, gm_amp g)) gs = map (fun x => match mm_scale x with None => (8, 8) | Some p => p end) mods /\
    map gm_off gs = map (fun x => match mm_off x with None => 0 | Some (true, v) => - (1 + v) | Some (false, v) => 1 + v end) mods /\
    Forall2 (mod_in mc) gs suf.
Proof.
  intros (_ & SS) HV. induction suf as [|k suf IH]; intros [|m mods] pre acc rest HL HM HN HK; cbn in HL; try discriminate.
  - exists []. cbn. rewrite app_nil_r. repeat split; auto.
  - cbn [length forR map concat]. rewrite runA_bind. unfold mods_body at 1.
    rewrite (runA_aget _ _ k); [|lia|rewrite Nat2Z.id, nth_error_app2, Nat.sub_diag by lia; reflexivity].
    assert (Hk := HK k (or_introl eq_refl)). destruct (Z.ltb_spec k 0); [lia|].
    cbn [length] in HN. rewrite runA_chk by (unfold GROUP_MAX; lia).
    destruct (nth_error (mc_sets mc) (Z.to_nat k)) as [ms|] eqn:EM; [|apply nth_error_None in EM; lia].
    destruct (stored_sets_nth _ _ _ _ _ _ SS EM) as (g & k' & EG & SG).
    assert (VS : valid_set ms) by (apply nth_error_In in EM; rewrite Forall_forall in HV; auto).
    assert (BC : forall (K : Z -> prog (res (list gmod))) bs, runA (bind (band_count_of c k) K) bs = runA (K (n_bands ms)) bs).
    { intros K bs. unfold band_count_of, zlen. rewrite (stored_sets_length _ _ _ _ SS).
      destruct (Z.ltb_spec k (Z.of_nat (length (mc_sets mc)))); [|lia].
      rewrite bind_assoc, (runA_aget _ _ g) by (lia || exact EG). cbn [bind].
      destruct SG as (_ & _ & _ & _ & _ & -> & _). reflexivity. }
    rewrite BC, <- app_assoc. clear BC. pose proof (Forall_inv HM) as (VM1 & VM2).
    destruct (mod_rt (n_bands ms) m (concat (map enc_mod mods) ++ rest)) as (gm & ER & G1 & G2 & G3);
      [apply valid_set_bands, VS|exact VM1|exact VM2|].
    rewrite runA_bind, ER. cbn [runA].
    destruct (IH mods (pre ++ [k]) (acc ++ [gm]) rest) as (gs & E & F1 & F2 & F3);
      [lia|exact (Forall_inv_tail HM)|rewrite app_length; cbn; lia|intros j Hj; apply HK; right; exact Hj|].
    rewrite app_length in E. cbn [length] in E. rewrite Nat.add_1_r, <- app_assoc in E. cbn [app] in E.
    exists (gm :: gs). rewrite E, <- app_assoc. split; [reflexivity|]. cbn [map]. rewrite F1, F2, G2, G3. repeat split.
    constructor; [|exact F3]. exists ms. auto.
Qed.

(** ** Blocks without ducking *)
Lemma used_in (l : list (option Z)) : (forall o, In o l -> match o with None => True | Some k => 0 <= k end) ->
  forall k, In k (used_indices l) <-> exists x, In x (map index_of l) /\ 0 <= x /\ x = k.
Proof.
  intros HP k. unfold used_indices. rewrite nodup_In, in_flat_map. split.
  - intros (o & Ho & H). destruct o as [j|]; [|destruct H]. destruct H as [<-|[]]. exists j.
    split; [apply in_map_iff; exists (Some j); auto|]. split; [exact (HP _ Ho)|reflexivity].
  - intros (x & Hx & H0 & ->). apply in_map_iff in Hx. destruct Hx as (o & E & Ho). exists o. split; [exact Ho|].
    destruct o as [j|]; cbn in E; [left; exact E|lia].
Qed.

Lemma expand_in {A} (runs : list (m_run A)) x : In x (expand runs) -> exists r, In r runs /\ fst r = x.
Proof.
  unfold expand. rewrite in_concat. intros (l & Hl & Hx). apply in_map_iff in Hl. destruct Hl as (r & <- & Hr).
  exists r. split; [exact Hr|]. destruct Hx as [Hx|Hx]; [exact Hx|]. destruct (snd r); [|destruct Hx].
  apply repeat_spec in Hx. congruence.
Qed.

Lemma plain_rt dmxs ids base mc c runs mods rest : ids <> [] ->
  stored_coef to_word8 mc c -> valid_coef mc ->
  update_ch_count dmxs ids base = Ok (Z.of_nat (length (expand runs))) ->
  Forall (fun r => index_in (Z.of_nat (length (mc_sets mc))) (fst r) /\ fits_opt 5 (snd r)) runs ->
  (length (expand runs) <= 16)%nat -> Forall valid_mod mods -> length mods = length (used_indices (expand runs)) ->
  exists p, runA (not_self_other dmxs ids base c)
      (concat (map (fun r => bits_of 6 (index_code (fst r)) ++ enc_more (snd r)) runs) ++ concat (map enc_mod mods) ++ rest)
      = Done (Ok p, rest) /\
    cp_gsi p = map index_of (expand runs) /\ length (cp_sets p) = length mods /\
    (forall k, In k (cp_sets p) -> 0 <= k < Z.of_nat (length (mc_sets mc))) /\
    map (fun g => (gm_att g, gm_amp g)) (cp_mods p) = map (fun x => match mm_scale x with None => (8, 8) | Some p => p end) mods /\
    map gm_off (cp_mods p) = map (fun x => match mm_off x with None => 0 | Some (true, v) => - (1 + v) | Some (false, v) => 1 + v end) mods /\
    Forall2 (mod_in mc) (cp_mods p) (cp_sets p).
Proof.
  intros HN SC VC HU HF H16 HM HL. assert (HC := VC). destruct HC as (_ & V24 & VS & _).
  assert (HI : forall o, In o (expand runs) -> index_in (Z.of_nat (length (mc_sets mc))) o).
  { intros o Ho. apply expand_in in Ho. destruct Ho as (r & Hr & <-). rewrite Forall_forall in HF. apply (HF _ Hr). }
  unfold not_self_other. rewrite HU. rewrite runA_bind.
  rewrite (channels_rt index_of (fun o => bits_of 6 (index_code o)) plain_item (index_in (Z.of_nat (length (mc_sets mc)))));
    [|intros; eapply plain_item_rt; [|eassumption]; lia|exact HF|unfold zlen; cbn; lia|lia|unfold zlen; cbn; lia].
  cbn [app]. unfold zlen at 1. rewrite map_length, Z.ltb_irrefl.
  rewrite runA_bind. set (gsi := map index_of (expand runs)) in *.
  assert (UQ : exists uniq cg, forall bs,
    runA (if (hd 0 ids =? 127) || (1 <? zlen ids) then i <- aget gsi 0;; Ret (if 0 <=? i then ([i], []) else ([], []))
          else group_loop Z.eqb (fun i => i <? 0) gsi [] []) bs = Done ((uniq, cg), bs) /\
    NoDup uniq /\ (length uniq <= 16)%nat /\ (forall k, In k uniq <-> exists x, In x gsi /\ 0 <= x /\ x = k)).
  { destruct ((hd 0 ids =? 127) || (1 <? zlen ids)) eqn:E.
    - assert (L : Z.of_nat (length (expand runs)) = 1) by (eapply channel_any_nonempty; eauto).
      destruct (expand runs) as [|o [|? ?]]; cbn [length] in L; try lia. cbn in gsi. subst gsi.
      destruct (Z.leb_spec 0 (index_of o)) as [Ho|Ho]; eexists _, _; intros bs.
      all: cbn [aget Z.leb Z.compare Z.to_nat nth_error bind runA].
      all: first [rewrite (proj2 (Z.leb_le 0 (index_of o)) Ho)|rewrite (proj2 (Z.leb_gt 0 (index_of o)) Ho)].
      + split; [reflexivity|]. split; [repeat constructor; intros []|]. split; [cbn; lia|]. intros k. split.
        * intros [<-|[]]. exists (index_of o). split; [left; reflexivity|auto].
        * intros (x & [<-|[]] & _ & ->). left. reflexivity.
      + split; [reflexivity|]. split; [constructor|]. split; [cbn; lia|]. intros k. split; [intros []|].
        intros (x & [<-|[]] & X & _). lia.
    - destruct (group_loop_run Z.eqb (fun i => i <? 0) gsi [] [] []) as (u & cg & E1 & L1).
      { cbn. unfold gsi. rewrite map_length. lia. }
      exists u, cg. intros bs. destruct (group_loop_run Z.eqb (fun i => i <? 0) gsi [] [] bs) as (u2 & cg2 & E2 & L2).
      { cbn. unfold gsi. rewrite map_length. lia. }
      assert (P1 := runA_leaf _ _ _ _ _ (group_loop_leaf Z.eqb (fun i => i <? 0) gsi Z.eqb_eq [] [] [] (part_nil _ _)) E1).
      assert (X : (u2, cg2) = (u, cg)) by (eapply group_loop_pure; eauto).
      inversion X; subst. split; [exact E2|]. cbn [fst snd app] in P1. split; [apply P1|]. split.
      + unfold gsi in L1. rewrite map_length in L1. cbn in L1. lia.
      + intros k. rewrite (part_in _ _ _ _ _ P1 k). split; intros (x & X1 & X2 & X3); exists x; rewrite Z.ltb_ge in *; auto. }
  destruct UQ as (uniq & cg & UQ). rewrite (proj1 (UQ _)). destruct (UQ []) as (_ & U1 & U2 & U3).
  destruct (Z.ltb_spec CHANNEL_MAX (zlen uniq)) as [H1|_]; [unfold CHANNEL_MAX, zlen in H1; lia|].
  assert (HP : forall o, In o (expand runs) -> match o with None => True | Some k => 0 <= k end).
  { intros o Ho. specialize (HI o Ho). destruct o; cbn in HI; [lia|exact I]. }
  assert (LU : length uniq = length mods).
  { rewrite HL. apply same_length; [exact U1|apply NoDup_nodup|]. intros k. rewrite U3, (used_in _ HP). reflexivity. }
  assert (BU : forall k, In k uniq -> 0 <= k < Z.of_nat (length (mc_sets mc))).
  { intros k Hk. apply U3 in Hk. destruct Hk as (x & Hx & H0 & ->). unfold gsi in Hx. apply in_map_iff in Hx.
    destruct Hx as (o & E & Ho). specialize (HI o Ho). destruct o; cbn in *; lia. }
  rewrite runA_bind. destruct (mods_rt mc c SC VS uniq mods [] [] rest LU HM) as (gs & E & F1 & F2 & F3); [cbn; lia|exact BU|].
  change (runA (forR (length uniq) 0 (mods_body c uniq) []) (concat (map enc_mod mods) ++ rest) = Done (Ok gs, rest)) in E.
  change (fun (g : nat) (acc : list gmod) => _) with (mods_body c uniq). rewrite E. cbn [runA].
  eexists. split; [reflexivity|]. cbn [cp_gsi cp_sets cp_mods]. auto 10.
Qed.

(** ** Blocks with ducking *)
Definition sets_of (eff seq : Z) (uidx : list Z) (g : nat) (acc : list Z) : prog (res (list Z)) :=
  i <- aget uidx (Z.of_nat g) ;;
  let set := if duck_other eff then seq else i in
  if set <? 0 then Ret (Er E_DRC_UNEXPECTED) else
  chk (Z.of_nat g) GROUP_MAX ;;;
  Ret (Ok (acc ++ [set])).

Lemma sets_of_run eff seq bs : forall suf pre acc, (length pre + length suf <= 16)%nat ->
  (forall i, In i suf -> 0 <= (if duck_other eff then seq else i)) ->
  runA (forR (length suf) (length pre) (sets_of eff seq (pre ++ suf)) acc) bs
  = Done (Ok (acc ++ map (fun i => if duck_other eff then seq else i) suf), bs).
Proof.
  induction suf as [|k suf IH]; intros pre acc HN HS; cbn [length forR map].
  - rewrite app_nil_r. reflexivity.
  - rewrite runA_bind. unfold sets_of at 1.
    rewrite (runA_aget _ _ k); [|lia|rewrite Nat2Z.id, nth_error_app2, Nat.sub_diag by lia; reflexivity].
    cbv zeta. assert (H0 := HS k (or_introl eq_refl)). destruct (Z.ltb_spec (if duck_other eff then seq else k) 0); [lia|].
    cbn [length] in HN. rewrite runA_chk by (unfold GROUP_MAX; lia). cbn [runA].
    replace (pre ++ k :: suf) with ((pre ++ [k]) ++ suf) by (rewrite <- app_assoc; reflexivity).
    replace (S (length pre)) with (length (pre ++ [k])) by (rewrite app_length; cbn; lia).
    rewrite IH; [rewrite <- app_assoc; reflexivity|rewrite app_length; cbn; lia|].
    intros i Hi. apply HS. right. exact Hi.
Qed.

Definition duck_pair (m : option Z * option (bool * Z)) : Z * Z := (index_of (fst m), scaling_of (snd m)).

Lemma duck_rt eff mc runs rest : duck_bits eff = true -> valid_coef mc ->
  Forall (fun r => index_in (Z.of_nat (length (mc_sets mc))) (fst (fst r)) /\
                   fits_signed5 3 (snd (fst r)) /\ fits_opt 5 (snd r)) runs ->
  valid_duck eff (expand runs) -> (length (expand runs) <= 16)%nat ->
  exists p, runA (self_other eff (Z.of_nat (length (expand runs))))
      (concat (map (fun r => bits_of 6 (index_code (fst (fst r))) ++ enc_scaling (snd (fst r)) ++ enc_more (snd r)) runs) ++ rest)
      = Done (Ok p, rest) /\
    cp_gsi p = map (fun x => index_of (fst x)) (expand runs) /\
    cp_duck p = map (fun x => scaling_of (snd x)) (expand runs) /\
    length (cp_sets p) = n_groups eff (expand runs) /\
    (forall k, In k (cp_sets p) -> 0 <= k < Z.of_nat (length (mc_sets mc))).
Proof.
  intros HD VC HF HV H16. destruct VC as (_ & V24 & VS & _).
  assert (HI : forall o, In o (expand runs) -> index_in (Z.of_nat (length (mc_sets mc))) (fst o)).
  { intros o Ho. apply expand_in in Ho. destruct Ho as (r & Hr & <-). rewrite Forall_forall in HF. apply (HF _ Hr). }
  unfold self_other. rewrite runA_bind.
  match goal with |- context [concat (map ?f runs)] =>
    rewrite (map_ext f (fun r => (fun m => bits_of 6 (index_code (fst m)) ++ enc_scaling (snd m)) (fst r) ++ enc_more (snd r)))
      by (intros r; rewrite <- app_assoc; reflexivity) end.
  rewrite (channels_rt duck_pair (fun m => bits_of 6 (index_code (fst m)) ++ enc_scaling (snd m)) duck_item
    (fun m => index_in (Z.of_nat (length (mc_sets mc))) (fst m) /\ fits_signed5 3 (snd m)));
    [|intros m b r (M1 & M2); eapply duck_item_rt; [|exact M1|exact M2]; lia| |unfold zlen; cbn; lia|lia|unfold zlen; cbn; lia].
  2: { eapply Forall_impl; [|exact HF]. cbv beta. intros r (R1 & R2 & R3). auto. }
  cbn [app]. unfold zlen at 1. rewrite map_length, Z.ltb_irrefl.
  set (chs := map duck_pair (expand runs)) in *.
  assert (LC : (length chs <= 16)%nat) by (unfold chs; rewrite map_length; exact H16).
  assert (F1 : map fst chs = map (fun x => index_of (fst x)) (expand runs)) by (unfold chs; rewrite map_map; reflexivity).
  assert (F2 : map snd chs = map (fun x => scaling_of (snd x)) (expand runs)) by (unfold chs; rewrite map_map; reflexivity).
  assert (BI : forall k, In k (map fst chs) -> 0 <= k -> k < Z.of_nat (length (mc_sets mc))).
  { intros k Hk H0. rewrite F1 in Hk. apply in_map_iff in Hk. destruct Hk as (m & E & Hm). specialize (HI m Hm).
    destruct (fst m); cbn in *; lia. }
  unfold valid_duck in HV. rewrite <- duck_self_bit, <- duck_other_bit in HV. unfold n_groups. rewrite <- duck_self_bit.
  rewrite runA_bind. destruct (duck_self eff) eqn:DS.
  - rewrite runA_bind. destruct (group_loop_run pair_eqb (fun x => fst x <? 0) chs [] [] rest) as (u & cg & E1 & L1); [cbn; lia|].
    rewrite E1. cbn [runA].
    assert (P := runA_leaf _ _ _ _ _ (group_loop_leaf pair_eqb (fun x => fst x <? 0) chs pair_eqb_eq [] [] [] (part_nil _ _)) E1).
    cbn [fst snd app] in P. assert (PI := part_in _ _ _ _ _ P).
    cbn [length plus] in L1.
    destruct (Z.ltb_spec CHANNEL_MAX (zlen (map snd u))) as [H1|_]; [unfold CHANNEL_MAX, zlen in H1; rewrite map_length in H1; lia|].
    rewrite runA_bind. change (fun (g : nat) (acc : list Z) => _) with (sets_of eff (-1) (map fst u)).
    replace (length (map snd u)) with (length (map fst u)) by (rewrite !map_length; reflexivity).
    assert (U0 : forall i, In i (map fst u) -> 0 <= i /\ In i (map fst chs)).
    { intros i Hi. apply in_map_iff in Hi. destruct Hi as (x & <- & Hx). apply PI in Hx. destruct Hx as (y & Y1 & Y2 & <-).
      cbn in Y2. apply Z.ltb_ge in Y2. split; [exact Y2|]. apply in_map. exact Y1. }
    pose proof (sets_of_run eff (-1) rest (map fst u) [] []) as SR. cbn [app length plus] in SR. rewrite SR; clear SR.
    2: rewrite map_length; lia.
    2: { intros i Hi. rewrite HV. apply U0, Hi. }
    rewrite HV, map_id. cbn [runA]. eexists. split; [reflexivity|]. cbn [cp_gsi cp_duck cp_sets].
    split; [exact F1|]. split; [exact F2|]. split.
    + rewrite map_length. apply same_length; [apply P|apply NoDup_nodup|]. intros [k sc]. rewrite PI, nodup_In, in_flat_map. split.
      * intros (y & Y1 & Y2 & ->). apply Z.ltb_ge in Y2. cbn [fst] in Y2. unfold chs in Y1. apply in_map_iff in Y1.
        destruct Y1 as (m & M1 & M2). exists m. split; [exact M2|]. unfold duck_pair in M1. inversion M1; subst.
        destruct (fst m); cbn in *; [auto|lia].
      * intros (m & M1 & M2). destruct (fst m) as [j|] eqn:EM; [|destruct M2]. destruct M2 as [M2|[]]. inversion M2; subst.
        exists (k, scaling_of (snd m)). split; [|split; [|reflexivity]].
        -- unfold chs. apply in_map_iff. exists m. split; [|exact M1]. unfold duck_pair. rewrite EM. reflexivity.
        -- apply Z.ltb_ge. cbn [fst]. specialize (HI m M1). rewrite EM in HI. cbn in HI. lia.
    + intros k Hk. destruct (U0 k Hk). split; [lia|]. apply BI; auto.
  - assert (DO : duck_other eff = true).
    { rewrite duck_bits_bit, <- duck_other_bit, <- duck_self_bit, DS, orb_false_r in HD. exact HD. }
    destruct HV as (k & (m & M1 & M2) & HK).
    assert (K0 : 0 <= k) by (specialize (HI m M1); rewrite M2 in HI; cbn in HI; lia).
    assert (KI : In k (map fst chs)) by (rewrite F1; apply in_map_iff; exists m; rewrite M2; auto).
    assert (KB : k < Z.of_nat (length (mc_sets mc))) by (apply BI; auto).
    rewrite runA_bind. destruct (duck_loop_run k K0 chs [] [] (-1) rest) as (u & cg & E1 & L1); [cbn; lia|auto| | |].
    { intros c Hc H0. unfold chs in Hc. apply in_map_iff in Hc. destruct Hc as (x & <- & Hx).
      unfold duck_pair in *. cbn [fst] in *. destruct (fst x) as [j|] eqn:EX; cbn in *; [|lia]. apply (HK x j Hx EX). }
    { right. exists (duck_pair m). split; [apply in_map; exact M1|]. unfold duck_pair. rewrite M2. reflexivity. }
    rewrite E1. cbn [runA].
    assert (P := runA_leaf _ _ _ _ _ (duck_other_leaf chs [] [] [] (-1) (part_nil _ _) ltac:(intros N; contradiction)) E1).
    cbn [fst snd app okP] in P. destruct P as (P & _). assert (PI := part_in _ _ _ _ _ P).
    cbn [length plus] in L1.
    destruct (Z.ltb_spec CHANNEL_MAX (zlen u)) as [H1|_]; [unfold CHANNEL_MAX, zlen in H1; lia|].
    rewrite runA_bind. change (fun (g : nat) (acc : list Z) => _) with (sets_of eff k (map (fun _ => -1) u)).
    pose proof (sets_of_run eff k rest (map (fun _ => -1) u) [] []) as SR. cbn [app length plus] in SR. rewrite map_length in SR. rewrite SR; clear SR.
    2: lia.
    2: { intros i Hi. rewrite DO. exact K0. }
    rewrite DO. cbn [runA]. eexists. split; [reflexivity|]. cbn [cp_gsi cp_duck cp_sets].
    split; [exact F1|]. split; [exact F2|]. split.
    + rewrite !map_length. apply same_length; [apply P|apply NoDup_nodup|]. intros sc. rewrite PI, nodup_In, in_flat_map. split.
      * intros (y & Y1 & Y2 & <-). unfold chs in Y1. apply in_map_iff in Y1.
        destruct Y1 as (x & <- & X2). exists x. split; [exact X2|]. unfold duck_pair in *. cbn [fst snd] in *.
        specialize (HI x X2). destruct (fst x); cbn in *; [lia|auto].
      * intros (x & X1 & X2). destruct (fst x) as [j|] eqn:EX; [destruct X2|]. destruct X2 as [X2|[]].
        exists (duck_pair x). split; [apply in_map; exact X1|]. unfold duck_pair. rewrite EX. cbn [fst snd index_of]. split; [lia|exact X2].
    + intros j Hj. rewrite map_map in Hj. apply in_map_iff in Hj. destruct Hj as (? & <- & _). lia.
Qed.

(** ** The whole instruction block *)
Lemma coef_found cut : forall mcs cs loc mc, Forall2 (stored_coef cut) mcs cs -> NoDup (map mc_loc mcs) ->
  In mc mcs -> mc_loc mc = loc ->
  exists c, stored_coef cut mc c /\ first_coef cs loc = Some c /\ last_coef cs loc = Some c.
Proof.
  assert (NL : forall mcs cs loc acc, Forall2 (stored_coef cut) mcs cs -> ~ In loc (map mc_loc mcs) ->
    fold_left (fun r c => if co_loc c =? loc then Some c else r) cs acc = acc).
  { induction mcs as [|m mcs IH]; intros cs loc acc H N; inversion H; subst; [reflexivity|]. cbn [fold_left].
    destruct (Z.eqb_spec (co_loc y) loc) as [E|E].
    - exfalso. apply N. left. destruct H2 as (X & _). congruence.
    - apply IH; [assumption|]. intros X. apply N. right. exact X. }
  intros mcs cs loc mc H. revert loc mc. induction H as [|m c mcs cs Hmc H IH]; intros loc mc ND HI HL; [destruct HI|].
  unfold first_coef, last_coef. cbn [find fold_left]. inversion ND as [|? ? N1 N2]; subst.
  assert (E := proj1 Hmc). destruct HI as [->|HI].
  - exists c. rewrite E, Z.eqb_refl. split; [exact Hmc|]. split; [reflexivity|]. eapply NL; eassumption.
  - assert (N : mc_loc m <> mc_loc mc) by (intros X; apply N1; rewrite X; apply in_map; exact HI).
    rewrite E. destruct (Z.eqb_spec (mc_loc m) (mc_loc mc)) as [X|_]; [contradiction|].
    destruct (IH (mc_loc mc) mc N2 HI eq_refl) as (c' & X1 & X2 & X3). exists c'. auto.
Qed.

Lemma channels_update dmxs base m n : mi_dmx m <> [] -> is_duck (mi_effect m) = false ->
  channels_of dmxs base m = Some n -> n <= 16 -> update_ch_count dmxs (mi_dmx m) base = Ok n.
Proof.
  intros HN HD. unfold channels_of, update_ch_count. rewrite HD. destruct (mi_dmx m) as [|d [|d2 t]]; [contradiction| |].
  - cbn [hd]. change (zlen [d]) with 1. cbn [Z.eqb Pos.eqb]. rewrite andb_true_r, orb_false_r.
    destruct (Z.eqb_spec d 0) as [->|N0]; cbn [negb andb].
    + intros [= ->] H. cbn [Z.eqb]. destruct (Z.ltb_spec CHANNEL_MAX n) as [X|_]; [unfold CHANNEL_MAX in X; lia|reflexivity].
    + destruct (Z.eqb_spec d 127) as [->|N1]; cbn [negb andb].
      * intros [= <-] _. reflexivity.
      * destruct (find (fun x => fst x =? d) dmxs) as [x|]; [|discriminate]. intros [= <-] H.
        destruct (Z.ltb_spec CHANNEL_MAX (snd x)) as [X|_]; [unfold CHANNEL_MAX in X; lia|reflexivity].
  - cbn [hd]. assert (Z1 : 1 <? zlen (d :: d2 :: t) = true) by (apply Z.ltb_lt; unfold zlen; cbn [length]; lia).
    assert (Z2 : zlen (d :: d2 :: t) =? 1 = false) by (apply Z.eqb_neq; unfold zlen; cbn [length]; lia).
    rewrite Z1, Z2, andb_false_r, orb_true_r. intros [= <-] _. reflexivity.
Qed.

Definition der_in (tdef : Z) (duck : bool) (mc : m_coef) (d : gderived) (k : Z) : Prop :=
  exists s, nth_error (mc_sets mc) (Z.to_nat k) = Some s /\
      gd_interp d = 1 /\ gd_tmin d = tdef /\ gd_align d = b2z (ms_align s) /\
      gd_bands d = (if duck : bool then 1 else n_bands s).

Definition In_ok (mc : m_coef) (l : list Z) : Prop := forall k, In k l -> 0 <= k < Z.of_nat (length (mc_sets mc)).

(** The block as parsed, before the derived data. *)
Definition parsed_instr (m : m_instr) (mc : m_coef) (i : instr) : Prop :=
  (match mi_scope m with
   | EverySet => in_type i = 0
   | OfGroup g => in_type i = 2 /\ in_group i = g
   | OfPreset p => in_type i = 3 /\ in_preset i = p end) /\
  in_set i = mi_set m /\ in_loc i = mi_loc m /\ in_dmx i = mi_dmx m /\ in_effect i = mi_effect m /\
  in_lim i = (match mi_lim m with None => -1 | Some v => v end) /\
  (match mi_range m with
   | None => in_tflag i = 0
   | Some (u, l) => in_tflag i = 1 /\ in_upper i = u /\ in_lower i = match l with None => -63 | Some v => v end end) /\
  (match mi_dep m with None => in_dep i = -1 /\ in_noind i = b2z (mi_noind m) | Some d => in_dep i = d end) /\
  In_ok mc (in_sets i) /\
  (match mi_body m with
   | Plain runs mods =>
       in_gsi i = map index_of (expand runs) /\
       map (fun g => (gm_att g, gm_amp g)) (in_mods i) =
         map (fun x => match mm_scale x with None => (8, 8) | Some p => p end) mods /\
       map gm_off (in_mods i) =
         map (fun x => match mm_off x with None => 0 | Some (true, v) => - (1 + v) | Some (false, v) => 1 + v end) mods /\
       Forall2 (mod_in mc) (in_mods i) (in_sets i)
   | Duck runs =>
       in_gsi i = map (fun x => index_of (fst x)) (expand runs) /\
       in_duck i = map (fun x => scaling_of (snd x)) (expand runs)
   end).

Lemma scope_rt {A} sc (K : Z * Z * Z -> prog A) rest :
  (match sc with EverySet => True | OfGroup g => fits 7 g | OfPreset p => fits 5 p end) ->
  runA (t <- rd 1 ;;
    x <- (if t =? 0 then Ret (0, -1, -1) else
     u <- rd 1 ;;
     if u =? 0 then g <- rd 7 ;; Ret (2, g, 0) else p <- rd 5 ;; Ret (3, 0, p)) ;; K x)
   ((match sc with
   | EverySet => flag false
   | OfGroup g => flag true ++ flag false ++ bits_of 7 g
   | OfPreset p => flag true ++ flag true ++ bits_of 5 p end) ++ rest)
  = runA (K (match sc with EverySet => (0, -1, -1) | OfGroup g => (2, g, 0) | OfPreset p => (3, 0, p) end)) rest.
Proof.
  intros V. destruct sc as [|g|p]; rewrite <- ?app_assoc.
  - rdf. reflexivity.
  - rdf. cbn [b2z Z.eqb]. rewrite bind_assoc. rdf. cbn [b2z Z.eqb]. rewrite bind_assoc. rdf. reflexivity.
  - rdf. cbn [b2z Z.eqb]. rewrite bind_assoc. rdf. cbn [b2z Z.eqb]. rewrite bind_assoc. rdf. reflexivity.
Qed.

Definition range_stored (r : option (Z * option Z)) : Z * Z * Z :=
  match r with None => (0, 0, -63) | Some (u, l) => (1, u, match l with None => -63 | Some v => v end) end.
Lemma range_rt r rest :
  (match r with None => True | Some (u, l) => -63 <= u <= 0 /\ match l with None => True | Some v => -63 <= v <= 0 end end) ->
  runA parse_target_loudness ((match r with
   | None => flag false
   | Some (u, l) => flag true ++ bits_of 6 (u + 63) ++
       match l with None => flag false | Some v => flag true ++ bits_of 6 (v + 63) end end) ++ rest)
  = Done (range_stored r, rest).
Proof.
  intros V. unfold parse_target_loudness. destruct r as [[u l]|]; rewrite <- ?app_assoc.
  - destruct V as [V1 V2]. rdf. cbn [b2z Z.eqb]. rewrite runA_rdb; [|reflexivity|lia|change (2 ^ 6) with 64; lia].
    destruct l as [v|]; rewrite <- ?app_assoc.
    + rdf. cbn [b2z Z.eqb]. rewrite bind_assoc. rewrite runA_rdb; [|reflexivity|lia|change (2 ^ 6) with 64; lia].
      cbn [bind runA range_stored]. replace (u + 63 - 63) with u by lia. replace (v + 63 - 63) with v by lia. reflexivity.
    + rdf. cbn [b2z Z.eqb bind runA range_stored]. replace (u + 63 - 63) with u by lia. reflexivity.
  - rdf. reflexivity.
Qed.

Lemma lim_rt {A} e l (K : Z -> prog A) rest : fits_opt 8 l -> (is_duck e = true -> l = None) ->
  runA (bind (if duck_bits e then Ret (-1) else f <- rd 1 ;; if f =? 0 then Ret (-1) else rd 8) K)
   ((if is_duck e then [] else match l with None => flag false | Some v => flag true ++ bits_of 8 v end) ++ rest)
  = runA (K (match l with None => -1 | Some v => v end)) rest.
Proof.
  intros V D. rewrite duck_bits_bit. fold (is_duck e). destruct (is_duck e).
  - rewrite D by reflexivity. reflexivity.
  - destruct l as [v|]; rewrite <- ?app_assoc; rewrite bind_assoc.
    + rdf. cbn [b2z Z.eqb]. rdf. reflexivity.
    + rdf. reflexivity.
Qed.

Lemma dep_rt {A} d ni h (K : Z * Z -> prog (res A)) rest :
  (match d with None => True | Some d => fits 6 d /\ h <> 0 /\ ni = false end) ->
  runA (dp <- rd 1 ;;
    if (h =? 0) && negb (dp =? 0) then Ret (Er E_DRC_LC) else
    x <- (if dp =? 0 then v <- rd 1 ;; Ret (-1, v) else v <- rd 6 ;; Ret (v, 0)) ;; K x)
   ((match d with None => flag false ++ flag ni | Some d => flag true ++ bits_of 6 d end) ++ rest)
  = runA (K (match d with None => (-1, b2z ni) | Some d => (d, 0) end)) rest.
Proof.
  intros V. destruct d as [d|]; rewrite <- !app_assoc.
  - destruct V as (V & N & _). rdf. destruct (Z.eqb_spec h 0); [contradiction|]. cbn [b2z andb Z.eqb]. rewrite bind_assoc. rdf. reflexivity.
  - rdf. cbn [b2z Z.eqb negb]. rewrite andb_false_r, bind_assoc. rdf. reflexivity.
Qed.

Lemma instr_rt dmxs base mcs cs m rest : 0 <= base <= 16 -> Forall valid_coef mcs ->
  Forall2 (stored_coef to_word8) mcs cs -> NoDup (map mc_loc mcs) -> valid_instr dmxs base mcs m ->
  exists i mc, runA (parse_instr_one dmxs base cs) (enc_instr m ++ rest) = Done (Ok i, rest) /\
    In mc mcs /\ mc_loc mc = mi_loc m /\ parsed_instr m mc i.
Proof.
  intros HB VC SC ND (V1 & V2 & V3 & V4 & V5 & V6 & V7 & V8 & V9 & V10 & (mc & HI & HL & VB)).
  destruct (coef_found to_word8 mcs cs (mi_loc m) mc SC ND HI HL) as (c & SM & EF & EL).
  assert (VM : valid_coef mc) by (rewrite Forall_forall in VC; auto).
  assert (NN : mi_dmx m <> []) by (intros X; rewrite X in V4; cbn in V4; lia).
  unfold parse_instr_one, enc_instr. rewrite <- !app_assoc.
  rewrite (scope_rt (mi_scope m) (fun x => let '(ty, grp, pre) := x in parse_instructions dmxs base cs ty grp pre)) by exact V1.
  destruct (match mi_scope m with EverySet => (0, -1, -1) | OfGroup g => (2, g, 0) | OfPreset p => (3, 0, p) end) as [[ty grp] pre] eqn:ESC.
  unfold parse_instructions. rewrite runA_rdb; [|reflexivity|lia|change (2 ^ 6) with 64; lia].
  destruct (Z.leb_spec INSTR_MAX (mi_set m)) as [X|_]; [unfold INSTR_MAX in X; lia|].
  rewrite runA_rdb; [|reflexivity|lia|exact V3].
  rewrite runA_bind, dmx_rt by assumption.
  rewrite runA_rdb; [|reflexivity|lia|exact V6].
  rewrite lim_rt by assumption. rewrite runA_bind, range_rt by exact V9.
  destruct (range_stored (mi_range m)) as [[tf up] lo] eqn:ER.
  rewrite (dep_rt (mi_dep m) (mi_noind m) (hd 0 (mi_dmx m)) (fun x => let '(dep, noind) := x in _)) by exact V10.
  destruct (match mi_dep m with None => (-1, b2z (mi_noind m)) | Some d => (d, 0) end) as [dep noind] eqn:ED.
  rewrite EL. destruct (Z.ltb_spec CHANNEL_MAX base) as [X|_]; [unfold CHANNEL_MAX in X; lia|].
  rewrite runA_bind. rewrite duck_bits_bit. fold (is_duck (mi_effect m)).
  assert (PB : exists p, runA (if is_duck (mi_effect m) then self_other (mi_effect m) base else not_self_other dmxs (mi_dmx m) base c)
     (match mi_body m with
      | Plain runs mods => concat (map (fun r => bits_of 6 (index_code (fst r)) ++ enc_more (snd r)) runs) ++ concat (map enc_mod mods)
      | Duck runs => concat (map (fun r => bits_of 6 (index_code (fst (fst r))) ++ enc_scaling (snd (fst r)) ++ enc_more (snd r)) runs)
      end ++ rest) = Done (Ok p, rest) /\ (hd 0 (mi_dmx m) <> 0 -> length (cp_sets p) = 1%nat) /\ In_ok mc (cp_sets p) /\
    match mi_body m with
    | Plain runs mods =>
       cp_gsi p = map index_of (expand runs) /\
       map (fun g => (gm_att g, gm_amp g)) (cp_mods p) =
         map (fun x => match mm_scale x with None => (8, 8) | Some p => p end) mods /\
       map gm_off (cp_mods p) =
         map (fun x => match mm_off x with None => 0 | Some (true, v) => - (1 + v) | Some (false, v) => 1 + v end) mods /\
       Forall2 (mod_in mc) (cp_mods p) (cp_sets p)
    | Duck runs =>
       cp_gsi p = map (fun x => index_of (fst x)) (expand runs) /\
       cp_duck p = map (fun x => scaling_of (snd x)) (expand runs)
    end).
  { destruct (mi_body m) as [runs mods|runs].
    - destruct VB as (B1 & B2 & B3 & B4 & B5 & B6 & B7). rewrite B1, <- app_assoc.
      destruct (plain_rt dmxs (mi_dmx m) base mc c runs mods rest NN SM VM) as (p & P0 & P1 & P2 & P3 & P4 & P5 & P6);
        [apply channels_update; auto; lia|exact B2|exact B4|exact B5|exact B6|].
      exists p. split; [exact P0|]. split; [intros X; rewrite P2; auto|]. split; [exact P3|]. auto.
    - destruct VB as (B1 & B2 & B3 & B4 & B5). rewrite B1. rewrite B4.
      destruct (duck_rt (mi_effect m) mc runs rest) as (p & P0 & P1 & P2 & P3 & P4);
        [rewrite duck_bits_bit; exact B1|exact VM|exact B2|exact B3|lia|].
      exists p. split; [exact P0|]. split; [intros X; rewrite P3; auto|]. split; [exact P4|]. auto. }
  destruct PB as (p & E & P1 & P2 & P3). rewrite E.
  replace (negb (hd 0 (mi_dmx m) =? 0) && negb (zlen (cp_sets p) =? 1)) with false.
  2: { destruct (Z.eqb_spec (hd 0 (mi_dmx m)) 0) as [|N]; [reflexivity|]. unfold zlen. rewrite (P1 N). reflexivity. }
  cbn [runA]. eexists _, mc. split; [reflexivity|]. split; [exact HI|]. split; [exact HL|].
  unfold parsed_instr. cbn [in_type in_group in_preset in_set in_loc in_dmx in_effect in_lim in_tflag in_upper in_lower in_dep in_noind in_sets in_gsi in_mods in_duck].
  repeat (split; [first [reflexivity|exact P2|idtac]|]).
  - destruct (mi_scope m); inversion ESC; auto.
  - destruct (mi_range m) as [[u l]|]; cbn in ER; inversion ER; auto.
  - destruct (mi_dep m); inversion ED; auto.
  - destruct (mi_body m); exact P3.
Qed.

(** ** Derived data *)
Lemma derived_loop mc c tdef duck : stored_coef to_word8 mc c -> forall suf pre acc bs,
  In_ok mc suf ->
  exists ds, runA (forR (length suf) (length pre) (fun g acc =>
         seq <- aget (pre ++ suf) (Z.of_nat g) ;;
         if zlen (co_sets c) <=? seq then Ret (Er E_DRC_GAIN_SET_INDEX) else
         p <- aget (co_sets c) seq ;;
         Ret (Ok (acc ++ [mkGD (gs_interp p) (if gs_tflag p =? 0 then tdef else gs_tmin p)
                            (gs_align p) (if duck : bool then 1 else gs_count p)]))) acc) bs
   = Done (Ok (acc ++ ds), bs) /\ Forall2 (der_in tdef duck mc) ds suf.
Proof.
  intros (_ & SS). induction suf as [|k suf IH]; intros pre acc bs HK; cbn [length forR].
  - exists []. rewrite app_nil_r. split; [reflexivity|constructor].
  - rewrite runA_bind, (runA_aget _ _ k); [|lia|rewrite Nat2Z.id, nth_error_app2, Nat.sub_diag by lia; reflexivity].
    assert (Hk := HK k (or_introl eq_refl)). unfold zlen at 1. rewrite (stored_sets_length _ _ _ _ SS).
    destruct (Z.leb_spec (Z.of_nat (length (mc_sets mc))) k); [lia|].
    destruct (nth_error (mc_sets mc) (Z.to_nat k)) as [ms|] eqn:EM; [|apply nth_error_None in EM; lia].
    destruct (stored_sets_nth _ _ _ _ _ _ SS EM) as (g & k' & EG & SG).
    rewrite (runA_aget _ _ g) by (lia || exact EG). cbn [runA].
    replace (pre ++ k :: suf) with ((pre ++ [k]) ++ suf) by (rewrite <- app_assoc; reflexivity).
    replace (S (length pre)) with (length (pre ++ [k])) by (rewrite app_length; cbn; lia).
    edestruct (IH (pre ++ [k])) as (ds & E & F); [intros j Hj; apply HK; right; exact Hj|]. rewrite E.
    eexists (_ :: ds). rewrite <- app_assoc. split; [reflexivity|]. constructor; [|exact F].
    exists ms. destruct SG as (_ & S1 & _ & S2 & S3 & S4 & _). cbn [gd_interp gd_tmin gd_align gd_bands].
    rewrite S1, S2, S3, S4. auto.
Qed.

Lemma derived_rt tdef mcs cs m mc i bs : Forall2 (stored_coef to_word8) mcs cs -> NoDup (map mc_loc mcs) ->
  In mc mcs -> mc_loc mc = mi_loc m -> parsed_instr m mc i ->
  exists i', runA (derived_data tdef cs i) bs = Done (Ok i', bs) /\ stored_instr tdef mcs m i'.
Proof.
  intros SC ND HI HL (P1 & P2 & P3 & P4 & P5 & P6 & P7 & P8 & P9 & P10).
  destruct (coef_found to_word8 mcs cs (mi_loc m) mc SC ND HI HL) as (c & SM & EF & EL).
  unfold derived_data. rewrite P3, EF. rewrite runA_bind.
  destruct (derived_loop mc c tdef (duck_bits (in_effect i)) SM (in_sets i) [] [] bs P9) as (ds & E & F).
  cbn [app length] in E. rewrite E. cbn [runA]. eexists. split; [reflexivity|].
  unfold stored_instr. cbn [in_type in_group in_preset in_set in_loc in_dmx in_effect in_lim in_tflag in_upper in_lower in_dep in_noind in_sets in_gsi in_mods in_duck in_der].
  split; [exact P1|]. split; [exact P2|]. split; [reflexivity|]. split; [exact P4|]. split; [exact P5|]. split; [exact P6|].
  split; [exact P7|]. split; [exact P8|]. exists mc. split; [exact HI|]. split; [exact HL|]. split; [exact P10|].
  rewrite P5 in F. rewrite duck_bits_bit in F. exact F.
Qed.

(** ** The configuration *)
Lemma coefs_loop : forall mcs i acc rest, Forall valid_coef mcs -> (i + length mcs <= 4)%nat ->
  exists cs, runA (forR (length mcs) i (fun i acc =>
         chk (Z.of_nat i) COEFF_MAX ;;;
         r <- parse_coeff false ;;
         match r with Er e => Ret (Er e) | Ok c => Ret (Ok (acc ++ [c])) end) acc) (concat (map enc_coef mcs) ++ rest)
    = Done (Ok (acc ++ cs), rest) /\ Forall2 (stored_coef to_word8) mcs cs.
Proof.
  induction mcs as [|m mcs IH]; intros i acc rest HF HI; cbn [length forR map concat].
  - exists []. rewrite app_nil_r. split; [reflexivity|constructor].
  - cbn [length] in HI. rewrite runA_bind, runA_chk by (unfold COEFF_MAX; lia). rewrite <- app_assoc.
    destruct (coef_rt m (concat (map enc_coef mcs) ++ rest) (Forall_inv HF)) as (C & E & S1).
    rewrite runA_bind, E. cbn [runA].
    destruct (IH (S i) (acc ++ [C]) rest) as (cs & E2 & S2); [exact (Forall_inv_tail HF)|lia|]. rewrite E2.
    exists (C :: cs). rewrite <- app_assoc. split; [reflexivity|]. constructor; assumption.
Qed.

Lemma instrs_loop dmxs base mcs cs : 0 <= base <= 16 -> Forall valid_coef mcs ->
  Forall2 (stored_coef to_word8) mcs cs -> NoDup (map mc_loc mcs) ->
  forall ms i acc rest, Forall (valid_instr dmxs base mcs) ms -> (i + length ms <= 32)%nat ->
  exists is, runA (forR (length ms) i (fun i acc =>
         chk (Z.of_nat i) INSTR_MAX ;;;
         r <- parse_instr_one dmxs base cs ;;
         match r with Er e => Ret (Er e) | Ok x => Ret (Ok (acc ++ [x])) end) acc) (concat (map enc_instr ms) ++ rest)
    = Done (Ok (acc ++ is), rest) /\
    Forall2 (fun m i => exists mc, In mc mcs /\ mc_loc mc = mi_loc m /\ parsed_instr m mc i) ms is.
Proof.
  intros HB VC SC ND. induction ms as [|m ms IH]; intros i acc rest HF HI; cbn [length forR map concat].
  - exists []. rewrite app_nil_r. split; [reflexivity|constructor].
  - cbn [length] in HI. rewrite runA_bind, runA_chk by (unfold INSTR_MAX; lia). rewrite <- app_assoc.
    destruct (instr_rt dmxs base mcs cs m (concat (map enc_instr ms) ++ rest) HB VC SC ND (Forall_inv HF)) as (x & mc & E & S1 & S2 & S3).
    rewrite runA_bind, E. cbn [runA].
    destruct (IH (S i) (acc ++ [x]) rest) as (is & E2 & F); [exact (Forall_inv_tail HF)|lia|]. rewrite E2.
    exists (x :: is). rewrite <- app_assoc. split; [reflexivity|]. constructor; [exists mc; auto|exact F].
Qed.

Lemma derive_loop tdef mcs cs : Forall2 (stored_coef to_word8) mcs cs -> NoDup (map mc_loc mcs) ->
  forall ms suf pre acc bs, Forall2 (fun m i => exists mc, In mc mcs /\ mc_loc mc = mi_loc m /\ parsed_instr m mc i) ms suf ->
  exists is, runA (forR (length suf) (length pre) (fun k acc =>
         i <- aget (pre ++ suf) (Z.of_nat k) ;;
         r <- derived_data tdef cs i ;;
         match r with Er e => Ret (Er e) | Ok x => Ret (Ok (acc ++ [x])) end) acc) bs
    = Done (Ok (acc ++ is), bs) /\ Forall2 (stored_instr tdef mcs) ms is.
Proof.
  intros SC ND ms suf pre acc bs H. revert pre acc. induction H as [|m i ms suf (mc & M1 & M2 & M3) H IH]; intros pre acc; cbn [length forR].
  - exists []. rewrite app_nil_r. split; [reflexivity|constructor].
  - rewrite runA_bind, (runA_aget _ _ i); [|lia|rewrite Nat2Z.id, nth_error_app2, Nat.sub_diag by lia; reflexivity].
    destruct (derived_rt tdef mcs cs m mc i bs SC ND M1 M2 M3) as (i' & E & S1). rewrite runA_bind, E. cbn [runA].
    replace (pre ++ i :: suf) with ((pre ++ [i]) ++ suf) by (rewrite <- app_assoc; reflexivity).
    replace (S (length pre)) with (length (pre ++ [i])) by (rewrite app_length; cbn; lia).
    destruct (IH (pre ++ [i]) (acc ++ [i'])) as (is & E2 & F). rewrite E2.
    exists (i' :: is). rewrite <- app_assoc. split; [reflexivity|]. constructor; assumption.
Qed.

Lemma read_ones_run : forall pl rest, runA (read_ones (Z.of_nat (length pl))) (pl ++ rest) = Done (tt, rest).
Proof.
  intros pl rest. unfold read_ones. rewrite Nat2Z.id. generalize 0%nat.
  induction pl as [|b pl IH]; intros i; cbn [length forP app]; [reflexivity|].
  rewrite runA_bind. replace (b :: pl ++ rest) with (flag b ++ pl ++ rest) by (destruct b; reflexivity).
  rewrite runA_flag. cbn [runA]. apply IH.
Qed.

Lemma ext_rt {A} e (K : res unit -> prog A) rest :
  match e with
  | None => True
  | Some (ty, l, payload) => 0 < ty < 16 /\ fits 4 l /\ 1 <= Z.of_nat (length payload) <= 2 ^ (l + 4)
  end ->
  runA (ep <- rd 1 ;; r <- (if ep =? 1 then config_ext else Ret (Ok tt)) ;; K r)
   ((match e with
   | None => flag false
   | Some (ty, l, payload) => flag true ++ bits_of 4 ty ++ bits_of 4 l ++
       bits_of (Z.to_nat (l + 4)) (Z.of_nat (length payload) - 1) ++ payload ++ bits_of 4 0
   end) ++ rest) = runA (K (Ok tt)) rest.
Proof.
  intros V. destruct e as [[[ty l] pl]|]; rewrite <- ?app_assoc.
  - destruct V as (V1 & V2 & V3). rdf. cbn [b2z Z.eqb Pos.eqb]. unfold config_ext.
    rewrite bind_assoc. rewrite runA_rdb; [|reflexivity|lia|change (2 ^ 4) with 16; lia].
    destruct (Z.eqb_spec ty 0); [lia|]. rewrite bind_assoc. rewrite runA_rdb; [|reflexivity|lia|exact V2].
    unfold fits in V2. change (2 ^ 4) with 16 in V2.
    rewrite bind_assoc. rewrite runA_rdb; [|lia|lia|lia]. rewrite bind_assoc, runA_bind.
    replace (Z.of_nat (length pl) - 1 + 1) with (Z.of_nat (length pl)) by lia. rewrite read_ones_run.
    rewrite bind_assoc. rewrite runA_rdb; [|reflexivity|lia|cbn; lia]. reflexivity.
  - rdf. reflexivity.
Qed.

Theorem config_rt dmxs tdef m rest : valid_cfg dmxs m ->
  exists c, runA (parse_config false dmxs tdef) (enc_cfg m ++ rest) = Done (Ok c, rest) /\ stored_cfg to_word8 tdef m c.
Proof.
  intros (V1 & V2 & V3 & V4 & V5 & V6 & V7). unfold parse_config, enc_cfg. rewrite <- !app_assoc.
  rewrite runA_rdb; [|reflexivity|lia|change (2 ^ 3) with 8; lia].
  destruct (Z.ltb_spec COEFF_MAX (Z.of_nat (length (mf_coefs m)))) as [X|_]; [unfold COEFF_MAX in X; lia|].
  rewrite runA_rdb; [|reflexivity|lia|change (2 ^ 6) with 64; lia].
  destruct (Z.ltb_spec INSTR_MAX (Z.of_nat (length (mf_instr m)))) as [X|_]; [unfold INSTR_MAX in X; lia|].
  rewrite runA_rdb; [|reflexivity|lia|change (2 ^ 7) with 128; lia].
  rewrite !Nat2Z.id. rewrite runA_bind.
  edestruct (coefs_loop (mf_coefs m) 0 []) as (cs & E1 & S1); [exact V4|lia|]. rewrite E1. clear E1. cbn [app].
  rewrite runA_bind.
  edestruct (instrs_loop dmxs (mf_base m) (mf_coefs m) cs V3 V4 S1 V5 (mf_instr m) 0 []) as (is & E2 & S2); [exact V6|lia|].
  rewrite E2. clear E2. cbn [app].
  rewrite (ext_rt (mf_ext m)) by exact V7. rewrite runA_flag. cbn [b2z Z.eqb negb]. rewrite runA_bind.
  destruct (derive_loop tdef (mf_coefs m) cs S1 V5 (mf_instr m) is [] [] rest S2) as (is2 & E3 & S3).
  cbn [app length] in E3. rewrite E3. clear E3.
  destruct (Z.leb_spec INSTR_MAX (Z.of_nat (length (mf_instr m)))) as [X|_]; [unfold INSTR_MAX in X; lia|]. cbn [andb].
  rewrite !runA_chk by (unfold INSTR_MAX; lia). cbn [runA]. eexists. split; [reflexivity|].
  split; [reflexivity|]. split; [exact S1|exact S3].
Qed.

(** Narrow borders survive. *)
Lemma narrow_sets : forall ms k gs, Forall valid_set ms -> Forall narrow_set ms -> stored_sets to_word8 k ms gs ->
  stored_sets (fun b => b) k ms gs.
Proof.
  induction ms as [|m ms IH]; intros k [|g gs] HV HN H; cbn in *; try tauto. destruct H as (H & H').
  split; [|apply IH; [exact (Forall_inv_tail HV)|exact (Forall_inv_tail HN)|exact H']].
  destruct H as (H1 & H2 & H3 & H4 & H5 & H6 & H7 & H8 & H9 & H10). unfold stored_set.
  do 9 (split; [assumption|]). rewrite H10. apply map_ext_in. intros b Hb. apply word8_small.
  assert (N := Forall_inv HN). unfold narrow_set in N. rewrite Forall_forall in N. specialize (N b Hb). cbv beta in N.
  destruct (Forall_inv HV) as (_ & V). destruct (ms_prof m =? 3).
  - destruct V as (_ & V & _). rewrite V in Hb. destruct Hb.
  - destruct V as (_ & _ & _ & V & _). rewrite Forall_forall in V. specialize (V b Hb). unfold fits in V. lia.
Qed.
Lemma narrow_stored tdef m c dmxs : valid_cfg dmxs m -> narrow_cfg m -> stored_cfg to_word8 tdef m c -> stored_cfg (fun b => b) tdef m c.
Proof.
  intros (_ & _ & _ & V & _) N (S1 & S2 & S3). split; [exact S1|]. split; [|exact S3]. clear S3 S1. unfold narrow_cfg in N.
  induction S2 as [|x y xs ys H S2 IH]; constructor.
  - destruct H as (H1 & H2). split; [exact H1|]. apply narrow_sets; [|exact (Forall_inv N)|exact H2].
    apply (Forall_inv V).
  - apply IH; [exact (Forall_inv_tail V)|exact (Forall_inv_tail N)].
Qed.

Theorem config_exec dmxs tdef m : valid_cfg dmxs m -> forall s rest, wf s -> rest_bits s = enc_cfg m ++ rest ->
  exists c s', exec (parse_config false dmxs tdef) s = Done (Ok c, s') /\ rest_bits s' = rest /\ stored_cfg to_word8 tdef m c.
Proof.
  intros V s rest W R. destruct (config_rt dmxs tdef m rest V) as (c & E & S1).
  pose proof (exec_refines (parse_config false dmxs tdef) s W) as X. rewrite R, E in X. destruct X as (s' & X & W' & R').
  exists c, s'. auto.
Qed.
