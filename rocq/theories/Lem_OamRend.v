(** * Lem_OamRend: which metadata the renderer uses, earcons, and the counterexamples *)

From Coq Require Import ZArith List Lia Bool SpecFloat.
From Verif Require Import Bits BitBuf Prog Wp Loops Leaf Frame Config Lem_Dmx F32 Oam Spec_Oam Spec_OamEnh Lem_OamRT Lem_OamRT2
  Lem_OamFrame Lem_OamDyn Lem_OamHist Lem_OamEnh Lem_MhasProps Lem_OamEnhRT.
Import ListNotations.
Open Scope Z_scope.
Open Scope prog_scope.

(** ** Slots *)

(** The number of sub-frames with metadata among the first [j + 1]. *)
Definition sent_upto (pres : list Z) (j : nat) : Z := Z.of_nat (length (filter (fun p => negb (p =? 0)) (firstn (S j) pres))).

Lemma slots_gen n : forall pres sub j, (j < length pres)%nat -> 0 <= sub -> sub + Z.of_nat (length pres) <= n ->
  nth_error (render_slots n false sub pres) j = Some (sub + sent_upto pres j).
Proof.
  induction pres as [|p ps IH]; intros sub j Hj Hs Hn; cbn [length] in *; [lia|]. cbn [render_slots].
  destruct (p =? 0) eqn:E; cbn [negb].
  - destruct j as [|j]; cbn [nth_error].
    + unfold sent_upto. cbn [firstn filter]. rewrite E. cbn. f_equal. lia.
    + rewrite IH by lia. unfold sent_upto. cbn [firstn filter]. rewrite E. cbn [negb]. reflexivity.
  - replace (n <? sub + 1) with false by (symmetry; apply Z.ltb_ge; lia).
    destruct j as [|j]; cbn [nth_error].
    + unfold sent_upto. cbn [firstn filter]. rewrite E. cbn. f_equal.
    + rewrite IH by lia. unfold sent_upto. cbn [firstn filter]. rewrite E. cbn [negb length]. f_equal. lia.
Qed.

Lemma slots_first n p ps j : p <> 0 -> (j < length (p :: ps))%nat -> Z.of_nat (length (p :: ps)) <= n ->
  nth_error (render_slots n true 0 (p :: ps)) j = Some (sent_upto (p :: ps) j).
Proof.
  intros Hp Hj Hn. rewrite <- (Z.add_0_l (sent_upto _ _)). rewrite <- (slots_gen n (p :: ps) 0 j) by lia.
  cbn [render_slots]. apply Z.eqb_neq in Hp. rewrite Hp. reflexivity.
Qed.

(** ** Earcons *)
Definition earcon_body (pw : powers) (e : ears) (i : nat) (a : raws * dscs) : prog (raws * dscs) :=
    let '(w, d) := a in
    let k := Z.of_nat i in
    v <- aget (ea_dist e) 0 ;; rad <- aset (r_rad w) k v ;;
    v <- aget (ea_el e) 0 ;; el <- aset (r_el w) k v ;;
    v <- aget (ea_az e) 0 ;; az <- aset (r_az w) k v ;;
    gain <- (if negb (ea_has_gain e =? 0) then v <- aget (ea_gain e) 0 ;; aset (r_gain w) k v else Ret (r_gain w)) ;;
    v <- aget az k ;; daz <- aset (d_az d) k (g_az v) ;;
    v <- aget el k ;; del <- aset (d_el d) k (g_el v) ;;
    v <- aget rad k ;; drad <- aset (d_rad d) k (g_rad pw v) ;;
    v <- aget gain k ;; dgain <- aset (d_gain d) k (g_gain pw v) ;;
    Ret (mkRaw az el rad gain (r_sw w) (r_sh w) (r_sd w) (r_pri w),
         mkDsc daz del drad dgain (d_sw d) (d_sh d) (d_sd d) (d_pri d)).

(** One earcon at [az], [el], [dist]: what the renderer is given for object [k]. *)
Definition sounds_at (pw : powers) (d : dscs) (k : nat) (az el dist : Z) : Prop :=
  nth_error (d_az d) k = Some (g_az az) /\ nth_error (d_el d) k = Some (g_el el) /\ nth_error (d_rad d) k = Some (g_rad pw dist).

Lemma earcon_loop pw e az el dist g : nth_error (ea_az e) 0 = Some az -> nth_error (ea_el e) 0 = Some el ->
  nth_error (ea_dist e) 0 = Some dist -> nth_error (ea_gain e) 0 = Some g ->
  forall n b w d, wlen w 96 -> dlen d 96 -> (b + n <= 96)%nat ->
  exists w' d', forP n b (earcon_body pw e) (w, d) = Ret (w', d') /\ wlen w' 96 /\ dlen d' 96 /\
    (forall j, (b <= j < b + n)%nat -> sounds_at pw d' j az el dist /\
       (ea_has_gain e <> 0 -> nth_error (d_gain d') j = Some (g_gain pw g))) /\
    (forall j, (j < b)%nat -> nth_error (d_az d') j = nth_error (d_az d) j /\ nth_error (d_el d') j = nth_error (d_el d) j /\
       nth_error (d_rad d') j = nth_error (d_rad d) j /\ nth_error (d_gain d') j = nth_error (d_gain d) j).
Proof.
  intros E1 E2 E3 E4. induction n as [|n IH]; intros b w d HW HD HB.
  - exists w, d. cbn [forP]. split; [reflexivity|]. split; [exact HW|]. split; [exact HD|]. split; [intros; lia|auto].
  - cbn [forP]. unfold earcon_body at 1. cbv zeta. pose proof HW as ((L1 & L2 & L3 & L4) & L5 & L6 & L7 & L8).
    pose proof HD as ((M1 & M2 & M3 & M4) & (M5 & M6 & M7 & M8)).
    change 0 with (Z.of_nat 0) at 1 2 3 4. 
    rewrite (aget0 _ _ _ E3). cbn [bind]. rewrite aset_one by lia. cbn [bind].
    rewrite (aget0 _ _ _ E2). cbn [bind]. rewrite aset_one by lia. cbn [bind].
    rewrite (aget0 _ _ _ E1). cbn [bind]. rewrite aset_one by lia. cbn [bind].
    set (gain := if negb (ea_has_gain e =? 0) then set1 (r_gain w) b g else r_gain w).
    match goal with |- context [bind (if negb (ea_has_gain e =? ?z) then ?p else ?q) ?k] =>
      replace (if negb (ea_has_gain e =? z) then p else q) with (@Ret (list Z) gain) end.
    2:{ unfold gain. change (Z.of_nat 0) with 0. destruct (ea_has_gain e =? 0); cbn [negb]; [reflexivity|].
        change 0 with (Z.of_nat 0). rewrite (aget0 _ _ _ E4). cbn [bind]. rewrite aset_one by lia. reflexivity. }
    cbn [bind]. rewrite (aget0 (set1 (r_az w) b az) b az) by (apply nth_set1_eq; lia). cbn [bind]. rewrite aset_one by lia. cbn [bind].
    rewrite (aget0 (set1 (r_el w) b el) b el) by (apply nth_set1_eq; lia). cbn [bind]. rewrite aset_one by lia. cbn [bind].
    rewrite (aget0 (set1 (r_rad w) b dist) b dist) by (apply nth_set1_eq; lia). cbn [bind]. rewrite aset_one by lia. cbn [bind].
    assert (LG : length gain = 96%nat) by (unfold gain; destruct (negb _); [rewrite len_set1; lia|exact L4]).
    destruct (has_nth gain b) as (gg & Eg); [lia|].
    assert (Hgg : ea_has_gain e <> 0 -> gg = g).
    { intros N. apply Z.eqb_neq in N. unfold gain in Eg. rewrite N in Eg. cbn [negb] in Eg. rewrite nth_set1_eq in Eg by lia. congruence. }
    rewrite (aget0 _ _ _ Eg). cbn [bind]. rewrite aset_one by lia. cbn [bind].
    match goal with |- context [forP n (S b) _ (?w1, ?d1)] => destruct (IH (S b) w1 d1) as (w' & d' & Er & HW' & HD' & P1 & P2) end.
    { unfold wlen. cbn. repeat (rewrite len_set1 by lia). auto 12. }
    { unfold dlen. cbn. repeat (rewrite len_set1 by lia). auto 12. }
    { lia. }
    exists w', d'. split; [exact Er|]. split; [exact HW'|]. split; [exact HD'|]. cbn [d_az d_el d_rad d_gain] in P2. split.
    + intros j Hj. destruct (Nat.eq_dec j b) as [->|N]; [|apply P1; lia].
      destruct (P2 b) as (Q1 & Q2 & Q3 & Q4); [lia|]. unfold sounds_at. rewrite Q1, Q2, Q3, Q4. rewrite !nth_set1_eq by lia.
      split; [auto|]. intros N. rewrite (Hgg N). reflexivity.
    + intros j Hj. destruct (P2 j) as (Q1 & Q2 & Q3 & Q4); [lia|]. rewrite Q1, Q2, Q3, Q4. rewrite !nth_set1_neq by lia. auto.
Qed.

Lemma earcon_all pw e m st az el dist g S : nth_error (ea_az e) 0 = Some az -> nth_error (ea_el e) 0 = Some el ->
  nth_error (ea_dist e) 0 = Some dist -> nth_error (ea_gain e) 0 = Some g -> 0 <= m < 96 -> sized S st ->
  exists st1 st2, earcon_md pw m e st = Ret (st1, st2) /\ o_n st1 = m + 1 /\ o_n st2 = o_n st /\
    forall j, Z.of_nat j <= m -> sounds_at pw (o_dsc st1) j az el dist /\
       (ea_has_gain e <> 0 -> nth_error (d_gain (o_dsc st1)) j = Some (g_gain pw g)).
Proof.
  intros E1 E2 E3 E4 Hm (S1 & S2 & S3 & S4 & S5). unfold earcon_md. cbv zeta.
  destruct (earcon_loop pw e az el dist g E1 E2 E3 E4 (Z.to_nat (m + 1)) 0 (o_raw st) (o_dsc st) S2 S3) as (w' & d' & Er & _ & _ & P & _); [lia|].
  match goal with |- context [forP _ 0 ?f _] => change f with (earcon_body pw e) end. rewrite Er. cbn [bind].
  do 2 eexists. split; [reflexivity|]. cbn [o_n o_dsc]. split; [reflexivity|]. split; [reflexivity|]. intros j Hj. apply P. lia.
Qed.
