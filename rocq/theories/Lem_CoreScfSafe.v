(** * Lem_CoreScfSafe: scale factors read from arbitrary bits, and counterexamples *)

From Coq Require Import ZArith List Lia Bool.
From Verif Require Import Bits BitBuf Prog Lem_CoreSafe CoreScf Spec_CoreScf Lem_CoreScf Lem_CoreScfRun.
Import ListNotations.
Open Scope list_scope.
Open Scope Z_scope.
Local Notation len := List.length.

Definition low (fac : list Z) : Prop := Forall (fun v => v <= 255) fac.
Lemma oput_ok fac p v : 0 <= p < Z.of_nat (len fac) -> exists fac', oput fac p v = Done fac' /\ len fac' = len fac /\ (low fac -> v <= 255 -> low fac').
Proof.
  intros H. unfold oput. replace (p <? 0) with false by (symmetry; apply Z.ltb_ge; lia). replace (Z.of_nat (len fac) <=? p) with false by (symmetry; apply Z.leb_gt; lia).
  cbn [orb]. eexists. split; [reflexivity|]. split.
  - rewrite app_length. cbn [len]. rewrite firstn_length, skipn_length. lia.
  - intros A B. unfold low in *. apply Forall_app. rewrite <- (firstn_skipn (Z.to_nat p) fac) in A. apply Forall_app in A. destruct A as [A1 A2]. split; [exact A1|].
    constructor; [exact B|]. rewrite <- (Nat.add_1_l (Z.to_nat p)), Nat.add_comm, <- skipn_skipn_add. destruct (skipn (Z.to_nat p) fac); [constructor|]. cbn. inversion A2; auto.
Qed.

Lemma any_step d k P bp w : are_bytes d -> Win d k P bp w -> 8 * Z.of_nat P + bp + 19 <= 8 * Z.of_nat (len d) ->
  exists v P' bp' w', one_code d (Z.of_nat (P + k), bp, w) = Done (v, (Z.of_nat (P' + k), bp', w')) /\ Win d k P' bp' w' /\ -60 <= v <= 60 /\
    8 * Z.of_nat P + bp <= 8 * Z.of_nat P' + bp' <= 8 * Z.of_nat P + bp + 19.
Proof.
  intros B W R. assert (BP : 0 <= bp) by apply W.
  destruct (any_word (skipn (8 * P + Z.to_nat bp) (bytes_bits d))) as (i & x & I & E).
  - rewrite skipn_length, bytes_bits_length. lia.
  - destruct (code_step d k P bp w i x B W I E) as (P' & bp' & w' & X1 & X2 & X3 & X4). assert (WL := word_len i I).
    exists (i - 60), P', bp', w'. sp; auto; lia.
Qed.

Lemma bands_safe d k first max : are_bytes d -> forall n b P bp w fac p f,
  Win d k P bp w -> 8 * Z.of_nat P + bp + 19 * Z.of_nat (max - b) <= 8 * Z.of_nat (len d) -> 0 <= p -> p + Z.of_nat n <= Z.of_nat (len fac) -> low fac ->
  exists e P' bp' w' fac' p' f', sf_bands d first max n b ((Z.of_nat (P + k), bp, w), fac, p, f) = Done (e, ((Z.of_nat (P' + k), bp', w'), fac', p', f')) /\
    (e = 0 \/ e = E_SF) /\ (e = 0 -> Win d k P' bp' w' /\ p' = p + Z.of_nat n /\ low fac' /\ len fac' = len fac /\ 8 * Z.of_nat P + bp <= 8 * Z.of_nat P' + bp' <= 8 * Z.of_nat P + bp + 19 * Z.of_nat (max - b)).
Proof.
  intros B. induction n as [|n IH]; intros b P bp w fac p f W R P0 L LO; cbn [sf_bands].
  - exists 0, P, bp, w, fac, p, f. split; [reflexivity|]. split; [auto|]. intros _. sp; auto; lia.
  - destruct (first && (b =? 0)%nat).
    + destruct (oput_ok fac p f ltac:(lia)) as (fac1 & E1 & E2 & E3). rewrite E1. cbn [obind]. destruct (Z.ltb_spec 255 f) as [X|X].
      * exists E_SF, P, bp, w, fac1, p, f. split; [reflexivity|]. split; [auto|]. discriminate.
      * destruct (IH (S b) P bp w fac1 (p + 1) f W ltac:(lia) ltac:(lia) ltac:(lia) ltac:(auto)) as (e & P' & bp' & w' & fac' & p' & f' & X1 & X2 & X3).
        exists e, P', bp', w', fac', p', f'. split; [exact X1|]. split; [exact X2|]. intros X0. destruct (X3 X0) as (Y1 & Y2 & Y3 & Y4 & Y5). sp; auto; lia.
    + destruct (Nat.leb_spec max b) as [M|M].
      * destruct (oput_ok fac p 0 ltac:(lia)) as (fac1 & E1 & E2 & E3). rewrite E1. cbn [obind].
        destruct (IH (S b) P bp w fac1 (p + 1) f W ltac:(lia) ltac:(lia) ltac:(lia) ltac:(apply E3; [auto|lia])) as (e & P' & bp' & w' & fac' & p' & f' & X1 & X2 & X3).
        exists e, P', bp', w', fac', p', f'. split; [exact X1|]. split; [exact X2|]. intros X0. destruct (X3 X0) as (Y1 & Y2 & Y3 & Y4 & Y5). sp; auto; lia.
      * destruct (any_step d k P bp w B W ltac:(lia)) as (v & P1 & bp1 & w1 & Z1 & Z2 & Z3 & Z4). rewrite Z1. cbn [obind]. cbv zeta.
        destruct (oput_ok fac p (f + v) ltac:(lia)) as (fac1 & E1 & E2 & E3). rewrite E1. cbn [obind]. destruct (Z.ltb_spec 255 (f + v)) as [X|X].
        -- exists E_SF, P1, bp1, w1, fac1, p, (f + v). split; [reflexivity|]. split; [auto|]. discriminate.
        -- destruct (IH (S b) P1 bp1 w1 fac1 (p + 1) (f + v) Z2 ltac:(lia) ltac:(lia) ltac:(lia) ltac:(auto)) as (e & P' & bp' & w' & fac' & p' & f' & X1 & X2 & X3).
           exists e, P', bp', w', fac', p', f'. split; [exact X1|]. split; [exact X2|]. intros X0. destruct (X3 X0) as (Y1 & Y2 & Y3 & Y4 & Y5). sp; auto; lia.
Qed.

Lemma copy_safe k : 0 <= k -> forall n p fac, 0 <= p -> p + Z.of_nat (S n) * k <= Z.of_nat (len fac) -> low fac ->
  exists fac', sf_copy n k p fac = Done fac' /\ len fac' = len fac /\ low fac'.
Proof.
  intros K. induction n as [|n IH]; intros p fac P L LO; cbn [sf_copy]; [eauto|].
  replace (p <? 0) with false by (symmetry; apply Z.ltb_ge; lia). replace (Z.of_nat (len fac) <? p + 2 * k) with false by (symmetry; apply Z.ltb_ge; nia). cbn [orb].
  set (f1 := firstn _ fac ++ _). assert (L1 : len f1 = len fac) by (unfold f1; rewrite !app_length, !firstn_length, !skipn_length; nia).
  assert (LO1 : low f1).
  { unfold low, f1 in *. rewrite !Forall_app. sp.
    - apply Forall_forall. intros y Y. rewrite Forall_forall in LO. apply LO. rewrite <- (firstn_skipn (Z.to_nat (p + k)) fac). apply in_or_app; auto.
    - apply Forall_forall. intros y Y. rewrite Forall_forall in LO. apply LO. rewrite <- (firstn_skipn (Z.to_nat p) fac). apply in_or_app; right. rewrite <- (firstn_skipn (Z.to_nat k)). apply in_or_app; auto.
    - apply Forall_forall. intros y Y. rewrite Forall_forall in LO. apply LO. rewrite <- (firstn_skipn (Z.to_nat (p + 2 * k)) fac). apply in_or_app; auto. }
  destruct (IH (p + k) f1 ltac:(lia) ltac:(rewrite L1; nia) LO1) as (f2 & X1 & X2 & X3). exists f2. sp; auto. lia.
Qed.

Lemma groups_safe d k islong max nsb gd nw : are_bytes d ->
  forall sizes fuel first f fac p P bp w group pre post bb,
  Win d k P bp w -> Forall (fun n => 1 <= n)%nat sizes ->
  gd = pre ++ ends group sizes ++ post -> nw = group + Z.of_nat (list_sum sizes) -> (len sizes <= fuel)%nat -> (islong = false -> bb = group) ->
  8 * Z.of_nat P + bp + 19 * Z.of_nat (len sizes * max) <= 8 * Z.of_nat (len d) -> 0 <= p -> p + Z.of_nat (list_sum sizes * nsb) <= Z.of_nat (len fac) -> low fac ->
  exists e P' bp' w' fac' p' f', sf_groups fuel d islong nw nsb max gd (Z.of_nat (len pre)) group bb first ((Z.of_nat (P + k), bp, w), fac, p, f)
    = Done (e, ((Z.of_nat (P' + k), bp', w'), fac', p', f')) /\
    (e = 0 \/ e = E_SF) /\ (e = 0 -> Win d k P' bp' w' /\ low fac' /\ len fac' = len fac /\ 8 * Z.of_nat P + bp <= 8 * Z.of_nat P' + bp' <= 8 * Z.of_nat P + bp + 19 * Z.of_nat (len sizes * max)).
Proof.
  intros B. induction sizes as [|n sizes IH]; intros fuel first f fac p P bp w group pre post bb W S1 G NW FU SH R P0 L LO.
  - cbn [list_sum fold_right] in *. exists 0, P, bp, w, fac, p, f.
    assert (E : (nw <=? group) = true) by (apply Z.leb_le; lia). split; [destruct fuel; cbn [sf_groups]; rewrite E; reflexivity|]. split; [auto|]. intros _. sp; auto; cbn; lia.
  - destruct fuel as [|fuel]; [cbn in FU; lia|]. cbn [len] in FU.
    assert (N1 : (1 <= n)%nat) by (inversion S1; auto). assert (S2 : Forall (fun n => 1 <= n)%nat sizes) by (inversion S1; auto). subst gd nw.
    change (list_sum (n :: sizes)) with (n + list_sum sizes)%nat in *. cbn [sf_groups]. cbn [len Nat.mul] in R.
    set (nw := group + Z.of_nat (n + list_sum sizes)) in *.
    replace (nw <=? group) with false by (symmetry; apply Z.leb_gt; unfold nw; lia).
    cbn [ends]. unfold oget. replace (get_byte (pre ++ (group + Z.of_nat n :: ends (group + Z.of_nat n) sizes) ++ post) (Z.of_nat (len pre))) with (Some (group + Z.of_nat n)).
    2:{ unfold get_byte. rewrite app_length. cbn [app len]. replace (0 <=? Z.of_nat (len pre)) with true by (symmetry; apply Z.leb_le; lia).
        replace (Z.of_nat (len pre) <? _) with true by (symmetry; apply Z.ltb_lt; lia). cbn [andb]. rewrite Nat2Z.id, nth_error_app2 by lia. rewrite Nat.sub_diag. reflexivity. }
    cbn [obind].
    destruct (bands_safe d k first max B nsb 0 P bp w fac p f W ltac:(lia) P0 ltac:(nia) LO) as (e & P1 & bp1 & w1 & fac1 & p1 & f1 & X1 & X2 & X3).
    match goal with |- context [sf_bands d first max nsb 0 ?st] => replace (sf_bands d first max nsb 0 st) with (@Done (Z * fst_) (e, (Z.of_nat (P1 + k), bp1, w1, fac1, p1, f1))) end.
    cbn [obind fst snd].
    destruct X2 as [->| ->].
    2:{ cbn [Z.eqb negb]. exists E_SF, P1, bp1, w1, fac1, p1, f1. split; [reflexivity|]. split; [auto|]. discriminate. }
    destruct (X3 eq_refl) as (W1 & E1 & L1 & EL & Q). cbn [Z.eqb negb].
    replace (Z.of_nat (len pre) + 1) with (Z.of_nat (len (pre ++ [group + Z.of_nat n]))) by (rewrite app_length; cbn [len]; lia).
    destruct islong.
    + destruct (IH fuel false f1 fac1 p1 P1 bp1 w1 (group + Z.of_nat n) (pre ++ [group + Z.of_nat n]) post bb) as (e2 & P2 & bp2 & w2 & fac2 & p2 & f2 & Y1 & Y2 & Y3); auto; try lia; try discriminate; try (rewrite EL, E1; nia). { rewrite <- app_assoc. reflexivity. }
      exists e2, P2, bp2, w2, fac2, p2, f2. split; [exact Y1|]. split; [exact Y2|]. intros Y0. destruct (Y3 Y0) as (U1 & U2 & U3 & U4). cbn [len Nat.mul]. sp; auto; lia.
    + specialize (SH eq_refl). subst bb. replace (Z.to_nat (group + Z.of_nat n - (group + 1))) with (n - 1)%nat by lia.
      destruct (copy_safe (Z.of_nat nsb) ltac:(lia) (n - 1) p fac1 P0 ltac:(replace (S (n - 1)) with n by lia; nia) L1) as (fac2 & C1 & C2 & C3). rewrite C1. cbn [obind].
      replace (group + 1 + Z.of_nat (n - 1)) with (group + Z.of_nat n) by lia.
      destruct (IH fuel false f1 fac2 (p1 + Z.of_nat (n - 1) * Z.of_nat nsb) P1 bp1 w1 (group + Z.of_nat n) (pre ++ [group + Z.of_nat n]) post (group + Z.of_nat n)) as (e2 & P2 & bp2 & w2 & fac3 & p2 & f2 & Y1 & Y2 & Y3); auto; try lia; try discriminate.
      * rewrite <- app_assoc. reflexivity.
      * assert (EN : p1 + Z.of_nat (n - 1) * Z.of_nat nsb = p + Z.of_nat n * Z.of_nat nsb) by (rewrite E1; replace (Z.of_nat n) with (Z.of_nat (n - 1) + 1) by lia; ring). rewrite EN, C2, EL. nia.
      * exists e2, P2, bp2, w2, fac3, p2, f2. split; [exact Y1|]. split; [exact Y2|]. intros Y0. destruct (Y3 Y0) as (U1 & U2 & U3 & U4). cbn [len Nat.mul]. sp; auto; lia.
Qed.

Lemma scf_safe islong nsb max sizes post gain fac s : wf s -> enough s -> Forall (fun n => 1 <= n)%nat sizes -> (len sizes <= 8)%nat ->
  (list_sum sizes * nsb <= len fac)%nat -> (64 <= len fac)%nat -> low fac -> 19 * Z.of_nat (len sizes * max) <= r_cnt s ->
  exists e fac' s', section_data islong (Z.of_nat (list_sum sizes)) nsb max (ends 0 sizes ++ post) gain fac s = Done (e, fac', s') /\
    (e = 0 \/ e = E_SF) /\ wf s' /\ r_cnt s - 19 * Z.of_nat (len sizes * max) <= r_cnt s' <= r_cnt s /\ (e = 0 -> low fac' /\ len fac' = len fac).
Proof.
  intros W E S1 S2 L L64 LO R. assert (W0 := W). destruct W as (B & P0 & PS & C0 & C). destruct (show_start s W0 E) as (k & X1 & X2 & X3).
  unfold section_data. rewrite X1. cbn [obind]. set (d := r_data s) in *. set (P := Z.to_nat (r_ptr s)) in *.
  set (facz := repeat 0 64 ++ skipn 64 fac).
  assert (FZ : len facz = len fac) by (unfold facz; rewrite app_length, repeat_length, skipn_length; lia).
  assert (LZ : low facz).
  { unfold low, facz in *. apply Forall_app. split; [apply Forall_forall; intros y Y; apply repeat_spec in Y; lia|].
    apply Forall_forall. intros y Y. rewrite Forall_forall in LO. apply LO. rewrite <- (firstn_skipn 64 fac). apply in_or_app; auto. }
  assert (EB : bitpos s = 8 * Z.of_nat P + (7 - r_pos s)) by (unfold bitpos; lia).
  destruct (groups_safe d k islong max nsb (ends 0 sizes ++ post) (Z.of_nat (list_sum sizes)) B sizes 9 true gain facz 0 P (7 - r_pos s) _ 0 [] post 0 X2 S1 eq_refl eq_refl)
    as (e & P1 & bp1 & w1 & fac1 & p1 & f1 & Y1 & Y2 & Y3); auto; try lia.
  cbn [len app] in Y1. change (Z.of_nat 0) with 0 in Y1.
  replace (r_ptr s + Z.of_nat k) with (Z.of_nat (P + k)) by lia.
  match goal with |- context [sf_groups 9 d islong ?a nsb max ?b 0 0 0 true ?st] =>
    replace (sf_groups 9 d islong a nsb max b 0 0 0 true st) with (@Done (Z * fst_) (e, ((Z.of_nat (P1 + k), bp1, w1), fac1, p1, f1))) end.
  cbn [obind]. destruct Y2 as [->| ->].
  2:{ change (E_SF =? 0) with false. cbn [negb]. exists E_SF, fac1, s. split; [reflexivity|]. split; [auto|]. sp; auto; try lia; discriminate. }
  cbn [Z.eqb negb]. destruct (Y3 eq_refl) as (U1 & U2 & U3 & U4).
  replace (Z.of_nat (P1 + k) - Z.of_nat k) with (Z.of_nat P1) by lia.
  destruct U1 as (_ & _ & _ & _ & BP0 & _).
  destruct (corr_back d B (Z.to_nat (bp1 / 8)) (Z.of_nat P1) bp1 w1 ltac:(lia) BP0 ltac:(lia)) as (w2 & E2).
  { assert (0 <= bp1 / 8) by (apply Z.div_pos; lia). lia. }
  unfold corr. rewrite E2. cbn [obind].
  assert (DM := Z.div_mod bp1 8 ltac:(lia)). assert (MB := Z.mod_pos_bound bp1 8 ltac:(lia)). assert (0 <= bp1 / 8) by (apply Z.div_pos; lia).
  exists 0, fac1. eexists. split; [reflexivity|]. split; [auto|]. unfold wf, bitpos. cbn [r_data r_ptr r_pos r_cnt]. fold d. sp; auto; try lia.
  intros _. split; [auto|lia].
Qed.

(** ** Examples *)
(** Three groups of 1, 4 and 3 windows with three bands in use of four. *)
Definition case_rows : list (list Z) := [[100; 108; 97]; [97; 96; 156]; [200; 255; 195]].
Lemma case_valid : valid_factors 3 100 case_rows /\ sizes_ok false [1; 4; 3]%nat.
Proof.
  split; [unfold valid_factors; cbn; sp; try lia; repeat constructor|].
  unfold sizes_ok. sp; try discriminate; cbn; try lia. repeat constructor; lia.
Qed.
Lemma case_all : all_factors 4 3 [1; 4; 3]%nat 100 case_rows =
  [100; 108; 97; 0; 97; 96; 156; 0; 97; 96; 156; 0; 97; 96; 156; 0; 97; 96; 156; 0; 200; 255; 195; 0; 200; 255; 195; 0; 200; 255; 195; 0].
Proof. reflexivity. Qed.

(** Two bands, the second 60 below 10. *)
Definition neg_bytes : list Z := [0xFF; 0xFA; 0x00].
Lemma negative : exists fac' s', wf (fresh neg_bytes) /\ enough (fresh neg_bytes) /\
  section_data true 1 2 2 [1] 10 (repeat 0 128) (fresh neg_bytes) = Done (0, fac', s') /\ nth 1 fac' 0 < 0.
Proof.
  destruct (section_data true 1 2 2 [1] 10 (repeat 0 128) (fresh neg_bytes)) as [[[e f] s]|?|?] eqn:E; vm_compute in E; try discriminate.
  injection E as <- <- <-. eexists _, _. split; [apply wf_fresh; repeat constructor; unfold is_byte; lia|]. split; [left; reflexivity|]. split; [reflexivity|]. vm_compute. reflexivity.
Qed.

(** A frame of four bytes of ones, with four bands. *)
Lemma runs_out : wf (fresh [255; 255; 255; 255]) /\ enough (fresh [255; 255; 255; 255]) /\
  section_data true 1 4 4 [1] 100 (repeat 0 128) (fresh [255; 255; 255; 255]) = UB UShift.
Proof. split; [apply wf_fresh; repeat constructor; unfold is_byte; lia|]. split; [left; reflexivity|]. vm_compute. reflexivity. Qed.

(** Nineteen bits, the first in the last place of its byte, and more bytes behind. *)
Definition tight : rbuf := mkR [1; 0xFF; 0xF9; 0x40; 0] 0 0 19.
Lemma misread : valid_factors 2 100 [[100; 156]] /\ wf tight /\ rest_bits tight = enc_factors 100 [[100; 156]] /\
  exists fac' s', section_data true 1 2 2 [1] 100 (repeat 0 128) tight = Done (0, fac', s') /\ firstn 2 fac' <> [100; 156].
Proof.
  split; [unfold valid_factors; cbn; sp; try lia; repeat constructor|].
  split; [unfold wf, tight, bitpos; cbn; sp; try lia; repeat constructor; unfold is_byte; lia|].
  split; [vm_compute; reflexivity|].
  destruct (section_data true 1 2 2 [1] 100 (repeat 0 128) tight) as [[[e f] s]|?|?] eqn:E; vm_compute in E; try discriminate.
  injection E as <- <- <-. eexists _, _. split; [reflexivity|]. vm_compute. discriminate.
Qed.
