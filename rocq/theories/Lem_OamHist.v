(** * Lem_OamHist: any number of object metadata payloads, one after the other *)

From Coq Require Import ZArith List Lia Bool SpecFloat.
From Verif Require Import Bits BitBuf Prog Wp Loops Leaf Frame Config Lem_Dmx F32 Oam Spec_Oam Lem_OamRT Lem_OamRT2 Lem_OamFrame
  Lem_OamDyn Lem_OamSafe Lem_MhasProps.
Import ListNotations.
Open Scope Z_scope.
Open Scope prog_scope.

(** Decode the payloads [ds] (bytes) one after the other, each from its own buffer; a
    longjmp or undefined behaviour ends the history. *)
Fixpoint history (pw : powers) (c : oamc) (st : oamst) (ds : list (list Z)) : outcome oamst :=
  match ds with
  | [] => Done st
  | d :: ds =>
    match exec (oam_payload pw c 1024 st) (fresh d) with
    | Done ((_, st'), _) => history pw c st' ds
    | Jmp e => Jmp e
    | UB r => UB r
    end
  end.

(** The zeroed state of a configuration with [n] objects. *)
Definition zero_raw : raws :=
  let z := repeat 0 96 in mkRaw z z z z z z z z.
Definition zero_dsc : dscs :=
  let z := repeat (S754_zero false) 96 in mkDsc z z z z z z z z.
Definition zero_state (n : Z) : oamst :=
  mkO n 0 (repeat 0 4) (repeat 0 96) (repeat 0 96) zero_raw zero_dsc (mkFix 0 0 0 0 0 0).

Lemma tab_zero B : (forall i, 0 <= B i) -> tab B (repeat 0 96).
Proof.
  intros H. split; [apply repeat_length|]. intros i v E. apply nth_error_In, repeat_spec in E. subst. specialize (H i). lia.
Qed.

Lemma zero_ok n : 0 <= n <= 24 -> st_ok 128 0 (zero_state n).
Proof.
  intros H. unfold st_ok, zero_state. cbn [o_n o_pres o_has o_smp o_raw o_dsc].
  assert (T : forall B, (forall i : nat, 0 <= B i) -> tab B (repeat 0 96)) by apply tab_zero.
  split; [exact H|]. split; [reflexivity|]. split; [reflexivity|]. split; [apply T; cbn; lia|]. split.
  - unfold raw_ok, zero_raw. cbn [r_az r_el r_rad r_gain r_sw r_sh r_sd r_pri].
    assert (T' := T (fun _ => 128) ltac:(cbn; lia)). split; (split; [exact T'|split; [exact T'|split; exact T']]).
  - unfold dsc_ok, zero_dsc, ftab. repeat split.
Qed.

Lemma history_ok pw c n : forall ds B S st,
  Forall are_bytes ds -> 128 <= B -> 0 <= S -> B + 1024 * Z.of_nat (length ds) < 2 ^ 31 ->
  S + 1024 * Z.of_nat (length ds) < 2 ^ 31 -> st_ok B S st -> o_n st = n ->
  match history pw c st ds with
  | Done st' => st_ok (B + 1024 * Z.of_nat (length ds)) (S + 1024 * Z.of_nat (length ds)) st' /\ o_n st' = n /\
      (in_range c n (o_dsc st') \/ o_dsc st' = o_dsc st)
  | Jmp _ => True
  | UB _ => False
  end.
Proof.
  induction ds as [|d ds IH]; intros B S st HF HB HS HB2 HS2 Hst Hn; cbn [history].
  - rewrite !Z.add_0_r. auto.
  - inversion_clear HF as [|? ? H1 H2].
    assert (LL : Z.of_nat (length (d :: ds)) = 1 + Z.of_nat (length ds)) by (cbn [length]; lia). rewrite LL in *.
    assert (WP : wp (oam_payload pw c 1024 st) (fun x => st_ok (B + 1024) (S + 1024) (snd x) /\ o_n (snd x) = n /\
       (in_range c n (o_dsc (snd x)) \/ o_dsc (snd x) = o_dsc st))).
    { apply (wp_payload pw c B S st); auto; try lia. intros e st' A1 A2 A3. cbn [snd]. rewrite Hn in *. auto. }
    pose proof (wp_exec _ _ (fresh d) WP (wf_fresh d H1)) as W.
    destruct (exec (oam_payload pw c 1024 st) (fresh d)) as [[[e st'] s']|j|r]; auto.
    destruct W as ((W1 & W2 & W3) & _). cbn [snd] in *.
    specialize (IH (B + 1024) (S + 1024) st' H2 ltac:(lia) ltac:(lia) ltac:(lia) ltac:(lia) W1 W2).
    destruct (history pw c st' ds) as [st2|j|r]; auto. destruct IH as (I1 & I2 & I3).
    split; [|split; [exact I2|]].
    + replace (B + 1024 * (1 + Z.of_nat (length ds))) with (B + 1024 + 1024 * Z.of_nat (length ds)) by lia.
      replace (S + 1024 * (1 + Z.of_nat (length ds))) with (S + 1024 + 1024 * Z.of_nat (length ds)) by lia. exact I1.
    + destruct I3 as [I3|I3]; [left; exact I3|]. rewrite I3. exact W3.
Qed.

(** ** The sample counter overflows *)
(** The configuration and the payload: one object, nothing changes. *)
Definition quiet : list Z := [0].

Lemma quiet_bits : rest_bits (fresh quiet) = false :: enc_dynamic false (fun _ : unit => []) [None] ++ repeat false 5.
Proof. reflexivity. Qed.

Lemma quiet_step pw c st v : oc_ld c <> 0 -> oc_fl c = 1024 -> oc_uni c = 0 -> o_n st = 1 ->
  sized (v + 1) st -> length (o_has st) = 96%nat -> nth_error (o_smp st) 0 = Some v -> v + 1025 <= 2 ^ 31 ->
  exists st' s', exec (oam_payload pw c 1024 st) (fresh quiet) = Done ((0, st'), s') /\
    o_n st' = 1 /\ sized (v + 1024 + 1) st' /\ length (o_has st') = 96%nat /\ nth_error (o_smp st') 0 = Some (v + 1024).
Proof.
  intros El Ef Eu En HS HH Ev Hv.
  destruct (payload_dynamic pw c false false false (fun _ : unit => []) (fun _ => False) (fun _ r => r) (fun _ => True)
    [None] st (v + 1) (repeat false 5)) as (st' & E & _ & _ & S' & H' & N' & P'); auto; try lia.
  { cbn [length]. lia. }
  rewrite <- quiet_bits in E.
  destruct (exec_of_run _ (fresh quiet) _ _ (wf_fresh quiet ltac:(repeat constructor; lia)) E) as (s' & E2 & _).
  exists st', s'. split; [exact E2|]. split; [congruence|]. split; [|split; [exact H'|]].
  - replace (v + 1024 + 1) with (v + 1 + 1024) by lia. exact S'.
  - apply (P' 0%nat); [cbn; lia|exact Ev].
Qed.

Lemma quiet_over pw c st v S : oc_ld c <> 0 -> oc_fl c = 1024 -> o_n st = 1 ->
  sized S st -> length (o_has st) = 96%nat -> nth_error (o_smp st) 0 = Some v -> 2 ^ 31 <= v + 1024 ->
  exec (oam_payload pw c 1024 st) (fresh quiet) = UB UOverflow.
Proof.
  intros El Ef En HS HH Ev Hv. apply exec_ub; [apply wf_fresh; repeat constructor; lia|discriminate|].
  change (rest_bits (fresh quiet)) with (false :: false :: false :: repeat false 5). unfold oam_payload.
  cbn [avail bind runA]. rewrite Ef. change (1024 =? 256) with false. change (1024 =? 512) with false.
  change (1024 =? 1024) with true. change (1024 <? 1024) with false. cbn [orb negb]. cbv iota.
  change (Z.of_nat (length (false :: false :: false :: repeat false 5)) <=? 0) with false. cbv iota.
  unfold obj_md_dec. replace (oc_ld c =? 0) with false by (symmetry; apply Z.eqb_neq; exact El). cbn [negb].
  unfold low_delay_dec. cbn [s_sub o_n o_sub o_pres o_has o_smp o_raw o_dsc o_fix]. cbv zeta. change ((1 - 1) * o_n st) with 0.
  rewrite En. rewrite bind_assoc, flag_run. change (0 =? 0) with true. cbv iota.
  unfold dyn_dec. rewrite !bind_assoc, flag_run. change (Z.to_nat 1) with 1%nat. cbn [forP].
  rewrite !bind_assoc. rewrite flag_run.
  pose proof (aset_one (o_has st) 0 0 ltac:(lia)) as EH. change (Z.of_nat 0) with 0 in EH. rewrite EH. cbn [bind]. change (0 =? 0) with true. cbv iota. cbn [bind].
  destruct HS as (S1 & S2 & S3 & S4 & S5).
  match goal with |- runA ?p _ = _ => enough (X : p = Undef UOverflow) by (rewrite X; reflexivity) end.
  destruct (descale_all pw c (o_raw st) (o_dsc st) 0 1 96) as (d1 & E1 & D96 & _); auto; try lia.
  change (Z.of_nat 0) with 0 in E1. change (Z.of_nat 1) with 1 in E1. rewrite E1. cbn [bind].
  destruct (limit_all c 1 d1 96) as (d' & E2 & D96' & _); auto; try lia. change (Z.of_nat 1) with 1 in E2. rewrite E2. cbn [bind].
  unfold acc at 1. change (Z.of_nat 0) with 0.
  pose proof (aget_at (o_smp st) 0 0 v Ev) as EA. change (Z.of_nat 0 + Z.of_nat 0) with 0 in EA.
  rewrite EA. cbn [bind]. unfold addi.
  rewrite Ef. replace (v + 1024 <? 2 ^ 31) with false by (symmetry; apply Z.ltb_ge; lia). rewrite andb_false_r. reflexivity.
Qed.

Lemma quiet_history pw c : oc_ld c <> 0 -> oc_fl c = 1024 -> oc_uni c = 0 -> forall m st v,
  o_n st = 1 -> sized (v + 1) st -> length (o_has st) = 96%nat -> nth_error (o_smp st) 0 = Some v ->
  v + 1024 * (1 + Z.of_nat m) = 2 ^ 31 ->
  history pw c st (repeat quiet (1 + m)) = UB UOverflow.
Proof.
  intros El Ef Eu. induction m as [|m IH]; intros st v En HS HH Ev Hv; cbn [Nat.add repeat history].
  - rewrite (quiet_over pw c st v (v + 1)); auto. lia.
  - destruct (quiet_step pw c st v) as (st' & s' & E & N' & S' & H' & P'); auto; try lia.
    rewrite E. apply (IH st' (v + 1024)); auto. lia.
Qed.

Lemma zero_sized n S : 1 <= S -> sized S (zero_state n).
Proof.
  intros H. unfold sized, zero_state. cbn [o_pres o_raw o_dsc o_smp]. split; [reflexivity|].
  split; [repeat split|]. split; [repeat split|]. split; [reflexivity|].
  apply Forall_forall. intros v Hv. apply repeat_spec in Hv. lia.
Qed.

Lemma history_overflow pw : exists c ds, Forall are_bytes ds /\
  history pw c (zero_state 1) ds = UB UOverflow.
Proof.
  set (m := Z.to_nat (2 ^ 21 - 1)). assert (Hm : Z.of_nat m = 2 ^ 21 - 1) by (apply Z2Nat.id; lia). clearbody m.
  exists (mkOC 1024 1024 1 0 0 [] 0), (repeat quiet (1 + m)). split.
  - apply Forall_forall. intros d Hd. apply repeat_spec in Hd. subst. repeat constructor; lia.
  - apply quiet_history with (v := 0); try reflexivity.
    + cbn; discriminate.
    + apply zero_sized. lia.
    + rewrite Hm. reflexivity.
Qed.
