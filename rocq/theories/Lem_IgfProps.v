(** * Lem_IgfProps: a frame of gap filling levels, what can be sent, safety, counterexamples *)

From Coq Require Import ZArith List Lia Bool.
From Verif Require Import Bits BitBuf Arith IgfRom Igf Spec_Arith Spec_Igf Lem_Arith Lem_Level2 Lem_ArithRT Lem_Igf.
Import ListNotations.
Open Scope Z_scope.

Lemma groups_facts inc len : (0 < inc)%nat -> (len <= groups_in inc len * inc)%nat /\
  (forall i, (i < groups_in inc len)%nat -> (i * inc < len)%nat).
Proof.
  intros I. unfold groups_in. pose proof (Nat.div_mod (len + inc - 1) inc ltac:(lia)) as D.
  pose proof (Nat.mod_upper_bound (len + inc - 1) inc ltac:(lia)) as M. set (d := ((len + inc - 1) / inc)%nat) in *.
  split; [nia|]. intros i H. assert (i * inc <= (d - 1) * inc)%nat by (apply Nat.mul_le_mono_r; lia). nia.
Qed.

(** The data of a channel between frames: 53 levels below 2^28 (in magnitude) and the 8 windows. *)
Definition fit (i : ist) : Prop :=
  length (v_prev (i_env i)) = 53%nat /\ Forall small (v_prev (i_env i)) /\ small (v_ctx (i_env i)) /\
  0 <= v_t (i_env i) < 2 ^ 30 /\ length (i_lev i) = 8%nat.
(** What is predicted from: everything is 0 after a reset. *)
Definition base_env (reset : bool) (i : ist) : env := if reset then mkEnv 0 0 (repeat 0 53) else i_env i.
Definition base_lev (reset : bool) (i : ist) : levs := if reset then repeat (repeat None 53) 8 else i_lev i.

Lemma base_fit reset i : fit i -> length (v_prev (base_env reset i)) = 53%nat /\ Forall small (v_prev (base_env reset i)) /\
  small (v_ctx (base_env reset i)) /\ 0 <= v_t (base_env reset i) < 2 ^ 30 /\ length (base_lev reset i) = 8%nat.
Proof.
  intros F. destruct reset; [|exact F]. cbn [base_env base_lev v_prev v_ctx v_t]. split; [reflexivity|].
  split; [apply Forall_forall; intros x X; apply repeat_spec in X; subst; unfold small; cbn; lia|].
  split; [unfold small; cbn; lia|]. split; [lia|reflexivity].
Qed.

Lemma rest_len b : wf b -> Z.of_nat (length (rest_bits b)) = r_cnt b.
Proof.
  intros (B & Hp & Hb & Hc0 & Ht). unfold rest_bits. rewrite firstn_length, skipn_length, bytes_bits_length. unfold bitpos in *. lia.
Qed.
Lemma flag_read b (f : bool) r : wf b -> rest_bits b = f :: r ->
  exists b', read_bits 1 b = Done (if f then 1 else 0, b') /\ wf b' /\ rest_bits b' = r /\ r_data b' = r_data b.
Proof.
  intros W R. pose proof (rest_len b W) as L. rewrite R in L. cbn [length] in L.
  assert (P : 0 <= r_pos b <= 7) by (destruct W as (? & ? & ? & ? & ?); lia).
  destruct (read_bits_ok 1 b W ltac:(lia) ltac:(lia) ltac:(lia)) as (b' & E & W' & R' & D & _).
  exists b'. rewrite E, R. change (Z.to_nat 1) with 1%nat. cbn [firstn]. split; [destruct f; reflexivity|].
  split; [exact W'|]. split; [rewrite R', R; reflexivity|exact D].
Qed.

Definition lev_env (start inc len G : nat) (v : env) (ws : list (list Z)) : env :=
  mkEnv (v_t v + Z.of_nat (length ws)) (ctx_after (gather start inc G (v_prev v)) (v_ctx v) ws) (prev_after start inc len ws (v_prev v)).

Lemma levels_run wt hires start len tiles min tbl off indep ws i b rest :
  0 <= wt <= 3 -> (1 <= start)%nat -> (1 <= len)%nat -> (start + len <= 53)%nat -> fit i ->
  nth_error tbl (start - 1) = Some off -> wf b -> (15 <= length rest)%nat -> (length ws <= 8)%nat ->
  let inc := group_size wt hires in
  let G := groups_in inc len in
  let reset := indep || negb (wt =? i_win i) in
  let v := base_env reset i in
  Forall (fun q => length q = G /\ Forall small q) ws ->
  windows_ok (v_t v) (gather start inc G (v_prev v)) (v_ctx v) ws ->
  rest_bits b = false :: encode (windows_syms (v_t v) (gather start inc G (v_prev v)) (v_ctx v) ws) ++ rest ->
  exists b', igf_levels wt hires (mkGrid (Z.of_nat start) (Z.of_nat (start + len)) tiles min) tbl indep (length ws) i b =
    Got (if existsb busy ws && (min <? (if 1 <? wt then off * 2 ^ wt else off)) then 0 else -1,
         mkIst (lev_env start inc len G v ws) wt (i_ptile i) (i_pwhite i) 0 (i_tile i)
           (levels_after start inc len (step_size wt hires) (base_of wt) ws (base_lev reset i)) (i_white i) (i_tnf i), b') /\
    wf b' /\ rest_bits b' = rest.
Proof.
  intros WT S1 L1 SL F NT W RL WL inc G reset v FW OK R.
  destruct (base_fit reset i F) as (P1 & P2 & P3 & P4 & P5). fold v in P1, P2, P3, P4.
  assert (I : (0 < inc)%nat) by (unfold inc, group_size; destruct (_ && _); lia).
  destruct (groups_facts inc len I) as [GL GU]. fold G in GL, GU.
  destruct (flag_read b false _ W R) as (b1 & E1 & W1 & R1 & _).
  set (syms := windows_syms (v_t v) (gather start inc G (v_prev v)) (v_ctx v) ws) in *.
  set (w := encode syms ++ rest) in *. set (e := enc_all syms enc0).
  assert (LW : length w = (e_cnt e + 2 + length rest)%nat) by (unfold w, encode; rewrite app_length, code_length; reflexivity).
  pose proof (first_sync w ltac:(lia)) as FS.
  unfold igf_levels. rewrite E1. cbn [lift obind]. unfold swb_at. cbn [g_start g_min g_stop].
  replace (tab tbl (Z.of_nat start - 1)) with (Got off : out Z).
  2:{ unfold tab. rewrite (proj2 (Z.ltb_ge _ _)) by lia. replace (Z.to_nat (Z.of_nat start - 1)) with (start - 1)%nat by lia. rewrite NT. reflexivity. }
  cbn [obind]. change (0 =? 0) with true. cbn [negb orb]. fold reset. cbv iota. fold (base_env reset i). change (if reset then repeat (repeat None 53) 8 else i_lev i) with (base_lev reset i). fold v.
  rewrite R1. fold w. destruct (first_symbol w) as [s0 r0].
  assert (FA : step_size wt hires = 1 \/ step_size wt hires = 2) by (unfold step_size; destruct (hires || (1 <? wt)); lia).
  destruct (wins_run w (mkGrid (Z.of_nat start) (Z.of_nat (start + len)) tiles min) inc len start (step_size wt hires) (base_of wt) G
    eq_refl eq_refl I ltac:(lia) GL GU SL FA ws v [] (base_lev reset i) false enc0 s0 r0 16 FW P1 P2 P3 ltac:(lia) ltac:(lia)
    ltac:(cbn [length]; lia) ltac:(cbn [length]; lia) OK ready0 FS) as [CD RUN]. fold syms in CD, RUN.
  destruct RUN as (s' & bs' & n' & EW & SY).
  { apply code_inside. apply all_ready; [exact CD|exact ready0]. }
  { fold e. lia. }
  cbn [length app orb] in EW. change (Z.of_nat 0) with 0 in EW.
  replace (if (wt =? 0) && negb hires then 2 else 1) with (Z.of_nat inc) by (unfold inc, group_size; destruct (_ && _); reflexivity).
  fold (step_size wt hires). fold (base_of wt). rewrite EW. cbn [obind].
  fold e in SY. destruct SY as [_ _ _ _ NN].
  assert (NL : n' - 14 = Z.of_nat (length (encode syms))) by (rewrite NN; unfold encode; rewrite code_length; fold e; lia).
  assert (CB : r_cnt b1 = Z.of_nat (length w)) by (rewrite <- (rest_len b1 W1), R1; reflexivity).
  assert (LE : length w = (length (encode syms) + length rest)%nat) by (unfold w; apply app_length).
  destruct (skip_bits_ok (n' - 14) b1 W1 ltac:(lia)) as (b2 & E2 & W2 & R2 & _).
  rewrite E2. cbn [lift obind]. exists b2. split; [|split; [exact W2|]].
  2:{ rewrite R2, R1, NL, Nat2Z.id. unfold w. rewrite skipn_app, skipn_all, Nat.sub_diag. reflexivity. }
  rewrite (proj2 (Z.eqb_neq (Z.of_nat start) (Z.of_nat (start + len)))) by lia. cbn [orb].
  replace (if (wt =? 2) || (wt =? 3) then off * 2 ^ wt else off) with (if 1 <? wt then off * 2 ^ wt else off).
  2:{ destruct (Z.ltb_spec 1 wt), (Z.eqb_spec wt 2), (Z.eqb_spec wt 3); cbn [orb]; try reflexivity; lia. }
  fold (lev_env start inc len G v ws).
  generalize (if 1 <? wt then off * 2 ^ wt else off). intros x.
  replace (x <=? min) with (negb (min <? x)) by (rewrite Z.ltb_antisym, negb_involutive; reflexivity).
  destruct (existsb busy ws), (min <? x); reflexivity.
Qed.

Lemma zero_run wt hires g tbl off indep n i b rest : nth_error tbl (Z.to_nat (g_start g - 1)) = Some off -> 1 <= g_start g ->
  wf b -> rest_bits b = true :: rest ->
  exists b', igf_levels wt hires g tbl indep n i b =
    Got (1, mkIst (mkEnv 0 0 (repeat 0 53)) wt (repeat 3 4) (repeat 0 4) 1 (repeat 3 4) (repeat (repeat None 53) 8) (repeat 0 4) 0, b') /\
    wf b' /\ rest_bits b' = rest.
Proof.
  intros NT S1 W R. destruct (flag_read b true _ W R) as (b1 & E1 & W1 & R1 & _). exists b1.
  split; [|split; assumption]. unfold igf_levels. rewrite E1. cbn [lift obind]. unfold swb_at, tab.
  rewrite (proj2 (Z.ltb_ge _ _)) by lia. rewrite NT. cbn [obind]. reflexivity.
Qed.

(** ** What can be sent *)
Lemma diff_ok o d : soff o -> Z.abs d <= 150 -> codable o d.
Proof. unfold soff, codable. lia. Qed.
Lemma choice_off t p pd q i : soff (snd (fst (choice t p pd q i))).
Proof.
  destruct i as [|j]; cbn [choice].
  - destruct (t =? 1); cbn [fst snd]; [unfold soff; lia|]. unfold shift1; apply nth_all; [exact off_20|apply trend_lt].
  - destruct (t =? 0).
    + destruct j; cbn [fst snd]; [unfold soff; lia|]. unfold shift1; apply nth_all; [exact off_02|apply trend_lt].
    + cbn [fst snd]. destruct (nth_all _ offset_se_11 (trend (at_ q j - at_ p j)) [] off_11 (trend_lt _)) as [A B].
      apply nth_all; [exact A|rewrite B; apply trend_lt].
Qed.
Lemma level_fine t p pd q i : (first_raw t i = true -> 0 <= at_ q 0 <= 127) ->
  (first_raw t i = false -> Z.abs (snd (choice t p pd q i)) <= 150) -> level_ok t p pd q i.
Proof.
  intros A B. unfold level_ok. destruct (first_raw t i); [auto|]. pose proof (choice_off t p pd q i) as O.
  destruct (choice t p pd q i) as [[cf o] d]. apply diff_ok; [exact O|auto].
Qed.
Lemma at_range l i lo hi : lo <= 0 <= hi -> Forall (fun x => lo <= x <= hi) l -> lo <= at_ l i <= hi.
Proof.
  intros H F. unfold at_. destruct (Nat.lt_ge_cases i (length l)) as [L|L].
  - rewrite Forall_forall in F. apply F, nth_In, L.
  - rewrite nth_overflow by exact L. exact H.
Qed.
Lemma first_window_ok p pd q : Forall (fun x => 0 <= x <= 127) q -> window_ok 0 p pd q.
Proof.
  intros F i _. pose proof (fun k => at_range q k 0 127 ltac:(lia) F) as A. apply level_fine; intros H; [apply A|].
  destruct i as [|[|h]]; [discriminate| |]; cbn [choice snd]; change (0 =? 0) with true; cbv iota; cbn [snd].
  - pose proof (A 0%nat). pose proof (A 1%nat). lia.
  - pose proof (A (S h)). pose proof (A (S (S h))). lia.
Qed.
Lemma later_window_ok t p pd q : Forall (fun x => 0 <= x <= 75) p -> Forall (fun x => 0 <= x <= 75) q -> window_ok t p pd q.
Proof.
  intros P Q i _. pose proof (fun k => at_range q k 0 75 ltac:(lia) Q) as A. pose proof (fun k => at_range p k 0 75 ltac:(lia) P) as B.
  apply level_fine; intros H; [pose proof (A 0%nat); lia|].
  destruct i as [|j]; cbn [choice].
  - destruct (t =? 1); cbn [snd]; pose proof (A 0%nat); pose proof (B 0%nat); lia.
  - destruct (t =? 0).
    + destruct j; cbn [snd]; [pose proof (A 0%nat); pose proof (A 1%nat); lia|]. pose proof (A (S j)). pose proof (A (S (S j))). lia.
    + cbn [snd]. pose proof (A j). pose proof (A (S j)). pose proof (B j). pose proof (B (S j)). lia.
Qed.
Lemma windows_fine : forall ws t p pd, Forall (fun x => 0 <= x <= 75) p -> Forall (Forall (fun x => 0 <= x <= 75)) ws -> windows_ok t p pd ws.
Proof.
  induction ws as [|q ws IH]; intros t p pd P F; [exact I|]. cbn [windows_ok]. split.
  - apply later_window_ok; [exact P|exact (Forall_inv F)].
  - apply IH; [exact (Forall_inv F)|exact (Forall_inv_tail F)].
Qed.

(** ** Safety: whatever the bits are *)
Definition runs {X} (P : X -> Prop) (f : ast -> list bool -> Z -> out (X * ast * list bool * Z)) : Prop :=
  forall s bs n, good s -> exists x s' bs' n', f s bs n = Got (x, s', bs', n') /\ P x /\ good s'.

Lemma runs_ret {X} (P : X -> Prop) x : P x -> runs P (fun s bs n => Got (x, s, bs, n)).
Proof. intros H s bs n G. exists x, s, bs, n. auto. Qed.
Lemma runs_bind {X Y} (P : X -> Prop) (Q : Y -> Prop) f g : runs P f -> (forall x, P x -> runs Q (g x)) ->
  runs Q (fun s bs n => olet (x, s, bs, n) := f s bs n in g x s bs n).
Proof.
  intros F H s bs n G. destruct (F s bs n G) as (x & s1 & bs1 & n1 & E & PX & G1). rewrite E. cbn [obind]. apply (H x PX s1 bs1 n1 G1).
Qed.
Lemma runs_mono {X} (P Q : X -> Prop) f : runs P f -> (forall x, P x -> Q x) -> runs Q f.
Proof. intros F H s bs n G. destruct (F s bs n G) as (x & s1 & bs1 & n1 & E & PX & G1). exists x, s1, bs1, n1. auto. Qed.

Lemma get1_runs m0 cf cfl : freq_table cf -> cfl = Z.of_nat (length cf) -> is_symbol cf m0 ->
  runs (is_symbol cf) (fun s bs n => get1 m0 s bs n cf cfl).
Proof.
  intros T -> M s bs n G. unfold get1.
  destruct (decode_ok s bs n cf G T) as [(_ & _ & E)|(_ & y & k & s' & E & Y & G' & _)]; rewrite E.
  - exists m0, s, bs, (-1). auto.
  - exists y, s', (skipn k bs), (n + Z.of_nat k). auto.
Qed.
Lemma bits_runs k : forall bit acc, 0 <= bit <= 1 -> runs (fun x => acc <= x < acc + 2 ^ Z.of_nat k) (bits_loop k bit acc).
Proof.
  induction k as [|k IH]; intros bit acc B.
  - apply runs_ret. cbn. lia.
  - change (runs (fun x => acc <= x < acc + 2 ^ Z.of_nat (S k)) (fun s bs n => olet (bit, s, bs, n) := get1 bit s bs n cf_for_bit 2 in
      bits_loop k bit (acc + bit * 2 ^ Z.of_nat k) s bs n)).
    eapply runs_bind; [apply get1_runs; [exact bit_tab|reflexivity|unfold is_symbol; cbn; lia]|].
    intros x X. unfold is_symbol in X. change (Z.of_nat (length cf_for_bit)) with 2 in X.
    eapply runs_mono; [apply IH; lia|]. intros y Y. cbv beta in *. rewrite Nat2Z.inj_succ, Z.pow_succ_r by lia. nia.
Qed.
Lemma residual_runs cf o : ftab cf -> soff o -> runs (fun x => Z.abs x <= 160) (residual cf o).
Proof.
  intros [T L] O. unfold soff in O.
  change (runs (fun x => Z.abs x <= 160) (fun s bs n => olet (v, s, bs, n) := get1 0 s bs n cf 27 in
        (fun v s bs n => if negb (v =? 26) && negb (v =? 0) then Got ((v - 1) + -12 - o, s, bs, n)
        else
          olet (e, s, bs, n) := decode_bits 4 s bs n in
          olet (e, s, bs, n) :=
            (if e =? 15 then olet (e, s, bs, n) := decode_bits 7 s bs n in Got (15 + e, s, bs, n)
             else Got (e, s, bs, n)) in
          Got ((if v =? 0 then (-12 - 1) - e else (12 + 1) + e) - o, s, bs, n)) v s bs n)).
  eapply runs_bind; [apply get1_runs; [exact T|rewrite L; reflexivity|unfold is_symbol; rewrite L; lia]|].
  intros v V. unfold is_symbol in V. rewrite L in V. cbv beta. destruct (negb (v =? 26) && negb (v =? 0)) eqn:E.
  - apply runs_ret. lia.
  - eapply runs_bind with (g := fun e s bs n => olet (e, s, bs, n) :=
            (if e =? 15 then olet (e, s, bs, n) := decode_bits 7 s bs n in Got (15 + e, s, bs, n)
             else Got (e, s, bs, n)) in
          Got ((if v =? 0 then (-12 - 1) - e else (12 + 1) + e) - o, s, bs, n)); [apply (bits_runs 4 0 0); lia|].
    intros e B. cbv beta in B. change (2 ^ Z.of_nat 4) with 16 in B.
    eapply (runs_bind (fun e => 0 <= e <= 142) _ (fun s bs n => if e =? 15 then olet (e, s, bs, n) := decode_bits 7 s bs n in Got (15 + e, s, bs, n)
             else Got (e, s, bs, n)) (fun e s bs n => Got ((if v =? 0 then (-12 - 1) - e else (12 + 1) + e) - o, s, bs, n))).
    + destruct (e =? 15).
      * eapply runs_bind with (g := fun e s bs n => Got (15 + e, s, bs, n)); [apply (bits_runs 7 0 0); lia|].
        intros x X. cbv beta in X. change (2 ^ Z.of_nat 7) with 128 in X. apply runs_ret. lia.
      * apply runs_ret. lia.
    + intros x X. cbv beta in X. apply runs_ret. destruct (v =? 0); lia.
Qed.
Lemma plus_runs pred cf o B : ftab cf -> soff o -> Z.abs pred <= B -> B + 160 < 2 ^ 31 ->
  runs (fun x => Z.abs (x - pred) <= 160) (plus_res pred cf o).
Proof.
  intros T O P H. unfold plus_res. eapply runs_bind with (g := fun r s bs n => olet x := w32 (pred + r) in Got (x, s, bs, n)); [apply residual_runs; assumption|].
  intros x X. cbv beta in X. rewrite w32_ok by lia. cbn [obind]. apply runs_ret. lia.
Qed.

(** The state inside a window: the levels so far, and their distance from the window before. *)
Definition inrow (t inc start len B : Z) (prev cur : list Z) (sfb : Z) : Prop :=
  0 <= sfb /\ Forall (fun x => Z.abs x <= B + 160 * Z.min sfb 53) cur /\
  (sfb < len -> Z.of_nat (length cur) = sfb /\ (sfb mod inc = 0)) /\
  (t <> 0 -> 0 < sfb < len -> Z.abs (entry cur (sfb - inc) - entry prev (start + (sfb - inc))) <= 160 * sfb).

Lemma near l i B : 0 <= B -> Forall (fun x => Z.abs x <= B) l -> Z.abs (entry l i) <= B.
Proof.
  intros H F. unfold entry. destruct (Nat.lt_ge_cases (Z.to_nat i) (length l)) as [L|L].
  - rewrite Forall_forall in F. apply F, nth_In, L.
  - rewrite nth_overflow by exact L. cbn. exact H.
Qed.

Lemma level_runs t inc start len prev pd cur sfb B : (inc = 1 \/ inc = 2) -> 0 <= start -> start + len <= 53 -> length prev = 53%nat ->
  0 <= B <= 2 ^ 29 + 2 ^ 20 -> Forall (fun x => Z.abs x <= B) prev -> Z.abs pd <= B ->
  inrow t inc start len B prev cur sfb -> sfb < len ->
  runs (fun x => Z.abs x <= B + 160 * (sfb + 1) /\ (t <> 0 -> Z.abs (x - entry prev (start + sfb)) <= 160 * (sfb + 1)))
    (level1 t inc start prev pd cur sfb).
Proof.
  intros I S0 SL LP BB FP PD (R0 & R1 & R2 & R3) L. destruct (R2 L) as [LC MD]. change (2 ^ 29 + 2 ^ 20) with 537919488 in BB.
  rewrite Z.min_l in R1 by lia.
  pose proof (fun i => near prev i B ltac:(lia) FP) as NP. pose proof (fun i => near cur i (B + 160 * sfb) ltac:(lia) R1) as NC.
  unfold level1. destruct (Z.eqb_spec t 0) as [T|T].
  - destruct (Z.eqb_spec sfb inc) as [E|E].
    + rewrite tab_ok by lia. cbn [obind]. pose proof (NC (sfb - inc)) as N1.
      eapply runs_mono; [apply (plus_runs _ _ _ (B + 160 * sfb)); [exact tab_01|unfold soff; lia|lia|lia]|]. intros x X. cbv beta in X. split; [lia|intros; lia].
    + destruct (Z.eqb_spec sfb 0) as [E0|E0].
      * eapply runs_mono; [apply (bits_runs 7 0 0); lia|]. intros x X. cbv beta in X. change (2 ^ Z.of_nat 7) with 128 in X. split; [lia|intros; lia].
      * assert (2 * inc <= sfb). { destruct I; subst inc; [lia|]. assert (sfb <> 1) by (intros ->; discriminate). assert (sfb <> 3) by (intros ->; discriminate). lia. }
        rewrite !tab_ok by lia. cbn [obind]. pose proof (NC (sfb - inc)) as N1. pose proof (NC (sfb - 2 * inc)) as N2.
        rewrite w32_ok by lia. cbn [obind]. rewrite ctx_trend. pose proof (trend_lt (entry cur (sfb - inc) - entry cur (sfb - 2 * inc))) as TL.
        rewrite (trow_nth cf_se_02 _ []) by exact TL. cbn [obind]. rewrite tab_nth by exact TL. cbn [obind].
        eapply runs_mono; [apply (plus_runs _ _ _ (B + 160 * sfb)); [exact (nth_all ftab cf_se_02 _ [] tab_02 TL)|exact (nth_all soff offset_se_02 _ 0 off_02 TL)|lia|lia]|].
        intros x X. cbv beta in X. split; [lia|intros; lia].
  - destruct (Z.eqb_spec sfb 0) as [E0|E0].
    + rewrite tab_ok by lia. cbn [obind]. pose proof (NP (start + sfb)) as N1.
      destruct (negb (t =? 1)).
      * rewrite w32_ok by lia. cbn [obind]. rewrite ctx_trend. pose proof (trend_lt (entry prev (start + sfb) - pd)) as TL.
        rewrite (trow_nth cf_se_20 _ []) by exact TL. cbn [obind]. rewrite tab_nth by exact TL. cbn [obind].
        eapply runs_mono; [apply (plus_runs _ _ _ B); [exact (nth_all ftab cf_se_20 _ [] tab_20 TL)|exact (nth_all soff offset_se_20 _ 0 off_20 TL)|lia|lia]|].
        intros x X. cbv beta in X. split; [lia|intros; lia].
      * eapply runs_mono; [apply (plus_runs _ _ _ B); [exact tab_10|unfold soff; lia|lia|lia]|]. intros x X. cbv beta in X. split; [lia|intros; lia].
    + assert (inc <= sfb). { destruct I; subst inc; [lia|]. assert (sfb <> 1) by (intros ->; discriminate). lia. }
      rewrite !tab_ok by lia. cbn [obind]. pose proof (NC (sfb - inc)) as N1. pose proof (NP (start + sfb)) as N2. pose proof (NP (start + (sfb - inc))) as N3.
      specialize (R3 T ltac:(lia)).
      set (c := entry cur (sfb - inc)) in *. set (q := entry prev (start + (sfb - inc))) in *. set (p := entry prev (start + sfb)) in *.
      rewrite (w32_ok (p + c)) by lia. cbn [obind]. rewrite (w32_ok (p + c - q)) by lia. cbn [obind].
      rewrite (w32_ok (c - q)) by lia. cbn [obind]. rewrite (w32_ok (p - q)) by lia. cbn [obind]. rewrite !ctx_trend.
      pose proof (trend_lt (c - q)) as T1. pose proof (trend_lt (p - q)) as T2.
      destruct (nth_all _ cf_se_11 (trend (c - q)) [] tab_11 T1) as [F1 F2].
      destruct (nth_all _ offset_se_11 (trend (c - q)) [] off_11 T1) as [O1 O2].
      rewrite (trow_nth cf_se_11 _ []) by exact T1. cbn [obind]. rewrite (trow_nth _ _ []) by (rewrite F2; exact T2). cbn [obind].
      rewrite (trow_nth offset_se_11 _ []) by exact T1. cbn [obind]. rewrite tab_nth by (rewrite O2; exact T2). cbn [obind].
      eapply runs_mono.
      * apply (plus_runs _ _ _ (B + 160 * 53)); [|apply nth_all; [exact O1|rewrite O2; exact T2]|lia|lia].
        apply nth_all; [exact F1|rewrite F2; exact T2].
      * intros x X. cbv beta in X. split; [lia|intros; lia].
Qed.

Lemma entry_app1 a b i : 0 <= i < Z.of_nat (length a) -> entry (a ++ b) i = entry a i.
Proof. intros H. unfold entry. apply app_nth1. lia. Qed.

Lemma row_runs t inc start len prev pd B : (inc = 1 \/ inc = 2) -> 0 <= start -> start + len <= 53 -> length prev = 53%nat ->
  0 <= B <= 2 ^ 29 + 2 ^ 20 -> Forall (fun x => Z.abs x <= B) prev -> Z.abs pd <= B ->
  forall fuel cur sfb, inrow t inc start len B prev cur sfb -> len - sfb <= Z.of_nat fuel ->
  (len <= sfb -> Z.of_nat (length cur) = Z.max 0 len) ->
  runs (fun l => Forall (fun x => Z.abs x <= B + 8480) l /\ Z.of_nat (length l) = Z.max 0 len) (row fuel len t inc start prev pd cur sfb).
Proof.
  intros I S0 SL LP BB FP PD. induction fuel as [|fuel IH]; intros cur sfb R F E.
  - cbn [row]. rewrite (proj2 (Z.ltb_ge _ _)) by lia. apply runs_ret. split; [|apply E; lia].
    destruct R as (_ & R & _). eapply Forall_impl; [|exact R]. intros x X. cbv beta in X. lia.
  - cbn [row]. destruct (Z.ltb_spec sfb len) as [L|L].
    + eapply runs_bind with (g := fun x s bs n => if NSFB <? start + sfb + Z.min inc (len - sfb) then Bad
        else row fuel len t inc start prev pd (cur ++ repeat x (Z.to_nat (Z.min inc (len - sfb)))) (sfb + inc) s bs n).
      * eapply level_runs; eassumption.
      * intros x [X1 X2]. rewrite (proj2 (Z.ltb_ge _ _)) by (unfold NSFB; lia).
        destruct R as (R0 & R1 & R2 & R3). destruct (R2 L) as [LC MD].
        apply IH; [|lia|].
        -- split; [lia|]. split; [|split].
           ++ apply Forall_app. split; [eapply Forall_impl; [|exact R1]; intros y Y; cbv beta in Y; lia|].
              apply Forall_forall. intros y Y. apply repeat_spec in Y. subst y. lia.
           ++ intros L2. split; [rewrite app_length, repeat_length; lia|].
              destruct I; subst inc; [apply Z.mod_1_r|]. replace (sfb + 2) with (sfb + 1 * 2) by lia. rewrite Z.mod_add by lia. exact MD.
           ++ intros T L2. replace (sfb + inc - inc) with sfb by lia.
              assert (EX : entry (cur ++ repeat x (Z.to_nat (Z.min inc (len - sfb)))) sfb = x).
              { unfold entry. rewrite app_nth2 by lia. replace (Z.to_nat sfb - length cur)%nat with 0%nat by lia.
                replace (Z.to_nat (Z.min inc (len - sfb))) with (S (Z.to_nat (Z.min inc (len - sfb)) - 1)) by lia. reflexivity. }
              rewrite EX. specialize (X2 T). lia.
        -- intros L2. rewrite app_length, repeat_length. lia.
    + apply runs_ret. split; [|apply E; lia].
      destruct R as (_ & R & _). eapply Forall_impl; [|exact R]. intros x X. cbv beta in X. lia.
Qed.

Lemma scaled_safe factor l B : (factor = 1 \/ factor = 2) -> 0 <= B < 2 ^ 30 -> Forall (fun x => Z.abs x <= B) l ->
  exists r, scaled factor l = Got r /\ length r = length l.
Proof.
  intros F H. induction l as [|x l IH]; intros A; [exists []; auto|]. cbn [scaled]. pose proof (Forall_inv A) as X. cbv beta in X.
  rewrite w32_ok by (destruct F; subst; lia). cbn [obind]. destruct (IH (Forall_inv_tail A)) as (r & E & L). rewrite E. cbn [obind].
  eexists. split; [reflexivity|]. cbn [length]. lia.
Qed.

(** Levels up to B, and t at most M. *)
Definition calm (B M : Z) (v : env) (lev : levs) : Prop :=
  length (v_prev v) = 53%nat /\ Forall (fun x => Z.abs x <= B) (v_prev v) /\ Z.abs (v_ctx v) <= B /\ 0 <= v_t v <= M /\ length lev = 8%nat.

Lemma wins_safe g inc factor emph : (inc = 1 \/ inc = 2) -> (factor = 1 \/ factor = 2) ->
  0 <= g_start g -> g_start g <= g_stop g -> g_stop g <= 53 -> g_start g < 53 ->
  forall k w v lev nz s bs n B M, 0 <= w -> w + Z.of_nat k <= 8 -> 0 <= B -> B + 8480 * Z.of_nat k <= 2 ^ 29 + 2 ^ 20 -> M + Z.of_nat k < 2 ^ 31 ->
  calm B M v lev -> good s ->
  exists v' lev' nz' n', wins k w g inc factor emph v lev nz s bs n = Got (v', lev', nz', n') /\
    calm (B + 8480 * Z.of_nat k) (M + Z.of_nat k) v' lev'.
Proof.
  intros I F S0 SS S1 S2. induction k as [|k IH]; intros w v lev nz s bs n B M W0 W B0 BB MM C G.
  - exists v, lev, nz, n. split; [reflexivity|]. replace (B + 8480 * Z.of_nat 0) with B by lia. replace (M + Z.of_nat 0) with M by lia. exact C.
  - pose proof C as (C1 & C2 & C3 & C4 & C5). cbn [wins]. rewrite (proj2 (Z.leb_gt _ _)) by lia.
    change (2 ^ 29 + 2 ^ 20) with 537919488 in BB.
    destruct (row_runs (v_t v) inc (g_start g) (g_stop g - g_start g) (v_prev v) (v_ctx v) B I S0 ltac:(lia) C1 ltac:(lia) C2 C3
      (Z.to_nat (g_stop g - g_start g)) [] 0) with (s := s) (bs := bs) (n := n) as (cur & s1 & bs1 & n1 & E & [Q1 Q2] & G1).
    { split; [lia|]. split; [constructor|]. split; [intros _; split; [reflexivity|destruct I; subst; reflexivity]|lia]. }
    { lia. } { cbn [length]. lia. } { exact G. }
    rewrite E. cbn [obind]. rewrite tab_ok by lia. cbn [obind].
    destruct (scaled_safe factor cur (B + 8480) F ltac:(lia) Q1) as (sc & ES & LS). rewrite ES. cbn [obind].
    destruct (nth_error lev (Z.to_nat w)) as [r|] eqn:NE; [|apply nth_error_None in NE; lia].
    rewrite w32_ok by lia. cbn [obind].
    destruct (IH (w + 1) (mkEnv (v_t v + 1) (entry (v_prev v) (g_start g)) (over (v_prev v) (Z.to_nat (g_start g)) cur))
      (over lev (Z.to_nat w) [over r (Z.to_nat (g_start g)) (map (fun y => Some (y - emph)) sc)]) (nz || existsb (fun y => negb (y =? 0)) sc) s1 bs1 n1
      (B + 8480) (M + 1)) as (v' & lev' & nz' & n' & E2 & C'); try lia; [|exact G1|].
    + split; [cbn [v_prev]; rewrite over_into, into_len; [exact C1|lia]|]. split; [|split; [|split]].
      * cbn [v_prev]. unfold over. rewrite !Forall_app. split; [|split; [exact Q1|]];
          (apply Forall_forall; intros x X; rewrite Forall_forall in C2).
        -- assert (Y : In x (v_prev v)) by (rewrite <- (firstn_skipn (Z.to_nat (g_start g)) (v_prev v)); apply in_or_app; left; exact X).
           specialize (C2 x Y). cbv beta in C2. lia.
        -- assert (Y : In x (v_prev v)) by (rewrite <- (firstn_skipn (Z.to_nat (g_start g) + length cur) (v_prev v)); apply in_or_app; right; exact X).
           specialize (C2 x Y). cbv beta in C2. lia.
      * cbn [v_ctx]. pose proof (near (v_prev v) (g_start g) B B0 C2). lia.
      * cbn [v_t]. lia.
      * rewrite over_into, into_len; [exact C5|cbn [length]; lia].
    + exists v', lev', nz', n'. split; [exact E2|]. replace (B + 8480 * Z.of_nat (S k)) with (B + 8480 + 8480 * Z.of_nat k) by lia.
      replace (M + Z.of_nat (S k)) with (M + 1 + Z.of_nat k) by lia. exact C'.
Qed.

Lemma calm_mono B M B' M' v lev : B <= B' -> M <= M' -> calm B M v lev -> calm B' M' v lev.
Proof.
  intros HB HM (C1 & C2 & C3 & C4 & C5). split; [exact C1|]. split; [eapply Forall_impl; [|exact C2]; intros x X; cbv beta in X; lia|].
  split; [lia|]. split; [lia|exact C5].
Qed.
Lemma calm_zero B M : 0 <= B -> 0 <= M -> calm B M (mkEnv 0 0 (repeat 0 53)) (repeat (repeat None 53) 8).
Proof.
  intros HB HM. split; [reflexivity|]. cbn [v_prev v_ctx v_t]. split; [apply Forall_forall; intros x X; apply repeat_spec in X; subst; cbn; lia|].
  split; [cbn; lia|]. split; [lia|reflexivity].
Qed.
Lemma skip_out n b : skip_bits n b = Jmp INSUFFICIENT_INPUT_BYTES \/ exists b', skip_bits n b = Done b' /\ r_data b' = r_data b.
Proof.
  unfold skip_bits. destruct (_ || _); [auto|]. destruct (r_pos b - Z.rem n 8 <? 0); destruct (7 <? _); auto; right; eexists; split; reflexivity.
Qed.

Lemma levels_safe wt hires g tbl indep groups i b B M :
  1 <= g_start g -> g_start g < 53 -> g_start g <= g_stop g -> g_stop g <= 53 -> g_start g <= Z.of_nat (length tbl) -> (groups <= 8)%nat ->
  0 <= B -> B + 8480 * Z.of_nat groups <= 2 ^ 29 + 2 ^ 20 -> 0 <= M -> M + Z.of_nat groups < 2 ^ 31 ->
  calm B M (i_env i) (i_lev i) -> wf b ->
  match igf_levels wt hires g tbl indep groups i b with
  | Got (rc, i', b') => (rc = -1 \/ rc = 0 \/ rc = 1) /\ i_win i' = wt /\ r_data b' = r_data b /\
      calm (B + 8480 * Z.of_nat groups) (M + Z.of_nat groups) (i_env i') (i_lev i')
  | Jump => True
  | _ => False
  end.
Proof.
  intros S1 S2 S3 S4 TL GR HB HBB HM HMM C W. unfold igf_levels.
  destruct (rest_bits b) as [|f r] eqn:R.
  { pose proof (rest_len b W) as L. rewrite R in L. cbn [length] in L. rewrite (read_bits_short 1 b) by lia. exact I. }
  destruct (flag_read b f r W R) as (b1 & E1 & W1 & R1 & D1). rewrite E1. cbn [lift obind]. unfold swb_at.
  rewrite tab_ok by lia. cbn [obind]. cbv zeta.
  set (fresh_ := negb ((if f then 1 else 0) =? 0) || indep || negb (wt =? i_win i)).
  assert (CV : calm B M (if fresh_ then mkEnv 0 0 (repeat 0 53) else i_env i) (if fresh_ then repeat (repeat None 53) 8 else i_lev i)).
  { destruct fresh_; [apply calm_zero; assumption|exact C]. }
  destruct f; cbn [negb Z.eqb].
  - split; [auto|]. split; [reflexivity|]. split; [exact D1|]. cbn [i_env i_lev]. eapply calm_mono; [| |exact CV]; lia.
  - destruct (first_good (rest_bits b1)) as [FG _]. destruct (first_symbol (rest_bits b1)) as [s bs]. cbn [fst] in FG.
    set (inc := if (wt =? 0) && negb hires then 2 else 1). set (factor := if hires || (1 <? wt) then 1 else 2).
    assert (HI : inc = 1 \/ inc = 2) by (unfold inc; destruct (_ && _); lia).
    assert (HF : factor = 1 \/ factor = 2) by (unfold factor; destruct (hires || (1 <? wt)); auto).
    match goal with |- context [wins groups 0 g inc factor ?e ?v ?l false s bs 16] =>
      destruct (wins_safe g inc factor e HI HF ltac:(lia) S3 S4 S2 groups 0 v l false s bs 16 B M
        ltac:(lia) ltac:(lia) HB HBB HMM CV FG) as (v' & lev' & nz' & n' & EW & CW) end.
    rewrite EW. cbn [obind]. destruct (skip_out (n' - 14) b1) as [E2|(b2 & E2 & D2)]; rewrite E2; cbn [lift obind]; [exact I|].
    destruct ((g_start g =? g_stop g) || negb nz' || _); cbv beta iota; (split; [auto|]; split; [reflexivity|]; split; [rewrite D2; exact D1|exact CW]).
Qed.

(** ** The reader goes back *)
Definition quiet : ist := mkIst (mkEnv 0 0 (repeat 0 53)) 0 (repeat 3 4) (repeat 0 4) 0 (repeat 3 4) (repeat (repeat None 53) 8) (repeat 0 4) 0.
Definition ends_early : rbuf := mkR [0; 0; 0; 0; 0] 2 1 18.
Lemma goes_back : wf ends_early /\ exists i' b',
  igf_levels 0 true (mkGrid 11 13 1 0) (map Z.of_nat (seq 1 53)) true 1 quiet ends_early = Got (0, i', b') /\
  bitpos ends_early = 22 /\ bitpos b' = 0 /\ r_cnt b' = 32.
Proof.
  split; [repeat split; cbn; try lia; repeat constructor; lia|]. eexists. eexists. split; [vm_compute; reflexivity|]. repeat split.
Qed.

(** ** Levels without limit *)
Lemma byte_back x : length x = 8%nat -> bits_of 8 (val_of x) = x.
Proof. intros H. rewrite <- (bits_of_val x) at 2. rewrite H. reflexivity. Qed.
Lemma padded l : exists d pad, are_bytes d /\ bytes_bits d = l ++ pad /\ (15 <= length pad)%nat.
Proof.
  remember (length l) as k eqn:K. assert (H : (length l <= k)%nat) by lia. clear K. revert l H. induction k as [k IH] using lt_wf_ind. intros l H.
  destruct (Nat.le_gt_cases (length l) 8) as [L|L].
  - exists (val_of (l ++ repeat false (8 - length l)) :: [0; 0]), (repeat false (8 - length l) ++ repeat false 16).
    assert (Q : length (l ++ repeat false (8 - length l)) = 8%nat) by (rewrite app_length, repeat_length; lia).
    split; [|split].
    + constructor; [|repeat constructor; lia]. pose proof (val_of_range (l ++ repeat false (8 - length l))) as R. rewrite Q in R. exact R.
    + change (bytes_bits (val_of (l ++ repeat false (8 - length l)) :: [0; 0])) with (bits_of 8 (val_of (l ++ repeat false (8 - length l))) ++ repeat false 16).
      rewrite (byte_back _ Q), app_assoc. reflexivity.
    + rewrite app_length, !repeat_length. lia.
  - destruct (IH (k - 8)%nat ltac:(lia) (skipn 8 l)) as (d & pad & A & B & P); [rewrite skipn_length; lia|].
    assert (Q : length (firstn 8 l) = 8%nat) by (rewrite firstn_length; lia).
    exists (val_of (firstn 8 l) :: d), pad. split; [|split; [|exact P]].
    + constructor; [|exact A]. pose proof (val_of_range (firstn 8 l)) as R. rewrite Q in R. exact R.
    + change (bytes_bits (val_of (firstn 8 l) :: d)) with (bits_of 8 (val_of (firstn 8 l)) ++ bytes_bits d).
      rewrite B, (byte_back _ Q), app_assoc, firstn_skipn. reflexivity.
Qed.

(** The states a stream of long windows leads to, none of them refused. *)
Inductive after (wt : Z) (hires : bool) (g : grid) (tbl : list Z) (i0 : ist) : nat -> ist -> Prop :=
| after_none : after wt hires g tbl i0 0 i0
| after_one k i b i' b' : after wt hires g tbl i0 k i -> wf b ->
    igf_levels wt hires g tbl false 1 i b = Got (0, i', b') -> after wt hires g tbl i0 (S k) i'.

Lemma climbs start len tiles min tbl off : (1 <= start)%nat -> (1 <= len)%nat -> (start + len <= 53)%nat -> nth_error tbl (start - 1) = Some off -> min < off ->
  forall k, 100 * Z.of_nat k <= 2 ^ 28 -> exists i,
    after 0 true (mkGrid (Z.of_nat start) (Z.of_nat (start + len)) tiles min) tbl quiet k i /\
    fit i /\ i_win i = 0 /\ v_t (i_env i) = Z.of_nat k /\ gather start 1 len (v_prev (i_env i)) = repeat (100 * Z.of_nat k) len /\
    length (nth 0 (i_lev i) []) = 53%nat /\
    ((0 < k)%nat -> nth start (nth 0 (i_lev i) []) None = Some (100 * Z.of_nat k)).
Proof.
  intros S1 L1 SL NT MO. induction k as [|k IH]; intros K.
  - exists quiet. split; [constructor|]. split; [|split; [reflexivity|split; [reflexivity|split; [|split; [reflexivity|lia]]]]].
    + split; [reflexivity|]. cbn [quiet i_env v_prev v_ctx v_t i_lev]. split; [apply Forall_forall; intros x X; apply repeat_spec in X; subst; unfold small; cbn; lia|].
      split; [unfold small; cbn; lia|]. split; [lia|reflexivity].
    + cbn [quiet i_env v_prev]. unfold gather. change (100 * Z.of_nat 0) with 0. rewrite <- (seq_length len 0) at 2. generalize (seq 0 len) as l.
      induction l as [|x l IHl]; [reflexivity|]. cbn [map length repeat]. f_equal; [|exact IHl]. exact (nth_repeat 0 53 _).
  - destruct IH as (i & A & F & W & T & P & LR & _); [lia|].
    set (q := repeat (100 * Z.of_nat (S k)) len). set (g := mkGrid _ _ _ _) in *.
    assert (GI : groups_in 1 len = len) by (unfold groups_in; rewrite Nat.div_1_r; lia).
    assert (GP : gather start 1 (groups_in 1 len) (v_prev (base_env (false || negb (0 =? i_win i)) i)) = repeat (100 * Z.of_nat k) len).
    { rewrite W, GI. exact P. }
    assert (BE : base_env (false || negb (0 =? i_win i)) i = i_env i) by (rewrite W; reflexivity).
    assert (AT : forall n x, (n < len)%nat -> at_ (repeat x len) n = x).
    { intros n x H. unfold at_. rewrite <- (nth_repeat x len n) at 2. apply nth_indep. rewrite repeat_length. exact H. }
    destruct (padded (false :: encode (windows_syms (v_t (i_env i)) (repeat (100 * Z.of_nat k) len) (v_ctx (i_env i)) [q]))) as (d & pad & DB & DP & PL).
    destruct (levels_run 0 true start len tiles min tbl off false [q] i (fresh d) pad ltac:(lia) S1 L1 SL F NT (wf_fresh d DB) PL ltac:(cbn [length]; lia)) as (b' & E & _ & _).
    + change (group_size 0 true) with 1%nat. constructor; [|constructor]. split; [rewrite GI; apply repeat_length|].
      apply Forall_forall. intros x X. apply repeat_spec in X. subst x. unfold small. lia.
    + change (group_size 0 true) with 1%nat. rewrite GP, BE. cbn [windows_ok]. split; [|exact I]. intros n N. unfold q in N. rewrite repeat_length in N.
      rewrite T. apply level_fine; intros H.
      * unfold q. rewrite AT by lia. unfold first_raw in H. apply andb_prop in H. destruct H as [H _]. apply Z.eqb_eq in H. lia.
      * destruct n as [|j]; cbn [choice].
        -- destruct (Z.of_nat k =? 1); cbn [snd]; unfold q; rewrite !AT by lia; lia.
        -- destruct (Z.of_nat k =? 0).
           ++ destruct j; cbn [snd]; unfold q; rewrite !AT by lia; lia.
           ++ cbn [snd]. unfold q. rewrite !AT by lia. lia.
    + change (group_size 0 true) with 1%nat. rewrite GP, BE, rest_fresh. exact DP.
    + change (group_size 0 true) with 1%nat in E. change (1 <? 0) with false in E. cbv iota in E.
      assert (BQ : existsb busy [q] = true).
      { cbn [existsb]. rewrite orb_false_r. apply existsb_exists. exists (100 * Z.of_nat (S k)). split.
        - unfold q. destruct len; [lia|]. left. reflexivity.
        - rewrite (proj2 (Z.eqb_neq _ _)) by lia. reflexivity. }
      rewrite BQ, (proj2 (Z.ltb_lt _ _) MO) in E. cbn [andb] in E. rewrite BE in E.
      assert (SP : spread 1 len q = q).
      { unfold spread, q. clear. generalize (100 * Z.of_nat (S k)). intros x. induction len as [|n IHn]; [reflexivity|]. cbn [repeat flat_map app firstn]. f_equal. exact IHn. }
      eexists. split; [econstructor; [exact A|exact (wf_fresh d DB)|exact E]|].
      cbn [i_env i_win i_lev lev_env v_t v_ctx v_prev length]. destruct F as (F1 & F2 & F3 & F4 & F5).
      unfold prev_after. cbn [last]. rewrite SP.
      assert (SQ : Forall small q) by (apply Forall_forall; intros x X; apply repeat_spec in X; subst x; unfold small; lia).
      assert (LQ : length q = len) by apply repeat_length.
      split; [|split; [reflexivity|split; [lia|split; [|split]]]].
      * split; [cbn [i_env lev_env v_prev]; unfold prev_after; cbn [last]; rewrite SP, into_len; [exact F1|lia]|].
        cbn [i_env lev_env v_prev v_ctx v_t i_lev length]. unfold prev_after. cbn [last]. rewrite SP. split; [apply into_small; assumption|]. split; [|split; [lia|]].
        -- unfold ctx_after. cbn [removelast last]. unfold small, at_, gather. rewrite GI. destruct len as [|len]; [lia|].
           cbn [seq map nth]. replace (start + 0 * 1)%nat with start by lia. rewrite Forall_forall in F2. apply F2, nth_In. lia.
        -- unfold levels_after. rewrite app_length, map_length, combine_length, skipn_length. rewrite W. cbn [length base_lev Z.eqb negb orb]. lia.
      * pose proof (gather_into start 1 len q (v_prev (i_env i)) ltac:(lia) ltac:(lia) ltac:(lia) ltac:(lia)) as GG. rewrite SP, LQ in GG. exact GG.
      * unfold levels_after. rewrite W. cbn [base_lev Z.eqb negb orb]. destruct (i_lev i) as [|r rs]; [discriminate|].
        cbn [combine map app nth fst snd] in *. rewrite into_len; [exact LR|]. rewrite map_length, SP. lia.
      * intros _. unfold levels_after. rewrite W. cbn [base_lev Z.eqb negb orb]. destruct (i_lev i) as [|r rs]; [discriminate|].
        cbn [combine map app nth fst snd] in *. rewrite SP. change (step_size 0 true) with 1. change (base_of 0) with 0.
        unfold into. rewrite app_nth2 by (rewrite firstn_length; lia). rewrite firstn_length, Nat.min_l by lia. rewrite Nat.sub_diag.
        unfold q. destruct len; [lia|]. cbn [repeat map app nth]. f_equal. lia.
Qed.

(** ** A stream of any frames *)
Definition in_range (g : grid) (tbl : list Z) : Prop :=
  1 <= g_start g /\ g_start g < 53 /\ g_start g <= g_stop g /\ g_stop g <= 53 /\ g_start g <= Z.of_nat (length tbl).
(** The data after n frames of any kind, refused or not. *)
Inductive heard : nat -> ist -> Prop :=
| heard_none : heard 0 quiet
| heard_one n i wt hires g tbl indep groups b rc i' b' : heard n i -> in_range g tbl -> (groups <= 8)%nat -> wf b ->
    igf_levels wt hires g tbl indep groups i b = Got (rc, i', b') -> heard (S n) i'.

Lemma heard_calm n i : heard n i -> Z.of_nat n <= 7921 -> calm (67840 * Z.of_nat n) (8 * Z.of_nat n) (i_env i) (i_lev i).
Proof.
  induction 1 as [|n i wt hires g tbl indep groups b rc i' b' H IH (G1 & G2 & G3 & G4 & G5) GR W E]; intros N; [apply calm_zero; lia|].
  specialize (IH ltac:(lia)).
  pose proof (levels_safe wt hires g tbl indep groups i b (67840 * Z.of_nat n) (8 * Z.of_nat n) G1 G2 G3 G4 G5 GR
    ltac:(lia) ltac:(lia) ltac:(lia) ltac:(lia) IH W) as Q. rewrite E in Q. destruct Q as (_ & _ & _ & Q).
  eapply calm_mono; [| |exact Q]; lia.
Qed.
Lemma heard_safe n i wt hires g tbl indep groups b : heard n i -> Z.of_nat n <= 7920 -> in_range g tbl -> (groups <= 8)%nat -> wf b ->
  match igf_levels wt hires g tbl indep groups i b with
  | Got (rc, i', b') => (rc = -1 \/ rc = 0 \/ rc = 1) /\ i_win i' = wt /\ r_data b' = r_data b /\
      Forall (fun x => Z.abs x <= 67840 * Z.of_nat (S n)) (v_prev (i_env i'))
  | Jump => True
  | _ => False
  end.
Proof.
  intros H N (G1 & G2 & G3 & G4 & G5) GR W. pose proof (heard_calm n i H ltac:(lia)) as C.
  pose proof (levels_safe wt hires g tbl indep groups i b (67840 * Z.of_nat n) (8 * Z.of_nat n) G1 G2 G3 G4 G5 GR
    ltac:(lia) ltac:(lia) ltac:(lia) ltac:(lia) C W) as Q.
  destruct (igf_levels wt hires g tbl indep groups i b) as [[[rc i'] b']| | | | | |]; try exact Q.
  destruct Q as (Q1 & Q2 & Q3 & (_ & Q4 & _)). split; [exact Q1|]. split; [exact Q2|]. split; [exact Q3|].
  eapply Forall_impl; [|exact Q4]. intros x X. cbv beta in X. lia.
Qed.
