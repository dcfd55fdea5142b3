(** * Lem_Igf: the decoder of the gap filling levels inverts Spec_Igf *)

From Coq Require Import ZArith List Lia Bool.
From Verif Require Import Bits BitBuf Arith IgfRom Igf Spec_Arith Spec_Igf Lem_Arith Lem_Level2 Lem_ArithRT.
Import ListNotations.
Open Scope Z_scope.

(** ** Reading the symbols of a list *)
Definition reads {X} (w : list bool) (l : list (list Z * Z))
    (f : ast -> list bool -> Z -> out (X * ast * list bool * Z)) (x : X) : Prop :=
  Forall coded l /\ forall e s bs n, ready e -> sync w e s bs n -> inside w (enc_all l e) ->
    (16 + e_cnt (enc_all l e) < length w)%nat ->
    exists s' bs' n', f s bs n = Got (x, s', bs', n') /\ sync w (enc_all l e) s' bs' n'.

Lemma all_nil e : enc_all [] e = e.
Proof. reflexivity. Qed.
Lemma enc_all_app l1 l2 e : enc_all (l1 ++ l2) e = enc_all l2 (enc_all l1 e).
Proof. apply fold_left_app. Qed.

Lemma reads_ret {X} w (x : X) : reads w [] (fun s bs n => Got (x, s, bs, n)) x.
Proof. split; [constructor|]. intros e s bs n R S H L. exists s, bs, n. split; [reflexivity|exact S]. Qed.

Lemma reads_bind {X Y} w l1 l2 f (g : X -> _) x (y : Y) : reads w l1 f x -> reads w l2 (g x) y ->
  reads w (l1 ++ l2) (fun s bs n => olet (x, s, bs, n) := f s bs n in g x s bs n) y.
Proof.
  intros [C1 F] [C2 G]. split; [apply Forall_app; auto|]. intros e s bs n R S H L. rewrite enc_all_app in *.
  pose proof (all_ready l1 e C1 R) as R1. pose proof (all_inside w l2 _ C2 R1 H) as H1.
  pose proof (all_cnt l2 (enc_all l1 e)).
  destruct (F e s bs n R S H1 ltac:(lia)) as (s1 & bs1 & n1 & E1 & S1).
  destruct (G _ s1 bs1 n1 R1 S1 H L) as (s2 & bs2 & n2 & E2 & S2).
  exists s2, bs2, n2. rewrite E1. split; [exact E2|exact S2].
Qed.
Lemma reads_ext {X} w l f g (x : X) : (forall s bs n, f s bs n = g s bs n) -> reads w l g x -> reads w l f x.
Proof. intros E [C F]. split; [exact C|]. intros e s bs n R S H L. rewrite E. apply F; assumption. Qed.
Lemma reads_map {X Y} w l f (h : X -> Y) (x : X) : reads w l f x ->
  reads w l (fun s bs n => olet (x, s, bs, n) := f s bs n in Got (h x, s, bs, n)) (h x).
Proof. intros F. rewrite <- (app_nil_r l). apply (reads_bind w l [] f (fun x s bs n => Got (h x, s, bs, n)) x); [exact F|apply reads_ret]. Qed.

Lemma reads_one w cf y m0 cfl : coded (cf, y) -> cfl = Z.of_nat (length cf) ->
  reads w [(cf, y)] (fun s bs n => get1 m0 s bs n cf cfl) y.
Proof.
  intros C ->. split; [constructor; [exact C|constructor]|]. intros e s bs n R S H L.
  destruct C as [T Y]. cbn [fst snd] in T, Y. rewrite all_eq, all_nil in *.
  pose proof (step_cnt e (cf, y)).
  destruct (step_sync w e cf y s bs n R T Y S H (sync_more w e s bs n S ltac:(lia))) as (s1 & bs1 & n1 & D & S1 & _).
  exists s1, bs1, n1. unfold get1. rewrite D. split; [reflexivity|exact S1].
Qed.

(** ** Tables *)
Definition ftab (cf : list Z) : Prop := freq_table cf /\ length cf = 27%nat.
Definition ftabb (cf : list Z) : bool := tableb cf && Nat.eqb (length cf) 27.
Lemma ftabb_ok cf : ftabb cf = true -> ftab cf.
Proof. unfold ftabb. intros H. apply andb_true_iff in H. destruct H as [A B]. split; [apply tableb_ok, A|apply Nat.eqb_eq, B]. Qed.
Lemma bit_tab : freq_table cf_for_bit.
Proof. apply tableb_ok. vm_compute. reflexivity. Qed.
Lemma tab_01 : ftab cf_se_01. Proof. apply ftabb_ok. vm_compute. reflexivity. Qed.
Lemma tab_10 : ftab cf_se_10. Proof. apply ftabb_ok. vm_compute. reflexivity. Qed.
Lemma all_ftab l : forallb ftabb l = true -> Forall ftab l.
Proof. intros H. rewrite forallb_forall in H. apply Forall_forall. intros x X. apply ftabb_ok, H, X. Qed.
Lemma tab_02 : Forall ftab cf_se_02. Proof. apply all_ftab. vm_compute. reflexivity. Qed.
Lemma tab_20 : Forall ftab cf_se_20. Proof. apply all_ftab. vm_compute. reflexivity. Qed.
Lemma tab_11 : Forall (fun l => Forall ftab l /\ length l = 7%nat) cf_se_11.
Proof.
  assert (H : forallb (fun l => forallb ftabb l && Nat.eqb (length l) 7) cf_se_11 = true) by (vm_compute; reflexivity).
  rewrite forallb_forall in H. apply Forall_forall. intros x X. specialize (H x X). apply andb_true_iff in H.
  destruct H as [A B]. split; [apply all_ftab, A|apply Nat.eqb_eq, B].
Qed.
Definition soff (o : Z) : Prop := -5 <= o <= 4.
Definition soffb (o : Z) : bool := (-5 <=? o) && (o <=? 4).
Lemma soffb_all l : forallb soffb l = true -> Forall soff l.
Proof. intros H. rewrite forallb_forall in H. apply Forall_forall. intros x X. specialize (H x X). unfold soffb, soff in *. lia. Qed.
Lemma off_02 : Forall soff offset_se_02. Proof. apply soffb_all. reflexivity. Qed.
Lemma off_20 : Forall soff offset_se_20. Proof. apply soffb_all. reflexivity. Qed.
Lemma off_11 : Forall (fun l => Forall soff l /\ length l = 7%nat) offset_se_11.
Proof.
  assert (H : forallb (fun l => forallb soffb l && Nat.eqb (length l) 7) offset_se_11 = true) by reflexivity.
  rewrite forallb_forall in H. apply Forall_forall. intros x X. specialize (H x X). apply andb_true_iff in H.
  destruct H as [A B]. split; [apply soffb_all, A|apply Nat.eqb_eq, B].
Qed.

Lemma trend_lt d : (trend d < 7)%nat. Proof. unfold trend. lia. Qed.
Lemma ctx_trend d : 3 + quant_ctx d = Z.of_nat (trend d).
Proof. unfold quant_ctx, trend. destruct (Z.ltb_spec 3 d); [lia|]. destruct (Z.ltb_spec d (-3)); lia. Qed.
Lemma trow_nth {A} (l : list A) (k : nat) dflt : (k < length l)%nat -> trow l (Z.of_nat k) = Got (nth k l dflt).
Proof.
  intros H. unfold trow. rewrite (proj2 (Z.ltb_ge _ _)) by lia. rewrite Nat2Z.id, (nth_error_nth' l dflt H). reflexivity.
Qed.
Lemma tab_nth (l : list Z) (k : nat) : (k < length l)%nat -> tab l (Z.of_nat k) = Got (nth k l 0).
Proof. exact (trow_nth l k 0). Qed.
Lemma nth_all {A} (P : A -> Prop) l k d : Forall P l -> (k < length l)%nat -> P (nth k l d).
Proof. intros F H. rewrite Forall_forall in F. apply F, nth_In, H. Qed.

(** ** Bits and differences *)
Lemma bits_reads w : forall (B : list bool) bit acc,
  reads w (map (fun b : bool => (cf_for_bit, if b then 1 else 0)) B) (bits_loop (length B) bit acc) (acc + val_of B).
Proof.
  induction B as [|b B IH]; intros bit acc.
  - cbn [map length bits_loop val_of]. rewrite Z.add_0_r. apply reads_ret.
  - change (reads w ([(cf_for_bit, if b then 1 else 0)] ++ map (fun b : bool => (cf_for_bit, if b then 1 else 0)) B)
      (fun s bs n => olet (bit, s, bs, n) := get1 bit s bs n cf_for_bit 2 in
        bits_loop (length B) bit (acc + bit * 2 ^ Z.of_nat (length B)) s bs n) (acc + val_of (b :: B))).
    eapply reads_bind with (g := fun bit s bs n => bits_loop (length B) bit (acc + bit * 2 ^ Z.of_nat (length B)) s bs n).
    + apply reads_one; [|reflexivity]. split; [exact bit_tab|]. unfold is_symbol. cbn. destruct b; lia.
    + replace (acc + val_of (b :: B)) with (acc + (if b then 1 else 0) * 2 ^ Z.of_nat (length B) + val_of B).
      * apply IH.
      * cbn [val_of]. destruct b; cbn [Z.b2z]; lia.
Qed.
Lemma raw_reads w k v : 0 <= v < 2 ^ Z.of_nat k -> reads w (raw k v) (decode_bits k) v.
Proof.
  intros V. unfold raw, decode_bits. pose proof (bits_reads w (bits_of k v) 0 0) as H.
  rewrite bits_of_length, val_bits_of in H by exact V. exact H.
Qed.

Lemma diff_reads w cf o d : ftab cf -> codable o d -> reads w (diff cf o d) (residual cf o) d.
Proof.
  intros [T L] C. unfold codable in C. unfold diff, residual.
  assert (NL : 27 = Z.of_nat (length cf)) by (rewrite L; reflexivity).
  destruct (Z.leb_spec (Z.abs (d + o)) 12) as [A|A].
  - change [(cf, d + o + 13)] with ([(cf, d + o + 13)] ++ []).
    eapply reads_bind with (x := d + o + 13)
      (g := fun v s bs n => if negb (v =? 26) && negb (v =? 0) then Got (v - 1 + -12 - o, s, bs, n) else _).
    + apply reads_one; [|exact NL]. split; [exact T|]. unfold is_symbol. cbn [fst snd]. rewrite L. lia.
    + rewrite (proj2 (Z.eqb_neq _ _)) by lia. rewrite (proj2 (Z.eqb_neq (d + o + 13) 0)) by lia. cbn [negb andb].
      replace (d + o + 13 - 1 + -12 - o) with d by lia. apply reads_ret.
  - set (v := if d + o <? 0 then 0 else 26). set (e := Z.abs (d + o) - 13).
    change (reads w ([(cf, v)] ++ (if e <? 15 then raw 4 e else raw 4 15 ++ raw 7 (e - 15)))
      (fun s bs n => olet (v, s, bs, n) := get1 0 s bs n cf 27 in
        if negb (v =? 26) && negb (v =? 0) then Got ((v - 1) + -12 - o, s, bs, n)
        else
          olet (e, s, bs, n) := decode_bits 4 s bs n in
          olet (e, s, bs, n) :=
            (if e =? 15 then olet (e, s, bs, n) := decode_bits 7 s bs n in Got (15 + e, s, bs, n)
             else Got (e, s, bs, n)) in
          Got ((if v =? 0 then (-12 - 1) - e else (12 + 1) + e) - o, s, bs, n)) d).
    eapply reads_bind with (x := v)
      (g := fun v s bs n => if negb (v =? 26) && negb (v =? 0) then Got ((v - 1) + -12 - o, s, bs, n)
        else
          olet (e, s, bs, n) := decode_bits 4 s bs n in
          olet (e, s, bs, n) :=
            (if e =? 15 then olet (e, s, bs, n) := decode_bits 7 s bs n in Got (15 + e, s, bs, n)
             else Got (e, s, bs, n)) in
          Got ((if v =? 0 then (-12 - 1) - e else (12 + 1) + e) - o, s, bs, n)).
    + apply reads_one; [|exact NL]. split; [exact T|]. unfold is_symbol. cbn [fst snd]. rewrite L. unfold v. destruct (_ <? _); lia.
    + assert (V : negb (v =? 26) && negb (v =? 0) = false) by (unfold v; destruct (_ <? _); reflexivity). rewrite V.
      assert (E : e = Z.abs (d + o) - 13) by reflexivity. clearbody e.
      replace (reads w (if e <? 15 then raw 4 e else raw 4 15 ++ raw 7 (e - 15))) with
        (reads (X := Z) w ((if e <? 15 then raw 4 e else raw 4 15 ++ raw 7 (e - 15)) ++ [])) by (rewrite app_nil_r; reflexivity).
      eapply reads_ext with (g := fun s bs n =>
        olet (e, s, bs, n) := (olet (e, s, bs, n) := decode_bits 4 s bs n in
          if e =? 15 then olet (e, s, bs, n) := decode_bits 7 s bs n in Got (15 + e, s, bs, n)
             else Got (e, s, bs, n)) in
        Got ((if v =? 0 then (-12 - 1) - e else (12 + 1) + e) - o, s, bs, n)).
      { intros s bs n. destruct (decode_bits 4 s bs n) as [[[[a b] c] m]| | | | | |]; reflexivity. }
      eapply reads_bind with (x := e) (g := fun e s bs n => Got ((if v =? 0 then (-12 - 1) - e else (12 + 1) + e) - o, s, bs, n)).
      * destruct (Z.ltb_spec e 15) as [B|B].
        -- rewrite <- (app_nil_r (raw 4 e)).
           eapply reads_bind with (x := e) (g := fun e s bs n => if e =? 15 then olet (e, s, bs, n) := decode_bits 7 s bs n in Got (15 + e, s, bs, n) else Got (e, s, bs, n)).
           ++ apply raw_reads. cbn. lia.
           ++ rewrite (proj2 (Z.eqb_neq e 15)) by lia. apply reads_ret.
        -- eapply reads_bind with (x := 15) (g := fun e s bs n => if e =? 15 then olet (e, s, bs, n) := decode_bits 7 s bs n in Got (15 + e, s, bs, n) else Got (e, s, bs, n)).
           ++ apply raw_reads. cbn. lia.
           ++ change (15 =? 15) with true. cbv iota. replace e with (15 + (e - 15)) at 2 by lia.
              apply (reads_map w _ _ (fun x => 15 + x)). apply raw_reads. cbn. lia.
      * replace ((if v =? 0 then -12 - 1 - e else 12 + 1 + e) - o) with d; [apply reads_ret|].
        unfold v. destruct (Z.ltb_spec (d + o) 0); [change (0 =? 0) with true|change (26 =? 0) with false]; cbv iota; lia.
Qed.

Definition small (x : Z) : Prop := Z.abs x <= 2 ^ 28.

Lemma plus_reads w pred cf o d : ftab cf -> codable o d -> - 2 ^ 31 <= pred + d < 2 ^ 31 ->
  reads w (diff cf o d) (plus_res pred cf o) (pred + d).
Proof.
  intros T C B. unfold plus_res. rewrite <- (app_nil_r (diff cf o d)).
  eapply reads_bind with (x := d) (g := fun r s bs n => olet x := w32 (pred + r) in Got (x, s, bs, n)).
  - apply diff_reads; assumption.
  - rewrite w32_ok by exact B. cbn [obind]. apply reads_ret.
Qed.

(** ** One level *)
Lemma get_prev prev start inc (k n : nat) : (start + k * inc < length prev)%nat -> (k < n)%nat ->
  tab prev (Z.of_nat start + Z.of_nat (k * inc)) = Got (at_ (gather start inc n prev) k).
Proof.
  intros H K. rewrite <- Nat2Z.inj_add, tab_nth by lia. unfold at_, gather. f_equal.
  symmetry. transitivity (nth k (map (fun k => nth (start + k * inc) prev 0) (seq 0 n)) (nth (start + 0 * inc) prev 0)).
  - apply nth_indep. rewrite map_length, seq_length. exact K.
  - rewrite (map_nth (fun k => nth (start + k * inc) prev 0)), seq_nth by exact K. reflexivity.
Qed.

Lemma flat_len inc (q : list Z) : length (flat_map (fun x => repeat x inc) q) = (inc * length q)%nat.
Proof. induction q as [|x q IH]; [cbn; lia|]. cbn [flat_map length]. rewrite app_length, repeat_length, IH. lia. Qed.
Lemma flat_nth inc : forall (q : list Z) k, (0 < inc)%nat -> (k < length q)%nat ->
  nth (k * inc) (flat_map (fun x => repeat x inc) q) 0 = nth k q 0.
Proof.
  induction q as [|x q IH]; intros k I K; [cbn in K; lia|]. cbn [flat_map]. destruct k as [|k].
  - cbn [Nat.mul nth]. rewrite app_nth1 by (rewrite repeat_length; lia). destruct inc; [lia|reflexivity].
  - rewrite app_nth2 by (rewrite repeat_length; lia). rewrite repeat_length.
    replace (S k * inc - inc)%nat with (k * inc)%nat by lia. cbn [nth]. apply IH; cbn [length] in K; lia.
Qed.
Lemma firstn_nth {A} : forall n (l : list A) k d, (k < n)%nat -> nth k (firstn n l) d = nth k l d.
Proof. induction n; intros l k d H; [lia|]. destruct l; [reflexivity|]. destruct k; [reflexivity|]. cbn. apply IHn. lia. Qed.
Lemma get_cur inc len q (k n : nat) : (0 < inc)%nat -> (k < n)%nat -> (n <= length q)%nat -> (k * inc < len)%nat ->
  tab (spread inc len (firstn n q)) (Z.of_nat (k * inc)) = Got (at_ q k).
Proof.
  intros I K N L.
  assert (LF : (k * inc < inc * length (firstn n q))%nat) by (rewrite firstn_length, Nat.min_l by lia; nia).
  rewrite tab_nth by (unfold spread; rewrite firstn_length, flat_len; lia).
  unfold spread, at_. rewrite firstn_nth by exact L. rewrite flat_nth by (try exact I; rewrite firstn_length; lia).
  rewrite firstn_nth by exact K. reflexivity.
Qed.

Lemma small_at l i : Forall small l -> small (at_ l i).
Proof.
  intros F. unfold at_. destruct (Nat.lt_ge_cases i (length l)) as [H|H]; [apply nth_all; assumption|].
  rewrite nth_overflow by exact H. unfold small. cbn. lia.
Qed.

Lemma level_reads w t inc start len n prev pd q i :
  (0 < inc)%nat -> (i < length q)%nat -> (length q <= n)%nat -> (i * inc < len)%nat -> (start + i * inc < length prev)%nat ->
  Forall small q -> Forall small prev -> small pd ->
  level_ok t (gather start inc n prev) pd q i ->
  reads w (level_syms t (gather start inc n prev) pd q i)
    (level1 t (Z.of_nat inc) (Z.of_nat start) prev pd (spread inc len (firstn i q)) (Z.of_nat (i * inc))) (at_ q i).
Proof.
  intros I Q N L P SQ SP SD OK. set (p := gather start inc n prev) in *.
  assert (GP : Forall small p).
  { unfold p, gather. apply Forall_forall. intros x X. apply in_map_iff in X. destruct X as (k & <- & _).
    apply (small_at prev). exact SP. }
  pose proof (small_at q) as AQ. pose proof (small_at p) as AP. unfold small in *. change (2 ^ 28) with 268435456 in *.
  unfold level1, level_syms, level_ok, first_raw in *. destruct (Z.eqb_spec t 0) as [T|T].
  - destruct i as [|j].
    + cbn [Nat.mul andb Nat.eqb] in *. change (Z.of_nat 0) with 0. rewrite (proj2 (Z.eqb_neq 0 (Z.of_nat inc))) by lia.
      change (0 =? 0) with true. cbv iota. apply raw_reads. cbn. lia.
    + cbn [andb Nat.eqb] in *. cbv iota in *. unfold choice in *. rewrite (proj2 (Z.eqb_eq t 0) T) in *.
      destruct j as [|h].
      * rewrite Nat.mul_1_l, Z.eqb_refl. replace (Z.of_nat inc - Z.of_nat inc) with (Z.of_nat (0 * inc)) by lia.
        rewrite get_cur by lia. cbn [obind]. replace (at_ q 1) with (at_ q 0 + (at_ q 1 - at_ q 0)) at 2 by lia.
        apply plus_reads; [exact tab_01|exact OK|]. pose proof (AQ 1%nat SQ). pose proof (AQ 0%nat SQ). lia.
      * rewrite (proj2 (Z.eqb_neq _ (Z.of_nat inc))) by nia. rewrite (proj2 (Z.eqb_neq _ 0)) by nia.
        replace (Z.of_nat (S (S h) * inc) - Z.of_nat inc) with (Z.of_nat (S h * inc)) by lia.
        replace (Z.of_nat (S (S h) * inc) - 2 * Z.of_nat inc) with (Z.of_nat (h * inc)) by lia.
        rewrite !get_cur by lia. cbn [obind].
        pose proof (AQ (S (S h)) SQ) as B1. pose proof (AQ (S h) SQ) as B2. pose proof (AQ h SQ) as B3.
        rewrite w32_ok by lia. cbn [obind]. rewrite ctx_trend.
        pose proof (trend_lt (at_ q (S h) - at_ q h)) as TL.
        rewrite (trow_nth cf_se_02 _ []) by exact TL. cbn [obind]. rewrite tab_nth by exact TL. cbn [obind].
        replace (at_ q (S (S h))) with (at_ q (S h) + (at_ q (S (S h)) - at_ q (S h))) at 2 by lia.
        apply plus_reads; [exact (nth_all ftab cf_se_02 _ [] tab_02 TL)|exact OK|lia].
  - cbn [andb] in *. cbv iota in *. unfold choice in *. rewrite (proj2 (Z.eqb_neq t 0) T) in *. destruct i as [|j].
    + cbn [Nat.mul] in *. change (Z.of_nat 0) with 0. change (0 =? 0) with true. cbv iota.
      replace (Z.of_nat start + 0) with (Z.of_nat start + Z.of_nat (0 * inc)) by lia.
      rewrite (get_prev prev start inc 0 n) by lia. cbn [obind]. fold p.
      pose proof (AQ 0%nat SQ) as B1. pose proof (AP 0%nat GP) as B2.
      destruct (Z.eqb_spec t 1) as [U|U]; cbn [negb]; cbv iota.
      * replace (at_ q 0) with (at_ p 0 + (at_ q 0 - at_ p 0)) at 2 by lia.
        apply plus_reads; [exact tab_10|exact OK|lia].
      * rewrite w32_ok by lia. cbn [obind]. rewrite ctx_trend. pose proof (trend_lt (at_ p 0 - pd)) as TL.
        rewrite (trow_nth cf_se_20 _ []) by exact TL. cbn [obind]. rewrite tab_nth by exact TL. cbn [obind].
        replace (at_ q 0) with (at_ p 0 + (at_ q 0 - at_ p 0)) at 2 by lia.
        apply plus_reads; [exact (nth_all ftab cf_se_20 _ [] tab_20 TL)|exact OK|lia].
    + rewrite (proj2 (Z.eqb_neq _ 0)) by nia.
      replace (Z.of_nat (S j * inc) - Z.of_nat inc) with (Z.of_nat (j * inc)) by lia.
      rewrite (get_prev prev start inc (S j) n) by lia. rewrite (get_prev prev start inc j n) by lia. rewrite get_cur by lia.
      cbn [obind]. fold p. pose proof (AQ (S j) SQ) as B1. pose proof (AQ j SQ) as B2. pose proof (AP (S j) GP) as B3. pose proof (AP j GP) as B4.
      rewrite (w32_ok (at_ p (S j) + at_ q j)) by lia. cbn [obind]. rewrite (w32_ok (at_ p (S j) + at_ q j - at_ p j)) by lia. cbn [obind].
      rewrite (w32_ok (at_ q j - at_ p j)) by lia. cbn [obind]. rewrite (w32_ok (at_ p (S j) - at_ p j)) by lia. cbn [obind].
      rewrite !ctx_trend. pose proof (trend_lt (at_ q j - at_ p j)) as T1. pose proof (trend_lt (at_ p (S j) - at_ p j)) as T2.
      destruct (nth_all _ cf_se_11 (trend (at_ q j - at_ p j)) [] tab_11 T1) as [F1 F2].
      destruct (nth_all _ offset_se_11 (trend (at_ q j - at_ p j)) [] off_11 T1) as [O1 O2].
      rewrite (trow_nth cf_se_11 _ []) by exact T1. cbn [obind]. rewrite (trow_nth _ _ []) by (rewrite F2; exact T2). cbn [obind].
      rewrite (trow_nth offset_se_11 _ []) by exact T1. cbn [obind]. rewrite tab_nth by (rewrite O2; exact T2). cbn [obind].
      replace (at_ q (S j)) with (at_ p (S j) + at_ q j - at_ p j + (at_ q (S j) - (at_ p (S j) + at_ q j - at_ p j))) at 2 by lia.
      apply plus_reads; [|exact OK|lia]. apply nth_all; [exact F1|rewrite F2; exact T2].
Qed.

(** ** A window *)
Lemma firstn_repeat {A} (x : A) : forall k n, firstn k (repeat x n) = repeat x (Nat.min k n).
Proof. induction k; intros n; [reflexivity|]. destruct n; [reflexivity|]. cbn. f_equal. apply IHk. Qed.
Lemma spread_step inc len a x : (inc * length a <= len)%nat ->
  spread inc len (a ++ [x]) = spread inc len a ++ repeat x (Nat.min inc (len - inc * length a)).
Proof.
  intros H. unfold spread. rewrite flat_map_app, firstn_app, flat_len. f_equal. cbn [flat_map]. rewrite app_nil_r, firstn_repeat.
  f_equal. lia.
Qed.
Lemma firstn_snoc (q : list Z) i : (i < length q)%nat -> firstn (S i) q = firstn i q ++ [at_ q i].
Proof. intros H. apply (firstn_one 0). lia. Qed.

Lemma row_reads w t inc start len prev pd q : (0 < inc)%nat ->
  (len <= length q * inc)%nat -> (forall i, (i < length q)%nat -> (i * inc < len)%nat) ->
  (start + len <= 53)%nat -> length prev = 53%nat ->
  Forall small q -> Forall small prev -> small pd ->
  window_ok t (gather start inc (length q) prev) pd q ->
  forall k i fuel, (i + k = length q)%nat -> (k <= fuel)%nat ->
  reads w (flat_map (level_syms t (gather start inc (length q) prev) pd q) (seq i k))
    (row fuel (Z.of_nat len) t (Z.of_nat inc) (Z.of_nat start) prev pd (spread inc len (firstn i q)) (Z.of_nat (i * inc)))
    (spread inc len q).
Proof.
  intros I GL GU ST LP SQ SP SD OK. induction k as [|k IH]; intros i fuel E F.
  - rewrite Nat.add_0_r in E. subst i. cbn [seq flat_map].
    assert (X : (Z.of_nat (length q * inc) <? Z.of_nat len) = false) by (apply Z.ltb_ge; lia).
    destruct fuel; cbn [row]; rewrite X, firstn_all; apply reads_ret.
  - destruct fuel as [|fuel]; [lia|]. cbn [row seq flat_map]. pose proof (GU i ltac:(lia)) as L.
    rewrite (proj2 (Z.ltb_lt (Z.of_nat (i * inc)) (Z.of_nat len))) by lia.
    eapply reads_bind with (x := at_ q i)
      (g := fun x s bs n => if NSFB <? Z.of_nat start + Z.of_nat (i * inc) + Z.min (Z.of_nat inc) (Z.of_nat len - Z.of_nat (i * inc))
        then Bad else row fuel (Z.of_nat len) t (Z.of_nat inc) (Z.of_nat start) prev pd
          (spread inc len (firstn i q) ++ repeat x (Z.to_nat (Z.min (Z.of_nat inc) (Z.of_nat len - Z.of_nat (i * inc)))))
          (Z.of_nat (i * inc) + Z.of_nat inc) s bs n).
    + apply level_reads; try assumption; try lia. apply OK. lia.
    + assert (FL : length (firstn i q) = i) by (rewrite firstn_length; lia).
      rewrite (proj2 (Z.ltb_ge _ _)) by (unfold NSFB; lia).
      replace (Z.to_nat (Z.min (Z.of_nat inc) (Z.of_nat len - Z.of_nat (i * inc)))) with (Nat.min inc (len - inc * length (firstn i q)))
        by (rewrite FL; lia).
      rewrite <- spread_step by (rewrite FL; lia).
      rewrite <- firstn_snoc by lia. replace (Z.of_nat (i * inc) + Z.of_nat inc) with (Z.of_nat (S i * inc)) by lia.
      apply IH; lia.
Qed.

Lemma spread_len inc len q : (len <= length q * inc)%nat -> length (spread inc len q) = len.
Proof. intros H. unfold spread. rewrite firstn_length, flat_len. lia. Qed.
Lemma spread_in inc len q x : In x (spread inc len q) -> In x q.
Proof.
  unfold spread. intros H. apply (In_nth _ _ 0) in H. destruct H as (k & K & E). rewrite firstn_length in K. rewrite firstn_nth in E by lia.
  assert (X : In x (flat_map (fun x => repeat x inc) q)) by (rewrite <- E; apply nth_In; lia).
  apply in_flat_map in X. destruct X as (y & Y & R). apply repeat_spec in R. subst. exact Y.
Qed.
Lemma spread_small inc len q : Forall small q -> Forall small (spread inc len q).
Proof. intros F. apply Forall_forall. intros x X. rewrite Forall_forall in F. apply F. exact (spread_in _ _ _ _ X). Qed.
Lemma spread_nth inc len q k : (0 < inc)%nat -> (k < length q)%nat -> (k * inc < len)%nat ->
  nth (k * inc) (spread inc len q) 0 = at_ q k.
Proof. intros I K L. unfold spread. rewrite firstn_nth by exact L. apply flat_nth; assumption. Qed.
Lemma spread_busy inc len q : (0 < inc)%nat -> (len <= length q * inc)%nat -> (forall i, (i < length q)%nat -> (i * inc < len)%nat) ->
  existsb (fun x => negb (x =? 0)) (spread inc len q) = busy q.
Proof.
  intros I GL GU. unfold busy. apply eq_true_iff_eq. split; intros H; apply existsb_exists in H; destruct H as (x & X & Y); apply existsb_exists; exists x; (split; [|exact Y]).
  - exact (spread_in _ _ _ _ X).
  - apply (In_nth _ _ 0) in X. destruct X as (k & K & E). subst x. change (nth k q 0) with (at_ q k).
    rewrite <- (spread_nth inc len q k I K (GU k K)). apply nth_In. rewrite spread_len by exact GL. exact (GU k K).
Qed.

Lemma over_into {A} (l : list A) i x : over l i x = into i x l.
Proof. reflexivity. Qed.
Lemma into_len {A} i (x l : list A) : (i + length x <= length l)%nat -> length (into i x l) = length l.
Proof. intros H. unfold into. rewrite !app_length, firstn_length, skipn_length. lia. Qed.
Lemma into_small i x l : Forall small x -> Forall small l -> Forall small (into i x l).
Proof.
  intros A B. unfold into. apply Forall_app. split; [|apply Forall_app; split; [exact A|]].
  - rewrite Forall_forall in *. intros y Y. apply B. rewrite <- (firstn_skipn i l). apply in_or_app. left. exact Y.
  - rewrite Forall_forall in *. intros y Y. apply B. rewrite <- (firstn_skipn (i + length x) l). apply in_or_app. right. exact Y.
Qed.
Lemma into_nth (x l : list Z) i k : (i + length x <= length l)%nat -> (k < length x)%nat -> nth (i + k) (into i x l) 0 = nth k x 0.
Proof.
  intros H K. unfold into. rewrite app_nth2 by (rewrite firstn_length; lia). rewrite firstn_length, Nat.min_l by lia.
  rewrite app_nth1 by lia. f_equal. lia.
Qed.
Lemma skipn_app2 {A} (a b : list A) n : (length a <= n)%nat -> skipn n (a ++ b) = skipn (n - length a) b.
Proof. intros H. rewrite skipn_app, skipn_all2 by exact H. reflexivity. Qed.
Lemma into_into {A} i (x y l : list A) : length x = length y -> (i <= length l)%nat -> into i x (into i y l) = into i x l.
Proof.
  intros E H. unfold into. f_equal; [|f_equal].
  - rewrite firstn_app, firstn_firstn, firstn_length. replace (i - Nat.min i (length l))%nat with 0%nat by lia.
    rewrite firstn_O, app_nil_r. f_equal. lia.
  - rewrite skipn_app2 by (rewrite firstn_length; lia). rewrite firstn_length.
    rewrite skipn_app2 by lia. replace (i + length x - Nat.min i (length l) - length y)%nat with 0%nat by lia.
    rewrite E. reflexivity.
Qed.
Lemma gather_into start inc len q prev : (0 < inc)%nat -> (len <= length q * inc)%nat ->
  (forall i, (i < length q)%nat -> (i * inc < len)%nat) -> (start + len <= length prev)%nat ->
  gather start inc (length q) (into start (spread inc len q) prev) = q.
Proof.
  intros I GL GU ST. apply (nth_ext _ _ 0 0); [unfold gather; rewrite map_length, seq_length; reflexivity|].
  intros k K. unfold gather in *. rewrite map_length, seq_length in K.
  transitivity (nth k (map (fun k => nth (start + k * inc) (into start (spread inc len q) prev) 0) (seq 0 (length q)))
    (nth (start + 0 * inc) (into start (spread inc len q) prev) 0)).
  { apply nth_indep. rewrite map_length, seq_length. exact K. }
  rewrite (map_nth (fun k => nth (start + k * inc) (into start (spread inc len q) prev) 0)), seq_nth by exact K.
  rewrite Nat.add_0_l. pose proof (GU k K). rewrite into_nth by (rewrite spread_len by exact GL; lia). apply spread_nth; assumption.
Qed.
Lemma scaled_ok factor l : Forall small l -> (factor = 1 \/ factor = 2) -> scaled factor l = Got (map (fun x => x * factor) l).
Proof.
  intros F H. induction l as [|x l IH]; [reflexivity|]. cbn [scaled map]. pose proof (Forall_inv F) as X. unfold small in X.
  change (2 ^ 28) with 268435456 in X. rewrite w32_ok by (destruct H; subst; lia). cbn [obind]. rewrite IH by exact (Forall_inv_tail F). reflexivity.
Qed.
Lemma scaled_busy factor l : (factor = 1 \/ factor = 2) ->
  existsb (fun y => negb (y =? 0)) (map (fun x => x * factor) l) = existsb (fun y => negb (y =? 0)) l.
Proof.
  intros H. induction l as [|x l IH]; [reflexivity|]. cbn [map existsb]. rewrite IH. f_equal. f_equal.
  destruct (Z.eqb_spec x 0), (Z.eqb_spec (x * factor) 0); try reflexivity; lia.
Qed.

(** ** The windows of a frame *)
Lemma wins_run w g inc len start factor emph G : g_start g = Z.of_nat start -> g_stop g = Z.of_nat (start + len) ->
  (0 < inc)%nat -> (0 < len)%nat -> (len <= G * inc)%nat -> (forall i, (i < G)%nat -> (i * inc < len)%nat) -> (start + len <= 53)%nat ->
  factor = 1 \/ factor = 2 ->
  forall ws v dn lv nz e s bs n,
  Forall (fun q => length q = G /\ Forall small q) ws ->
  length (v_prev v) = 53%nat -> Forall small (v_prev v) -> small (v_ctx v) -> 0 <= v_t v -> v_t v + Z.of_nat (length ws) < 2 ^ 31 ->
  (length dn + length ws <= 8)%nat -> (length dn + length lv = 8)%nat ->
  windows_ok (v_t v) (gather start inc G (v_prev v)) (v_ctx v) ws ->
  ready e -> sync w e s bs n ->
  Forall coded (windows_syms (v_t v) (gather start inc G (v_prev v)) (v_ctx v) ws) /\
  (inside w (enc_all (windows_syms (v_t v) (gather start inc G (v_prev v)) (v_ctx v) ws) e) ->
  (16 + e_cnt (enc_all (windows_syms (v_t v) (gather start inc G (v_prev v)) (v_ctx v) ws) e) < length w)%nat ->
  exists s' bs' n',
    wins (length ws) (Z.of_nat (length dn)) g (Z.of_nat inc) factor emph v (dn ++ lv) nz s bs n =
      Got (mkEnv (v_t v + Z.of_nat (length ws)) (ctx_after (gather start inc G (v_prev v)) (v_ctx v) ws)
             (prev_after start inc len ws (v_prev v)),
           dn ++ levels_after start inc len factor emph ws lv, nz || existsb busy ws, n') /\
    sync w (enc_all (windows_syms (v_t v) (gather start inc G (v_prev v)) (v_ctx v) ws) e) s' bs' n').
Proof.
  intros GS GE I LN GL GU ST FA. induction ws as [|q ws IH]; intros v dn lv nz e s bs n FW LP SP SC T0 T1 D1 D2 OK R SY.
  - cbn [windows_syms]. split; [constructor|]. intros H L. exists s, bs, n. cbn [length wins existsb ctx_after prev_after].
    change (Z.of_nat 0) with 0. rewrite Z.add_0_r, orb_false_r. unfold levels_after. cbn [combine map app length skipn].
    split; [|exact SY]. destruct v; reflexivity.
  - destruct (Forall_inv FW) as [LQ SQ]. pose proof (Forall_inv_tail FW) as FW'. cbn [length] in *.
    destruct OK as [OK1 OK2]. subst G.
    set (p := gather start inc (length q) (v_prev v)) in *.
    pose proof (row_reads w (v_t v) inc start len (v_prev v) (v_ctx v) q I GL GU ST LP SQ SP SC OK1
      (length q) 0 len ltac:(lia)) as RR.
    assert (LL : (length q <= len)%nat).
    { destruct (length q) as [|m]; [lia|]. pose proof (GU m ltac:(lia)). nia. }
    specialize (RR LL). fold p in RR. change (flat_map (level_syms (v_t v) p (v_ctx v) q) (seq 0 (length q))) with (window_syms (v_t v) p (v_ctx v) q) in RR.
    destruct RR as [C1 RR].
    set (v' := mkEnv (v_t v + 1) (at_ p 0) (into start (spread inc len q) (v_prev v))).
    assert (GP : gather start inc (length q) (v_prev v') = q) by (apply gather_into; try assumption; lia).
    assert (P0 : tab (v_prev v) (g_start g) = Got (at_ p 0)).
    { rewrite GS. replace (Z.of_nat start) with (Z.of_nat start + Z.of_nat (0 * inc)) by lia. apply get_prev; [lia|].
      destruct (length q); lia. }
    assert (A0 : small (at_ p 0)).
    { unfold p, gather, at_. destruct (length q); [cbn; unfold small; cbn; lia|]. cbn [seq map nth]. apply (small_at (v_prev v)). exact SP. }
    pose proof (spread_len inc len q GL) as SL.
    destruct lv as [|r lv]; [cbn [length] in D2; lia|]. cbn [length] in D2.
    set (r' := into start (map (fun y => Some (y * factor - emph)) (spread inc len q)) r).
    assert (S1 : sync w (enc_all (window_syms (v_t v) p (v_ctx v) q) e) = sync w (enc_all (window_syms (v_t v) p (v_ctx v) q) e)) by reflexivity.
    assert (CR : forall e s bs n, ready e -> sync w e s bs n ->
       Forall coded (windows_syms (v_t v') q (v_ctx v') ws) /\ _) by
      (intros e0 s0 bs0 n0 R0 SY0; pose proof (IH v' (dn ++ [r']) lv (nz || existsb (fun y => negb (y =? 0)) (map (fun x => x * factor) (spread inc len q))) e0 s0 bs0 n0 FW') as X;
       rewrite GP in X; apply X; try assumption;
       [ cbn [v' v_prev]; rewrite into_len; lia
       | apply into_small; [apply spread_small; exact SQ|exact SP]
       | cbn [v' v_t]; lia | cbn [v' v_t]; lia
       | rewrite app_length; cbn [length]; lia | rewrite app_length; cbn [length]; lia ]).
    clear S1. cbn [windows_syms]. fold p.
    change (windows_syms (v_t v + 1) q (at_ p 0) ws) with (windows_syms (v_t v') q (v_ctx v') ws).
    pose proof (proj1 (CR e s bs n R SY)) as C2.
    split; [apply Forall_app; split; assumption|].
    intros H L. rewrite enc_all_app in *.
    pose proof (all_ready _ e C1 R) as R1. pose proof (all_inside w _ _ C2 R1 H) as H1.
    pose proof (all_cnt (windows_syms (v_t v') q (v_ctx v') ws) (enc_all (window_syms (v_t v) p (v_ctx v) q) e)).
    destruct (RR e s bs n R SY H1 ltac:(lia)) as (s1 & bs1 & n1 & E1 & SY1).
    destruct (CR _ s1 bs1 n1 R1 SY1) as [_ X]. destruct (X H L) as (s2 & bs2 & n2 & E2 & SY2).
    exists s2, bs2, n2. split; [|exact SY2].
    cbn [wins]. rewrite (proj2 (Z.leb_gt _ _)) by lia. rewrite GS, GE.
    replace (Z.of_nat (start + len) - Z.of_nat start) with (Z.of_nat len) by lia. rewrite Nat2Z.id.
    assert (Z0 : spread inc len (firstn 0 q) = []) by (unfold spread; apply firstn_nil). rewrite Z0 in E1.
    replace (row len (Z.of_nat len) (v_t v) (Z.of_nat inc) (Z.of_nat start) (v_prev v) (v_ctx v) [] 0 s bs n) with
      (Got (spread inc len q, s1, bs1, n1)) by (symmetry; exact E1).
    cbn [obind]. rewrite GS in P0. rewrite P0. cbn [obind]. rewrite scaled_ok by (try assumption; apply spread_small; exact SQ). cbn [obind].
    rewrite Nat2Z.id, nth_error_app2, Nat.sub_diag by lia. cbn [nth_error].
    rewrite w32_ok by lia. cbn [obind]. rewrite !over_into, Nat2Z.id.
    replace (into (length dn) [into start (map (fun y => Some (y - emph)) (map (fun x => x * factor) (spread inc len q))) r] (dn ++ r :: lv))
      with ((dn ++ [r']) ++ lv).
    2:{ rewrite map_map. fold r'. unfold into. rewrite firstn_app, Nat.sub_diag, firstn_O, app_nil_r, firstn_all. cbn [length app].
        rewrite skipn_app2 by lia. replace (length dn + 1 - length dn)%nat with 1%nat by lia. cbn [skipn]. rewrite <- app_assoc. reflexivity. }
    replace (Z.of_nat (length dn) + 1) with (Z.of_nat (length (dn ++ [r']))) by (rewrite app_length; cbn; lia).
    fold v'. rewrite E2. f_equal. apply (f_equal2 pair); [|reflexivity]. apply (f_equal2 pair); [apply (f_equal2 pair)|].
    + f_equal; [cbn [v' v_t]; lia| |].
      * unfold ctx_after. destruct ws as [|q2 ws]; [reflexivity|]. reflexivity.
      * unfold prev_after. destruct ws as [|q2 ws]; [reflexivity|]. cbn [v' v_prev].
        change (last (q :: q2 :: ws) []) with (last (q2 :: ws) []). apply into_into; [|lia].
        rewrite SL. apply spread_len. 
        assert (Y : In (last (q2 :: ws) []) (q2 :: ws)).
        { clear. revert q2. induction ws as [|a ws IH]; intros q2; [left; reflexivity|]. right. apply (IH a). }
        rewrite Forall_forall in FW'. destruct (FW' _ Y) as [Y1 _]. rewrite Y1. exact GL.
    + rewrite <- app_assoc. f_equal.
    + rewrite scaled_busy by exact FA. rewrite spread_busy by assumption. cbn [existsb]. rewrite orb_assoc. reflexivity.
Qed.
