(** * Lem_CoreChan: the header of a channel is read as sent *)

From Coq Require Import ZArith List Lia Bool.
From Verif Require Import Bits BitBuf BitWrite Prog Wp Loops Config CoreIcs CoreSte CorePair CoreScf CoreChan Lem_Asi Spec_Asi Lem_AsiRT Lem_MhasProps Lem_MctBand
  Spec_CoreScf Lem_CoreScf Lem_CoreScfRun Lem_CoreScfSafe Spec_CoreIcs Lem_CoreIcs Lem_CoreTns Spec_CoreSte Lem_CoreSte Spec_CorePair Lem_CorePair Lem_CoreSafe Lem_CoreProps Spec_CoreChan.
Import ListNotations.
Open Scope list_scope.
Open Scope Z_scope.
Local Notation len := List.length.

Definition has {A} (x : option A) : bool := match x with Some _ => true | None => false end.
Definition tns_code (x : ctns) : Z := match x with NoFilters => 0 | OwnFilters _ => 1 | SharedFilters => 2 end.

(** The window in force. *)
Definition in_force (offs : list Z) (prev : Z) (v : winfo) (w : wst) (si : sinfo) : Prop :=
  holds_win prev v w /\ (v_code v = 2 -> holds_groups offs (groups v) si).

Definition noise_val (x : option noise) (f : noise -> noise) : Z := match x with None => 0 | Some n => 32 * n_level (f n) + n_offset (f n) end.

Lemma noise_bits n : 0 <= n_level n < 8 -> 0 <= n_offset n < 32 -> bits_of 3 (n_level n) ++ bits_of 5 (n_offset n) = bits_of 8 (32 * n_level n + n_offset n).
Proof.
  intros A B. set (v := 32 * n_level n + n_offset n). change 8%nat with (3 + 5)%nat. rewrite bits_of_split. f_equal.
  - apply f_equal. unfold v. rewrite ?Z.shiftr_div_pow2 by lia. change (2 ^ Z.of_nat 5) with 32. rewrite Z.mul_comm, Z.div_add_l, Z.div_small by lia. lia.
  - rewrite <- (bits_of_mod 5 v). f_equal. unfold v. change (2 ^ Z.of_nat 5) with 32. rewrite Z.add_comm, Z.mul_comm, Z.mod_add, Z.mod_small by lia. reflexivity.
Qed.

Lemma noise_shift n : 0 <= n_level n < 8 -> 0 <= n_offset n < 32 ->
  ((0 <? 32 * n_level n + n_offset n) && (32 * n_level n + n_offset n <? 32)) = special n /\
  (special n = true -> Z.shiftl (32 * n_level n + n_offset n) 3 = 32 * (n_offset n / 4) + 8 * (n_offset n mod 4)).
Proof.
  intros A B. unfold special. split.
  - destruct (Z.eqb_spec (n_level n) 0), (Z.ltb_spec 0 (n_offset n)), (Z.ltb_spec 0 (32 * n_level n + n_offset n)), (Z.ltb_spec (32 * n_level n + n_offset n) 32); cbn; lia.
  - intros E. apply andb_prop in E. destruct E as [E1 E2]. apply Z.eqb_eq in E1. rewrite E1, Z.shiftl_mul_pow2 by lia.
    assert (D := Z.div_mod (n_offset n) 4 ltac:(lia)). change (2 ^ 3) with 8. lia.
Qed.

Lemma front_run nl offs indep prev v h second w si rest : bands_ok offs nl -> valid_chan nl (Z.of_nat (len offs)) indep v h ->
  len (w_gd w) = 8%nat -> si_dim si -> (x_win h = None -> in_force offs prev v w si) ->
  exists w' si', runA (chan_window nl (widths 0 offs) (b2z (has (x_noise h))) (b2z (negb (has (x_win h)))) second prev w si) (enc_front h ++ rest) =
      Done ((0, (x_gain h, noise_val (x_noise h) (noise_meant (negb (has (x_win h))) second (meant prev (v_code v))),
        b2z (match x_noise h with Some n => stereo_fill (negb (has (x_win h))) second n | None => false end), w', si')), rest) /\
    in_force offs prev v w' si' /\ len (w_gd w') = 8%nat /\ si_dim si'.
Proof.
  intros (B1 & B2 & B3) (V1 & V2 & V3 & _ & _ & (V6 & _) & _) G D SH. unfold chan_window, enc_front. rewrite <- !app_assoc.
  rewrite (runA_rdb 8 8) by (try reflexivity; change (2 ^ 8) with 256; lia).
  set (val := match x_noise h with None => 0 | Some n => 32 * n_level n + n_offset n end).
  assert (RN : forall A (k : Z -> prog A) r, runA (bind (if b2z (has (x_noise h)) =? 0 then Ret 0 else rd 8) k)
     (match x_noise h with None => [] | Some n => bits_of 3 (n_level n) ++ bits_of 5 (n_offset n) end ++ r) = runA (k val) r).
  { intros A k r. unfold val. destruct (x_noise h) as [n|]; cbn [has b2z]; [|reflexivity]. change (1 =? 0) with false. cbv iota.
    rewrite noise_bits by tauto. rewrite (runA_rdb 8 8) by (try reflexivity; change (2 ^ 8) with 256; lia). reflexivity. }
  rewrite RN. clear RN. cbv zeta.
  set (low := (0 <? val) && (val <? 32)).
  assert (LOW : low = match x_noise h with Some n => special n | None => false end).
  { unfold low, val. destruct (x_noise h) as [n|]; [|reflexivity]. apply noise_shift; tauto. }
  assert (SHI : low = true -> forall seq shared, (shared && second || ((seq =? 1) || (seq =? 4))) = true ->
     Z.shiftl val 3 = noise_val (x_noise h) (noise_meant shared second seq)).
  { intros L seq shared X. rewrite L in LOW. unfold val, noise_val, noise_meant. destruct (x_noise h) as [n|]; [|discriminate]. rewrite <- LOW, X. cbn [andb n_level n_offset].
    apply noise_shift; try tauto. symmetry; auto. }
  assert (KEEP : forall seq shared, low = false \/ (shared && second || ((seq =? 1) || (seq =? 4))) = false -> val = noise_val (x_noise h) (noise_meant shared second seq)).
  { intros seq shared X. unfold val, noise_val, noise_meant. destruct (x_noise h) as [n|]; [|reflexivity]. rewrite <- LOW. destruct X as [-> | ->]; [|rewrite andb_false_r]; reflexivity. }
  assert (FIN : forall seq shared, (shared && second) = false -> (if low && ((seq =? 4) || (seq =? 1)) then Z.shiftl val 3 else val) = noise_val (x_noise h) (noise_meant shared second seq)).
  { intros seq shared E. destruct low eqn:EL; cbn [andb]; [|apply KEEP; auto]. destruct ((seq =? 4) || (seq =? 1)) eqn:ES.
    - apply SHI; auto. rewrite E. cbn. rewrite orb_comm. auto.
    - apply KEEP. right. rewrite E. cbn. rewrite orb_comm. auto. }
  destruct (x_win h) as [v'|] eqn:EW; cbn [has negb b2z].
  - subst v'. change (0 =? 0) with true. cbn [negb]. rewrite runA_bind.
    destruct (ics_run nl offs prev v w si rest V1 G D ltac:(lia) ltac:(lia) B3) as (w' & si' & X & H1 & H2 & H3). rewrite X. cbv beta iota. change (0 =? 0) with true. cbn [negb].
    exists w', si'. assert (SQ : w_seq w' = meant prev (v_code v)) by apply H1. rewrite SQ. rewrite (FIN _ false) by reflexivity. split.
    + destruct (x_noise h); [|reflexivity]. unfold stereo_fill. cbn. reflexivity.
    + split; [|split; [apply H1|exact H2]]. split; [exact H1|]. intros E. rewrite E in H3. cbn in H3. rewrite E in *. exact H3.
  - change (1 =? 0) with false. cbn [negb app]. destruct (SH eq_refl) as [H1 H2]. assert (SQ : w_seq w = meant prev (v_code v)) by apply H1.
    exists w, si. destruct second.
    + assert (A1 : (if low then Z.shiftl val 3 else val) = noise_val (x_noise h) (noise_meant true true (meant prev (v_code v)))).
      { destruct low eqn:EL; [apply SHI; auto|apply KEEP; auto]. }
      assert (A2 : (if low then 1 else 0) = b2z (match x_noise h with Some n => stereo_fill true true n | None => false end)).
      { rewrite LOW. unfold stereo_fill. destruct (x_noise h) as [n|]; [|reflexivity]. cbn. destruct (special n); reflexivity. }
      rewrite A1, A2. split; [reflexivity|]. split; [exact (conj H1 H2)|]. split; [apply H1|exact D].
    + split; [|split; [exact (conj H1 H2)|split; [apply H1|exact D]]]. rewrite SQ, (FIN _ true) by reflexivity. destruct (x_noise h); reflexivity.
Qed.

Lemma spec_run offs nl ltbl prev v w si bits : bands_ok offs nl -> valid_win nl (Z.of_nat (len offs)) v -> (Z.to_nat nl <= len ltbl)%nat ->
  si_dim si -> in_force offs prev v w si ->
  runA (chan_spec ltbl w si) bits = Done (if 0 <? v_max v then nth (Z.to_nat (v_max v - 1)) (if long_win v then ltbl else offs) 0 else 0, bits).
Proof.
  intros (B1 & B2 & B3) (V1 & V2 & V3 & V4) LT D [(H1 & H2 & H3 & H4 & H5) HG]. unfold chan_spec. rewrite H3.
  destruct (Z.ltb_spec 0 (v_max v)) as [P|]; [|reflexivity].
  assert (GET : forall (l : list Z) i, 0 <= i < Z.of_nat (len l) -> forall A (k : Z -> prog A), runA (bind (aget l i) k) bits = runA (k (nth (Z.to_nat i) l 0)) bits).
  { intros l i I A k. apply runA_aget; [lia|]. apply nth_error_nth'. lia. }
  assert (RB : forall A (p : prog A), runA p bits = runA (bind p Ret) bits). { intros A p. rewrite runA_bind. destruct (runA p bits) as [[? ?]| |]; reflexivity. }
  unfold islong, long_win in *. rewrite H1, meant_two by lia. destruct (Z.eqb_spec (v_code v) 2) as [E|E]; cbn [negb].
  - destruct V4 as [V4 V5]. assert (G := HG E). destruct G as (G1 & G2 & G3).
    destruct (runs_facts (v_same v) V5) as (F1 & F2 & F3). assert (EG : groups v = runs 1 (v_same v)) by (unfold groups; rewrite E; reflexivity). rewrite EG in *.
    destruct (runs 1 (v_same v)) as [|g0 gs] eqn:ER; [cbn in F3; lia|].
    assert (B0 : (Z.to_nat (v_max v - 1) < len offs)%nat) by lia.
    assert (T := G3 0%nat (Z.to_nat (v_max v - 1)) ltac:(cbn; lia) B0). cbn [Nat.mul Nat.add] in T. unfold band_end in T. cbn [firstn nth zsum fold_right] in T.
    destruct D as [D1 D2]. rewrite GET by lia. rewrite GET by lia. rewrite (nth_error_nth _ _ 0 T).
    assert (N0 : nth (Z.to_nat 0) (g_len si) 0 = g0). { destruct (g_len si) as [|y l]; [cbn in D1; lia|]. cbn in G2 |- *. congruence. }
    rewrite N0. assert (P0 : 1 <= g0) by (inversion F2; auto). replace (g0 =? 0) with false by (symmetry; apply Z.eqb_neq; lia).
    cbn [runA]. f_equal. f_equal. rewrite Z.mul_0_l, Z.add_0_l, Z.mul_comm, Z.quot_mul by lia. reflexivity.
  - rewrite RB, GET by lia. reflexivity.
Qed.

Definition lt_ok (x : option (option (Z * Z))) (lt lt' : ltpf) : Prop :=
  match x with
  | None => lt' = lt
  | Some None => lt_on lt' = 0
  | Some (Some (lag, gain)) => lt' = mkLt 1 lag gain
  end.
Definition enc_tools (indep long : bool) (h : chan) : list bool :=
  match x_ltpf h with
  | None => []
  | Some None => [false]
  | Some (Some (lag, gain)) => [true] ++ bits_of 9 lag ++ bits_of 2 gain
  end ++
  (if long && negb indep then match x_fdp h with None => [false] | Some v => [true] ++ bits_of 8 v end else []) ++
  (if indep then [x_left h] else []) ++ [x_right h].

(** The profile level without postfilter and prediction has neither. *)
Definition plain (h : chan) : Prop := match x_ltpf h with Some (Some _) => False | _ => x_fdp h = None end.

Lemma tools_run nl ns (indep : bool) base3b v h lt ca rest : valid_chan nl ns indep v h -> (base3b = 1 -> plain h) ->
  exists lt', runA (chan_tools (b2z indep) base3b (b2z (negb (has (x_ltpf h)))) (long_win v) lt ca) (enc_tools indep (long_win v) h ++ rest) =
     Done ((0, (lt', match x_fdp h with Some f => f | None => -1 end, if indep then b2z (x_left h) else ca, b2z (x_right h))), rest) /\ lt_ok (x_ltpf h) lt lt'.
Proof.
  intros (_ & _ & _ & V4 & V5 & _) PL. unfold chan_tools, enc_tools, plain in *. rewrite <- !app_assoc.
  assert (X : exists lt', lt_ok (x_ltpf h) lt lt' /\ forall A (k : Z * ltpf -> prog A) r, runA (bind (if negb (b2z (negb (has (x_ltpf h))) =? 0) then Ret (0, lt)
      else bind (rd 1) (fun on => if on =? 0 then Ret (0, mkLt on (lt_lag lt) (lt_gain lt))
      else if base3b =? 1 then Ret (E_PROFILE, mkLt on (lt_lag lt) (lt_gain lt))
      else bind (rd 9) (fun lag => bind (rd 2) (fun gain => Ret (0, mkLt on lag gain))))) k)
      (match x_ltpf h with None => [] | Some None => [false] | Some (Some (lag, gain)) => [true] ++ bits_of 9 lag ++ bits_of 2 gain end ++ r) = runA (k (0, lt')) r).
  { destruct (x_ltpf h) as [[[lag gain]|]|]; cbn [has negb b2z lt_ok].
    - exists (mkLt 1 lag gain). split; [reflexivity|]. intros A k r. change (0 =? 0) with true. cbn [negb]. rewrite bind_assoc. rewrite <- !app_assoc. cbn [app]. rewrite run1. cbn [b2z].
      change (1 =? 0) with false. cbv iota. replace (base3b =? 1) with false by (symmetry; apply Z.eqb_neq; intros E; exact (PL E)).
      rewrite bind_assoc, (runA_rdb 9 9) by (try reflexivity; change (2 ^ 9) with 512; lia). rewrite bind_assoc, (runA_rdb 2 2) by (try reflexivity; change (2 ^ 2) with 4; lia). reflexivity.
    - exists (mkLt 0 (lt_lag lt) (lt_gain lt)). split; [reflexivity|]. intros A k r. change (0 =? 0) with true. cbn [negb app]. rewrite bind_assoc, run1. reflexivity.
    - exists lt. split; [reflexivity|]. intros. reflexivity. }
  destruct X as (lt' & OK & X). exists lt'. split; [|exact OK]. rewrite X. clear X. cbv beta iota. change (0 =? 0) with true. cbn [negb].
  assert (X : forall A (k : Z * Z -> prog A) r, runA (bind (if long_win v && (b2z indep =? 0) then
       bind (rd 1) (fun on => if on =? 0 then Ret (0, -1) else if base3b =? 1 then Ret (E_PROFILE, -1) else bind (rd 8) (fun v => Ret (0, v))) else Ret (0, -1)) k)
     ((if long_win v && negb indep then match x_fdp h with None => [false] | Some v => [true] ++ bits_of 8 v end else []) ++ r) =
     runA (k (0, match x_fdp h with Some f => f | None => -1 end)) r).
  { intros A k r. destruct (x_fdp h) as [f|].
    - destruct V5 as (V5 & -> & ->). cbn [andb negb b2z]. change (0 =? 0) with true. cbv iota. rewrite bind_assoc, <- app_assoc. cbn [app]. rewrite run1. cbn [b2z]. change (1 =? 0) with false. cbv iota.
      replace (base3b =? 1) with false by (symmetry; apply Z.eqb_neq; intros E; specialize (PL E); destruct (x_ltpf h) as [[?|]|]; [exact PL|discriminate|discriminate]).
      rewrite bind_assoc, (runA_rdb 8 8) by (try reflexivity; change (2 ^ 8) with 256; lia). reflexivity.
    - destruct (long_win v); [|reflexivity]. destruct indep; [reflexivity|]. cbn [andb negb b2z app]. change (0 =? 0) with true. cbv iota. rewrite bind_assoc, run1. reflexivity. }
  rewrite X. clear X. cbv beta iota. change (0 =? 0) with true. cbn [negb].
  destruct indep; cbn [b2z].
  - change (1 =? 0) with false. cbv iota. cbn [app]. rewrite run1, run1. reflexivity.
  - change (0 =? 0) with true. cbv iota. cbn [bind app]. rewrite run1. reflexivity.
Qed.

(** ** TNS and the end *)
Definition silent (w : twin) : twin := mkTw 0 (t_res w) (t_filt w).
Lemma none_loop n : forall done l bs, (n <= len l)%nat ->
  runA (forP n (len done) (fun i l => bind (aget l (Z.of_nat i)) (fun w => aset l (Z.of_nat i) (mkTw 0 (t_res w) (t_filt w)))) (done ++ l)) bs =
  Done (done ++ map silent (firstn n l) ++ skipn n l, bs).
Proof.
  induction n as [|n IH]; intros done l bs L; [reflexivity|]. destruct l as [|w l]; [cbn in L; lia|].
  cbn [forP]. rewrite bind_assoc. rewrite (runA_aget _ _ w) by (rewrite ?Nat2Z.id; try lia; rewrite nth_error_app2, Nat.sub_diag by lia; reflexivity).
  rewrite aset_run by (rewrite app_length; cbn [List.length]; lia). rewrite upd1_app.
  replace (done ++ mkTw 0 (t_res w) (t_filt w) :: l) with ((done ++ [silent w]) ++ l) by (rewrite <- app_assoc; reflexivity).
  replace (S (len done)) with (len (done ++ [silent w])) by (rewrite app_length; cbn; lia). rewrite IH by (cbn in L; lia). rewrite <- app_assoc. reflexivity.
Qed.

(** What the decoder then holds. *)
Definition holds_ctns (bands nw : Z) (x : ctns) (t t' : tns) : Prop :=
  match x with
  | NoFilters => n_sub t' = nw /\ Forall (fun w => n_filt w = 0) (firstn (Z.to_nat nw) (t_win t'))
  | OwnFilters l => holds_tns bands l t'
  | SharedFilters => t' = t
  end.

Lemma tail_run nl ns (indep : bool) v h t rest : valid_chan nl ns indep v h -> 0 < nl -> 0 < ns -> dim_tns t ->
  exists t', runA (chan_tail (b2z indep) nl ns (tns_code (x_tns h)) (long_win v) t)
      ((match x_tns h with OwnFilters l => enc_tns (long_win v) l | _ => [] end ++ if indep then [] else [x_fresh h]) ++ rest) =
    Done ((0, (t', b2z (x_fresh h))), rest) /\
    holds_ctns (if long_win v then nl else ns) (if long_win v then 1 else 8) (x_tns h) t t' /\ dim_tns t'.
Proof.
  intros (_ & _ & _ & _ & _ & _ & _ & V8 & V9) N1 N2 D. unfold chan_tail. rewrite <- app_assoc.
  set (r := (if indep then [] else [x_fresh h]) ++ rest).
  assert (X : exists t', (forall A (k : Z * tns -> prog A), runA (bind (if tns_code (x_tns h) =? 0 then bind (tns_none (if long_win v then 1%nat else 8%nat) t) (fun t => Ret (0, t))
              else if tns_code (x_tns h) =? 1 then read_tns nl ns (Some (long_win v)) t else Ret (0, t)) k) (match x_tns h with OwnFilters l => enc_tns (long_win v) l | _ => [] end ++ r) = runA (k (0, t')) r) /\
    holds_ctns (if long_win v then nl else ns) (if long_win v then 1 else 8) (x_tns h) t t' /\ dim_tns t').
  { destruct (x_tns h) as [|l|]; cbn [tns_code holds_ctns].
    - set (n := if long_win v then 1%nat else 8%nat). assert (NN : (n <= 8)%nat) by (unfold n; destruct (long_win v); lia). destruct D as [D1 D2].
      exists (mkTns (Z.of_nat n) (map silent (firstn n (t_win t)) ++ skipn n (t_win t))). split; [|split].
      + intros A k. change (0 =? 0) with true. cbv iota. rewrite bind_assoc. unfold tns_none. rewrite bind_assoc, runA_bind.
        pose proof (none_loop n [] (t_win t) r ltac:(lia)) as Y. cbn [app List.length] in Y. cbn [app]. rewrite Y. reflexivity.
      + cbn [n_sub t_win]. split; [unfold n; destruct (long_win v); reflexivity|]. replace (Z.to_nat (if long_win v then 1 else 8)) with n by (unfold n; destruct (long_win v); reflexivity).
        rewrite firstn_app, map_length, firstn_length. replace (n - Nat.min n (len (t_win t)))%nat with 0%nat by lia. cbn [firstn]. rewrite app_nil_r, firstn_all2 by (rewrite map_length, firstn_length; lia).
        apply Forall_forall. intros x I. apply in_map_iff in I. destruct I as (y & <- & _). reflexivity.
      + split; cbn [t_win]; [rewrite app_length, map_length, firstn_length, skipn_length; lia|].
        apply Forall_app. rewrite <- (firstn_skipn n (t_win t)) in D2. apply Forall_app in D2. destruct D2 as [D2 D3]. split; [|exact D3].
        apply Forall_forall. intros x I. apply in_map_iff in I. destruct I as (y & <- & I). rewrite Forall_forall in D2. exact (D2 y I).
    - destruct V8 as [V8 V8'].
      destruct (tns_run nl ns (long_win v) l t r V8 V8' N1 N2 D) as (t' & X & H1 & H2).
      exists t'. split; [|auto]. intros A k. change (1 =? 0) with false. change (1 =? 1) with true. cbv iota. rewrite runA_bind, X. reflexivity.
    - exists t. split; [|auto]. intros. reflexivity. }
  destruct X as (t' & X & H1 & H2). exists t'. split; [|auto]. rewrite X. unfold r. cbv beta iota. change (0 =? 0) with true. cbn [negb].
  destruct indep; cbn [b2z app].
  - change (1 =? 0) with false. cbv iota. rewrite (V9 eq_refl). reflexivity.
  - change (0 =? 0) with true. cbv iota. rewrite run1. reflexivity.
Qed.
