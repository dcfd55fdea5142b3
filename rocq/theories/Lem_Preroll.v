(** * Pre-roll: parsing, selection of the units, output *)
From Coq Require Import ZArith List Lia Bool.
From Verif Require Import Bits BitBuf BitWrite Prog Wp Escape Spec_Mhas Lem_Scan Preroll Spec_Preroll.
Import ListNotations.
Open Scope Z_scope.

(** ** Safety *)
Lemma wp_rd_clen (Q : Z -> Prop) : (forall v, 0 <= v <= 285 -> Q v) -> wp rd_clen Q.
Proof.
  intros H. unfold rd_clen. apply wp_bindi, wp_rd; [lia|]. intros v Hv. cbn in Hv. destruct (Z.eqb_spec v 15).
  - apply wp_bindi, wp_rd; [lia|]. intros v' Hv'. cbn in Hv'. destruct (Z.eqb_spec v' 15).
    + apply wp_bindi, wp_rd; [lia|]. intros w Hw. cbn in Hw. apply wp_ret, H. lia.
    + apply wp_ret, H. lia.
  - apply wp_ret, H. lia.
Qed.

Lemma aset_len {A} (l : list A) i v : (i < length l)%nat -> length (firstn i l ++ v :: skipn (S i) l) = length l.
Proof.
  intros H. rewrite app_length, firstn_length_le by lia. change (length (v :: skipn (S i) l)) with (S (length (skipn (S i) l))).
  rewrite skipn_length. lia.
Qed.

Lemma wp_preroll ext : wp (parse_preroll ext) (fun r => match r with
  | Ok p => -1 <= p_units p <= 1 /\ length (p_conf p) = CONFIG_SIZE /\ Z.of_nat (length (p_left p)) = Z.max 0 (p_units p) /\ 0 <= p_clen p <= 285
  | Er _ => True end).
Proof.
  unfold parse_preroll. destruct ext; cbn [negb].
  2:{ apply wp_ret. cbn [p_units p_conf p_left p_clen length]. unfold no_config. rewrite repeat_length. repeat split; lia. }
  apply wp_bindi. split; [lia|]. intros w Hw. cbn [wp].
  destruct (negb ((w / 2) mod 2 =? 1)).
  { apply wp_ret. cbn [p_units p_conf p_left p_clen length]. unfold no_config. rewrite repeat_length. repeat split; lia. }
  destruct (negb (w mod 2 =? 0)).
  { apply wp_ret. cbn [p_units p_conf p_left p_clen length]. unfold no_config. rewrite repeat_length. repeat split; lia. }
  apply wp_bindi, wp_skip; [lia|]. apply wp_bindi, wp_rd; [lia|]. intros l Hl.
  apply wp_bindi. assert (K : forall (Q : Z -> Prop), (forall v, Q v) -> wp (if l =? 255 then rd 16 else Ret 0) Q).
  { intros Q HQ. destruct (l =? 255); [apply wp_rd; [lia|auto]|apply wp_ret, HQ]. }
  apply K. intros _. clear K. apply wp_bindi, wp_rd_clen. intros clen HC.
  apply wp_bindi. apply (wp_for (fun _ c => length c = CONFIG_SIZE)).
  - unfold no_config. apply repeat_length.
  - intros j t Hj Ht. unfold conf_byte. apply wp_bindi, wp_rd; [lia|]. intros b _. unfold CONFIG_SIZE in *.
    apply wp_aset; [lia|]. rewrite Nat2Z.id. rewrite aset_len; lia.
  - intros conf Hconf. apply wp_bindi, wp_skip; [lia|]. apply wp_bindi, wp_rd; [lia|]. intros n Hn. cbn in Hn.
    apply wp_bindi. assert (K : forall (Q : Z -> Prop), (forall v, 0 <= v -> Q v) -> wp (if n =? 3 then m <- rd 4 ;; Ret (m + 3) else Ret n) Q).
    { intros Q HQ. destruct (n =? 3); [apply wp_bindi, wp_rd; [lia|]; intros m Hm; apply wp_ret, HQ; lia|apply wp_ret, HQ; lia]. }
    apply K. intros n' Hn'. clear K. unfold MAX_PREROLLS. destruct (Z.ltb_spec 1 n'); [apply wp_ret; exact I|].
    apply wp_bindi. apply (wp_forR (fun j l => length l = j) (fun _ => True)).
    + reflexivity.
    + intros j t Hj Ht. unfold one_unit. apply wp_bindi, wp_rd; [lia|]. intros k Hk.
      apply wp_bindi. assert (K : forall (Q : Z -> Prop), (forall v, 0 <= v -> Q v) -> wp (if k =? 65535 then m <- rd 16 ;; Ret (m + 65535) else Ret k) Q).
      { intros Q HQ. destruct (k =? 65535); [apply wp_bindi, wp_rd; [lia|]; intros m Hm; apply wp_ret, HQ; lia|apply wp_ret, HQ; lia]. }
      apply K. intros k' Hk'. apply wp_bindi, wp_avail. intros c Hc. destruct (c <? 8 * k'); [apply wp_ret; exact I|].
      apply wp_bindi, wp_skip; [lia|]. apply wp_ret. rewrite app_length. cbn. lia.
    + intros t Ht. apply wp_ret. cbn [p_units p_conf p_left p_clen]. repeat split; solve [lia | exact Hconf].
    + intros c _. apply wp_ret. exact I.
Qed.

(** ** Round trip *)
Lemma runA_peek {A} (n : nat) v (k : Z -> prog A) rest : (n <= 24)%nat -> 0 <= v < 2 ^ Z.of_nat n ->
  runA (Peek (Z.of_nat n) k) (bits_of n v ++ rest) = runA (k v) (bits_of n v ++ rest).
Proof.
  intros Hn Hv. cbn [runA]. destruct (Z.ltb_spec (Z.of_nat n) 0); [lia|]. destruct (Z.ltb_spec 24 (Z.of_nat n)); [lia|]. cbn [orb].
  destruct (Z.ltb_spec (Z.of_nat (length (bits_of n v ++ rest))) (Z.of_nat n)) as [H1|H1].
  { rewrite app_length, bits_of_length in H1. lia. }
  rewrite Nat2Z.id, firstn_app, bits_of_length, Nat.sub_diag, firstn_O, app_nil_r.
  rewrite firstn_all2 by (rewrite bits_of_length; lia). rewrite val_bits_of by exact Hv. reflexivity.
Qed.

Lemma runA_clen {A} v (k : Z -> prog A) rest : 0 <= v <= 285 ->
  runA (bind rd_clen k) (esc_enc 4 4 8 v ++ rest) = runA (k v) rest.
Proof.
  intros H. unfold rd_clen, esc_enc. cbn [Z.of_nat Pos.of_succ_nat Pos.succ]. change (2 ^ 4 - 1) with 15. change (15 + 15) with 30.
  destruct (Z.ltb_spec v 15); [|destruct (Z.ltb_spec v 30)]; rewrite <- ?app_assoc; cbn [bind rd].
  - rewrite (runA_rd 4 v) by (cbn; lia). destruct (Z.eqb_spec v 15); [lia|]. reflexivity.
  - rewrite (runA_rd 4 15) by (cbn; lia). cbn [Z.eqb Pos.eqb bind rd].
    rewrite (runA_rd 4 (v - 15)) by (cbn; lia). destruct (Z.eqb_spec (v - 15) 15); [lia|]. cbn [bind]. f_equal. f_equal. lia.
  - rewrite (runA_rd 4 15) by (cbn; lia). cbn [Z.eqb Pos.eqb bind rd].
    rewrite (runA_rd 4 15) by (cbn; lia). cbn [Z.eqb Pos.eqb bind rd].
    rewrite (runA_rd 8 (v - 15 - 15)) by (cbn; lia). cbn [bind]. f_equal. f_equal. lia.
Qed.

Lemma runA_conf : forall conf i pre0 tail rest, are_bytes conf -> length pre0 = i -> (length conf <= length tail)%nat ->
  runA (forP (length conf) i conf_byte (pre0 ++ tail)) (enc_bytes conf ++ rest) = Done (pre0 ++ conf ++ skipn (length conf) tail, rest).
Proof.
  induction conf as [|x conf IH]; intros i pre0 tail rest A L T; cbn [length forP].
  - reflexivity.
  - pose proof (Forall_inv A) as X. apply Forall_inv_tail in A. unfold is_byte in X. destruct tail as [|y tail]; [cbn in T; lia|]. cbn [length] in T.
    unfold conf_byte at 1. cbn [bind rd]. unfold enc_bytes. cbn [map concat]. rewrite <- app_assoc.
    rewrite (runA_rd 8 x) by (cbn; lia). unfold aset. rewrite app_length. cbn [length].
    destruct (Z.leb_spec 0 (Z.of_nat i)); [|lia]. destruct (Z.ltb_spec (Z.of_nat i) (Z.of_nat (length pre0 + S (length tail)))); [|lia].
    cbn [andb bind]. rewrite Nat2Z.id.
    assert (F : firstn i (pre0 ++ y :: tail) = pre0).
    { rewrite firstn_app, L, Nat.sub_diag, firstn_O, app_nil_r. apply firstn_all2. lia. }
    assert (S1 : skipn (S i) (pre0 ++ y :: tail) = tail).
    { rewrite skipn_app, skipn_all2 by lia. replace (S i - length pre0)%nat with 1%nat by lia. reflexivity. }
    rewrite F, S1. replace (pre0 ++ x :: tail) with ((pre0 ++ [x]) ++ tail) by (rewrite <- app_assoc; reflexivity).
    pose proof (IH (S i) (pre0 ++ [x]) tail rest A ltac:(rewrite app_length; cbn; lia) ltac:(lia)) as Q. unfold enc_bytes in Q.
    rewrite Q. rewrite <- app_assoc. reflexivity.
Qed.

Lemma runA_one i l bs rest : valid_unit bs ->
  runA (one_unit i l) (enc_unit bs ++ rest) = Done (Ok (l ++ [8 * Z.of_nat (length bs) + Z.of_nat (length rest)]), rest).
Proof.
  intros [A L]. unfold one_unit, enc_unit. set (n := Z.of_nat (length bs)) in *. assert (0 <= n) by lia.
  assert (K : forall m, m = n -> runA (c <- avail ;; if c <? 8 * m then Ret (Er E_UNEXPECTED) else skip (8 * m) ;;; Ret (Ok (l ++ [c])))
     (enc_bytes bs ++ rest) = Done (Ok (l ++ [8 * n + Z.of_nat (length rest)]), rest)).
  { intros m ->. cbn [avail bind]. change (runA (Avail ?f) ?x) with (runA (f (Z.of_nat (length x))) x).
    rewrite app_length, enc_bytes_len. destruct (Z.ltb_spec (Z.of_nat (8 * length bs + length rest)) (8 * n)); [lia|].
    cbn [skip bind]. replace (8 * n) with (Z.of_nat (length (enc_bytes bs))) at 1 by (rewrite enc_bytes_len; lia).
    rewrite runA_skip. cbn [runA]. do 5 f_equal. lia. }
  cbn [bind rd]. rewrite <- app_assoc. destruct (Z.ltb_spec n 65535); rewrite <- ?app_assoc.
  - rewrite (runA_rd 16 n) by (cbn; lia). destruct (Z.eqb_spec n 65535); [lia|]. cbn [bind]. apply K. reflexivity.
  - rewrite (runA_rd 16 65535) by (cbn; lia). cbn [Z.eqb Pos.eqb bind rd].
    rewrite (runA_rd 16 (n - 65535)) by (cbn; lia). cbn [bind]. apply K. lia.
Qed.

Lemma runA_plen {A} v (k : prog A) rest : 0 <= v < 253 + 65536 ->
  runA (l <- rd 8 ;; _ <- (if l =? 255 then rd 16 else Ret 0) ;; k) (enc_plen v ++ rest) = runA k rest.
Proof.
  intros H. unfold enc_plen. cbn [bind rd]. destruct (Z.ltb_spec v 255); rewrite <- ?app_assoc.
  - rewrite (runA_rd 8 v) by (cbn; lia). destruct (Z.eqb_spec v 255); [lia|]. reflexivity.
  - rewrite (runA_rd 8 255) by (cbn; lia). cbn [Z.eqb Pos.eqb bind rd]. rewrite (runA_rd 16 (v - 253)) by (cbn; lia). reflexivity.
Qed.

Lemma runA_count {A} n (k : Z -> prog A) rest : 0 <= n < 19 ->
  runA (m <- rd 2 ;; m <- (if m =? 3 then m <- rd 4 ;; Ret (m + 3) else Ret m) ;; k m) (enc_count n ++ rest) = runA (k n) rest.
Proof.
  intros H. unfold enc_count. cbn [bind rd]. destruct (Z.ltb_spec n 3); rewrite <- ?app_assoc.
  - rewrite (runA_rd 2 n) by (cbn; lia). destruct (Z.eqb_spec n 3); [lia|]. reflexivity.
  - rewrite (runA_rd 2 3) by (cbn; lia). cbn [Z.eqb Pos.eqb bind rd]. rewrite (runA_rd 4 (n - 3)) by (cbn; lia). cbn [bind]. f_equal. f_equal. lia.
Qed.

Definition conf_array (conf : list Z) : list Z := conf ++ repeat 0 (CONFIG_SIZE - length conf).

Lemma skip_repeat (x : Z) : forall n m, skipn n (repeat x m) = repeat x (m - n).
Proof. induction n; intros [|m]; cbn [skipn repeat Nat.sub]; auto. Qed.

Lemma preroll_run indep plen conf r1 r2 units rest : valid_preroll plen conf -> Forall valid_unit units -> (length units <= 18)%nat ->
  runA (parse_preroll true) (enc_preroll indep plen conf r1 r2 units ++ rest) =
    match units with
    | [] => Done (Ok (mkPre 0 [] (conf_array conf) (Z.of_nat (length conf))), rest)
    | [u] => Done (Ok (mkPre 1 [8 * Z.of_nat (length u) + Z.of_nat (length rest)] (conf_array conf) (Z.of_nat (length conf))), rest)
    | _ => Done (Er E_NUM_PRE_ROLLS, concat (map enc_unit units) ++ rest)
    end.
Proof.
  intros (HP & HA & HL) HU HN. unfold parse_preroll, enc_preroll. cbn [negb]. rewrite <- !app_assoc.
  set (tl := enc_plen plen ++ esc_enc 4 4 8 (Z.of_nat (length conf)) ++ enc_bytes conf ++ [r1; r2] ++ enc_count (Z.of_nat (length units)) ++ concat (map enc_unit units) ++ rest).
  cbn [peek bind].
  replace ([indep; true; false] ++ tl) with (bits_of 3 (if indep then 6 else 2) ++ tl) by (destruct indep; reflexivity).
  change 3 with (Z.of_nat 3) at 1. rewrite (runA_peek 3) by (destruct indep; cbn; lia).
  assert (C1 : negb (((if indep then 6 else 2) / 2) mod 2 =? 1) = false) by (destruct indep; reflexivity).
  assert (C2 : negb ((if indep then 6 else 2) mod 2 =? 0) = false) by (destruct indep; reflexivity).
  rewrite C1, C2. cbn [skip bind].
  replace 3 with (Z.of_nat (length (bits_of 3 (if indep then 6 else 2)))) at 1 by (rewrite bits_of_length; reflexivity).
  rewrite runA_skip. unfold tl. rewrite runA_plen by lia. rewrite runA_clen by lia. rewrite Nat2Z.id.
  rewrite runA_bind. unfold no_config. pose proof (runA_conf conf 0 [] (repeat 0 CONFIG_SIZE)
    ([r1; r2] ++ enc_count (Z.of_nat (length units)) ++ concat (map enc_unit units) ++ rest) HA eq_refl) as Q.
  rewrite repeat_length in Q. specialize (Q ltac:(unfold CONFIG_SIZE; lia)). change ([] ++ ?x) with x in Q. rewrite Q. clear Q.
  change 2 with (Z.of_nat (length [r1; r2])) at 1. rewrite runA_skip.
  rewrite skip_repeat. fold (conf_array conf). rewrite runA_count by lia.
  unfold MAX_PREROLLS. destruct units as [|u [|v us]].
  - cbn [length Z.of_nat Z.ltb Z.compare Z.to_nat forR bind map concat app]. reflexivity.
  - change (Z.of_nat (length [u])) with 1. change (1 <? 1) with false. change (Z.to_nat 1) with 1%nat. cbn [forR map concat].
    rewrite app_nil_r. apply Forall_inv in HU. rewrite !runA_bind. rewrite (runA_one 0 [] u rest HU). reflexivity.
  - destruct (Z.ltb_spec 1 (Z.of_nat (length (u :: v :: us)))) as [H|H]; [reflexivity|cbn [length] in H; lia].
Qed.

Lemma preroll_exec indep plen conf r1 r2 units rest s : wf s -> valid_preroll plen conf -> Forall valid_unit units -> (length units <= 1)%nat ->
  rest_bits s = enc_preroll indep plen conf r1 r2 units ++ rest ->
  exists s', exec (parse_preroll true) s =
    Done (Ok (mkPre (Z.of_nat (length units)) (map (fun u => 8 * Z.of_nat (length u) + Z.of_nat (length rest)) units)
                    (conf_array conf) (Z.of_nat (length conf))), s')
    /\ wf s' /\ rest_bits s' = rest.
Proof.
  intros W V U L R. pose proof (preroll_run indep plen conf r1 r2 units rest V U ltac:(lia)) as H. rewrite <- R in H.
  destruct units as [|u [|v us]]; [| |cbn in L; lia];
  (pose proof (exec_refines (parse_preroll true) s W) as E; rewrite H in E; destruct E as (s' & E & W' & R'); exists s'; rewrite E; split; [reflexivity|split; assumption]).
Qed.

Lemma preroll_many indep plen conf r1 r2 units rest s : wf s -> valid_preroll plen conf -> Forall valid_unit units -> (2 <= length units <= 18)%nat ->
  rest_bits s = enc_preroll indep plen conf r1 r2 units ++ rest ->
  exists s', exec (parse_preroll true) s = Done (Er E_NUM_PRE_ROLLS, s').
Proof.
  intros W V U L R. pose proof (preroll_run indep plen conf r1 r2 units rest V U ltac:(lia)) as H. rewrite <- R in H.
  destruct units as [|u [|v us]]; [cbn in L; lia|cbn in L; lia|].
  pose proof (exec_refines (parse_preroll true) s W) as E. rewrite H in E. destruct E as (s' & E & _). exists s'. exact E.
Qed.

(** ** Units *)
Lemma bytes_eq_iff : forall a b, bytes_eq a b = true <-> a = b.
Proof.
  induction a as [|x a IH]; intros [|y b]; cbn [bytes_eq]; split; intros H; try reflexivity; try discriminate.
  - apply andb_prop in H. destruct H as [H1 H2]. apply Z.eqb_eq in H1. apply IH in H2. congruence.
  - injection H as -> ->. rewrite Z.eqb_refl. cbn. apply IH. reflexivity.
Qed.
Lemma bytes_eq_refl a : bytes_eq a a = true.
Proof. apply bytes_eq_iff. reflexivity. Qed.
Lemma bytes_neq a b : a <> b -> bytes_eq a b = false.
Proof. intros H. destruct (bytes_eq a b) eqn:E; [apply bytes_eq_iff in E; contradiction|reflexivity]. Qed.

Lemma units_first size main units left conf clen q : clen <> 0 -> q_present q = false -> 0 <= units <= 1 ->
  Z.of_nat (length left) = units ->
  units_decoded size main (mkPre units left conf clen) q = Some ([(main, false)], mkPst true conf).
Proof.
  intros C P U L. unfold units_decoded. cbn [p_units p_left p_conf p_clen].
  destruct (Z.eqb_spec units (-1)); [lia|]. assert (K : units = 0 \/ units = 1) by lia.
  destruct left as [|a [|b left]]; cbn [length] in L.
  - destruct K; [subst units|lia]. cbn [map length Nat.sub repeat app Z.to_nat firstn skipn unit_loop]. rewrite P.
    destruct (Z.eqb_spec clen 0); [contradiction|]. reflexivity.
  - destruct K; [lia|subst units]. cbn -[Z.sub]. rewrite P. destruct (Z.eqb_spec clen 0); [contradiction|]. reflexivity.
  - lia.
Qed.

Lemma units_same size main units left conf clen q : clen <> 0 -> q_present q = true -> q_prev q = conf -> 0 <= units <= 1 ->
  Z.of_nat (length left) = units ->
  units_decoded size main (mkPre units left conf clen) q = Some ([(main, false)], q).
Proof.
  intros C P Q U L. unfold units_decoded. cbn [p_units p_left p_conf p_clen].
  destruct (Z.eqb_spec units (-1)); [lia|]. assert (K : units = 0 \/ units = 1) by lia.
  destruct left as [|a [|b left]]; cbn [length] in L.
  - destruct K; [subst units|lia]. cbn [map length Nat.sub repeat app Z.to_nat firstn skipn unit_loop]. rewrite P, Q, bytes_eq_refl.
    destruct (Z.eqb_spec clen 0); [contradiction|]. reflexivity.
  - destruct K; [lia|subst units]. cbn -[Z.sub bytes_eq]. rewrite P, Q, bytes_eq_refl. destruct (Z.eqb_spec clen 0); [contradiction|]. reflexivity.
  - lia.
Qed.

Lemma units_changed size main left conf clen q : clen <> 0 -> q_present q = true -> q_prev q <> conf ->
  units_decoded size main (mkPre 1 [left] conf clen) q = Some ([(size - left, true); (main, false)], mkPst true conf).
Proof.
  intros C P Q. unfold units_decoded. cbn -[Z.sub bytes_eq]. rewrite P, (bytes_neq _ _ Q). destruct (Z.eqb_spec clen 0); [contradiction|].
  cbn -[Z.sub bytes_eq]. rewrite bytes_eq_refl. reflexivity.
Qed.
Lemma units_changed0 size main conf clen q : clen <> 0 -> q_present q = true -> q_prev q <> conf ->
  units_decoded size main (mkPre 0 [] conf clen) q = Some ([(main, true)], mkPst true conf).
Proof.
  intros C P Q. unfold units_decoded. cbn -[Z.sub bytes_eq]. rewrite P, (bytes_neq _ _ Q). destruct (Z.eqb_spec clen 0); [contradiction|].
  reflexivity.
Qed.
Lemma units_plain size main q conf : units_decoded size main (mkPre 0 [] conf 0) q = Some ([(main, false)], q).
Proof. reflexivity. Qed.
Lemma units_noconf size main left q conf : units_decoded size main (mkPre 1 [left] conf 0) q = Some ([(size - left, false); (main, false)], q).
Proof. reflexivity. Qed.

(** Padded configurations are equal iff one is the other followed by zeros. *)
Lemma conf_array_len conf : (length conf <= CONFIG_SIZE)%nat -> length (conf_array conf) = CONFIG_SIZE.
Proof. intros H. unfold conf_array. rewrite app_length, repeat_length. lia. Qed.
Lemma conf_array_inj a b : length a = length b -> conf_array a = conf_array b -> a = b.
Proof.
  unfold conf_array. intros L E. rewrite <- L in E.
  apply (f_equal (firstn (length a))) in E. rewrite !firstn_app, Nat.sub_diag, L, Nat.sub_diag, !firstn_O, !app_nil_r in E.
  rewrite firstn_all in E. rewrite <- L, firstn_all in E. exact E.
Qed.
Lemma conf_array_pad a n : (length a + n <= CONFIG_SIZE)%nat -> conf_array (a ++ repeat 0 n) = conf_array a.
Proof.
  intros H. unfold conf_array. rewrite app_length, repeat_length, <- app_assoc, <- repeat_app. do 2 f_equal. lia.
Qed.

(** ** Output *)
Lemma out_one A rest : A <> [] -> output_of (Z.of_nat (length A)) 0 (A ++ rest) = (Z.of_nat (length A), A).
Proof.
  intros H. assert (L : Z.of_nat (length A) <> 0) by (destruct A; [contradiction|cbn [length]; lia]).
  unfold output_of, units_with_output. destruct (Z.eqb_spec (Z.of_nat (length A)) 0); [contradiction|]. cbn [Z.eqb].
  replace (Z.of_nat (length A) + 0 - Z.of_nat (length A)) with 0 by lia. cbn [Z.to_nat skipn].
  rewrite Nat2Z.id, firstn_app, Nat.sub_diag, firstn_O, app_nil_r, firstn_all. reflexivity.
Qed.

Lemma out_two A B rest : A <> [] -> length A = length B ->
  output_of (Z.of_nat (length A)) (Z.of_nat (length B)) (A ++ B ++ rest) = (Z.of_nat (length B), B).
Proof.
  intros H E. assert (L : Z.of_nat (length A) <> 0) by (destruct A; [contradiction|cbn [length]; lia]).
  unfold output_of, units_with_output. rewrite <- E. destruct (Z.eqb_spec (Z.of_nat (length A)) 0); [contradiction|].
  replace (Z.of_nat (length A) + 0 + Z.of_nat (length A) - Z.of_nat (length A)) with (Z.of_nat (length A)) by lia.
  rewrite Nat2Z.id, skipn_app, skipn_all, Nat.sub_diag. cbn [skipn app]. rewrite E, firstn_app, Nat.sub_diag, firstn_O, app_nil_r, firstn_all. reflexivity.
Qed.

Lemma out_size A B rest : A <> [] -> B <> [] -> length A <> length B ->
  output_of (Z.of_nat (length A)) (Z.of_nat (length B)) (A ++ B ++ rest) <> (Z.of_nat (length B), B).
Proof.
  intros _ _ E. unfold output_of. intros C. apply (f_equal fst) in C. cbn [fst] in C. lia.
Qed.

Lemma preroll_safe ext s : wf s -> match exec (parse_preroll ext) s with
  | Done (Ok p, _) => -1 <= p_units p <= 1 /\ length (p_conf p) = 288%nat /\ Z.of_nat (length (p_left p)) = Z.max 0 (p_units p) /\ 0 <= p_clen p <= 285
  | Done (Er _, _) => True
  | Jmp _ => True
  | UB _ => False
  end.
Proof.
  intros W. pose proof (wp_exec _ _ s (wp_preroll ext) W) as H. destruct (exec (parse_preroll ext) s) as [[[p|c] s']|c|u]; try exact I; intuition.
Qed.

Lemma zeros_same size main conf n left q : (0 < n)%nat -> conf <> [] -> (length conf + n <= 285)%nat ->
  q_present q = true -> q_prev q = conf ++ repeat 0 (288 - length conf) ->
  let longer := conf ++ repeat 0 n in longer <> conf /\
  units_decoded size main (mkPre 1 [left] (longer ++ repeat 0 (288 - length longer)) (Z.of_nat (length longer))) q = Some ([(main, false)], q).
Proof.
  intros N C L P Q. cbv zeta. split.
  - intros E. apply (f_equal (@length Z)) in E. rewrite app_length, repeat_length in E. lia.
  - apply units_same.
    + rewrite app_length. destruct conf; [contradiction|cbn [length Nat.add]; lia].
    + exact P.
    + rewrite Q. symmetry. apply (conf_array_pad conf n). unfold CONFIG_SIZE. lia.
    + lia.
    + reflexivity.
Qed.

Lemma case_parses : exists s, rest_bits s = (enc_preroll true 9 [1; 2; 3] false false [[7; 8]] ++ bits_of 8 0x55) ++ repeat false 5 /\ wf s /\
  match exec (parse_preroll true) s with
  | Done (Ok p, s') => p_units p = 1 /\ p_left p = [29] /\ firstn 4 (p_conf p) = [1; 2; 3; 0] /\ p_clen p = 3 /\ rest_bits s' = bits_of 8 0x55 ++ repeat false 5
  | _ => False end.
Proof.
  exists (fresh [0xC1; 0x26; 0x02; 0x04; 0x06; 0x20; 0x00; 0x40; 0xE1; 0x0A; 0xA0]).
  split; [vm_compute; reflexivity|]. split; [apply wf_fresh; unfold are_bytes; repeat constructor; unfold is_byte; lia|]. vm_compute. repeat split; reflexivity.
Qed.

Lemma out_swallowed (B rest : list Z) : B <> [] ->
  output_of 0 (Z.of_nat (length B)) (B ++ rest) = (0, []) /\ (0, []) <> (Z.of_nat (length B), B).
Proof. intros H. split; [reflexivity|]. intros C. apply (f_equal snd) in C. cbn [snd] in C. congruence. Qed.
