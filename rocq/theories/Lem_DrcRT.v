(** * Lem_DrcRT: the DRC configuration parser inverts the standard's bit layout *)

From Coq Require Import ZArith List Lia Bool.
From Verif Require Import Bits BitBuf Prog Asi Wp Wlp Leaf Loud DrcCfg Spec_Asi Spec_Drc Spec_DrcCfg
  Lem_Asi Lem_AsiRT Lem_Loud Lem_DrcCfg Lem_DrcGrp.
Import ListNotations.
Open Scope Z_scope.

Lemma firstn_val n (l : list bool) : 0 <= n -> n <= Z.of_nat (length l) -> 0 <= val_of (firstn (Z.to_nat n) l) < 2 ^ n.
Proof.
  intros H1 H2. pose proof (val_of_range (firstn (Z.to_nat n) l)) as H. rewrite firstn_length_le in H by lia.
  rewrite Z2Nat.id in H by lia. exact H.
Qed.

(** What [leaf] says about runs on bit lists. *)
Lemma runA_leaf {A} (p : prog A) Q : forall l a l', leaf p Q -> runA p l = Done (a, l') -> Q a.
Proof.
  induction p as [a|n k IH|n k IH|n k IH|k IH|c|r]; intros l x l' HL H; cbn [runA leaf] in *.
  - inversion H; subst. exact HL.
  - destruct ((n <? 0) || (24 <? n)); [discriminate|].
    destruct (Z.ltb_spec (Z.of_nat (length l)) n) as [|E2]; [discriminate|].
    eapply IH; [|exact H]. apply HL. intros Hn. apply firstn_val; lia.
  - destruct ((n <? 0) || (24 <? n)); [discriminate|].
    destruct (Z.ltb_spec (Z.of_nat (length l)) n) as [|E2]; [discriminate|].
    eapply IH; [|exact H]. apply HL. intros Hn. apply firstn_val; lia.
  - destruct (n <? 0); [discriminate|]. destruct (_ <? _); [discriminate|]. eapply IH; eauto.
  - eapply IH; [|exact H]. apply HL.
  - discriminate.
  - discriminate.
Qed.

(** ** Gain sets *)
Definition band_body (i : nat) (x : list (Z * Z) * Z) : prog (res (list (Z * Z) * Z)) :=
  let '(bands, seq) := x in
  let seq := seq + 1 in
  if SEQUENCE_MAX <=? seq then Ret (Er E_DRC_UNEXPECTED) else
  chk (Z.of_nat i) BAND_MAX ;;;
  c <- rd 7 ;;
  Ret (Ok (bands ++ [(seq, c)], seq)).

Lemma bands_rt : forall chars i bands k rest, Forall (fits 7) chars ->
  k + Z.of_nat (length chars) < 24 -> (i + length chars <= 4)%nat ->
  runA (forR (length chars) i band_body (bands, k)) (concat (map (bits_of 7) chars) ++ rest)
  = Done (Ok (bands ++ combine (map (fun j => k + 1 + Z.of_nat j) (seq 0 (length chars))) chars,
              k + Z.of_nat (length chars)), rest).
Proof.
  induction chars as [|c chars IH]; intros i bands k rest HF HK HI; cbn [length forR].
  - cbn. rewrite app_nil_r, Z.add_0_r. reflexivity.
  - cbn [map concat]. rewrite runA_bind. unfold band_body at 1.
    destruct (Z.leb_spec SEQUENCE_MAX (k + 1)) as [H|_]; [unfold SEQUENCE_MAX in H; cbn [length] in HK; lia|].
    rewrite runA_chk by (unfold BAND_MAX; cbn [length] in HI; lia).
    pose proof (Forall_inv HF) as Hc. rdf. cbn [runA].
    cbn [length] in *. rewrite IH; [|exact (Forall_inv_tail HF)|lia|lia].
    rewrite <- app_assoc. cbn [app seq map combine]. rewrite <- seq_shift, map_map. 
    replace (k + Z.of_nat (S (length chars))) with (k + 1 + Z.of_nat (length chars)) by lia.
    replace (k + 1 + Z.of_nat 0) with (k + 1) by lia.
    rewrite (map_ext (fun x => k + 1 + Z.of_nat (S x)) (fun x => k + 1 + 1 + Z.of_nat x)) by (intros; lia). reflexivity.
Qed.

Definition edge_body (bt : Z) (i : nat) (acc : list Z) : prog (list Z) :=
  chk (Z.of_nat i) BAND_MAX ;;;
  if bt =? 0 then v <- rd 10 ;; Ret (acc ++ [to_word8 v])
  else v <- rd 4 ;; Ret (acc ++ [v]).

Lemma word8_small v : 0 <= v < 128 -> to_word8 v = v.
Proof. intros H. unfold to_word8. rewrite Z.mod_small by lia. lia. Qed.

Lemma edges_rt x : forall bs i acc rest, Forall (fits (if x : bool then 4 else 10)) bs -> (i + length bs <= 4)%nat ->
  runA (forP (length bs) i (edge_body (b2z x)) acc) (concat (map (bits_of (if x then 4 else 10)) bs) ++ rest)
  = Done (acc ++ map to_word8 bs, rest).
Proof.
  induction bs as [|b bs IH]; intros i acc rest HF HI; cbn [length forP map concat].
  - rewrite app_nil_r. reflexivity.
  - rewrite runA_bind. unfold edge_body at 1. cbn [length] in HI. rewrite runA_chk by (unfold BAND_MAX; lia).
    pose proof (Forall_inv HF) as Hb. destruct x; cbn [b2z Z.eqb].
    + rdf. cbn [runA]. rewrite IH by (try exact (Forall_inv_tail HF); lia). rewrite <- app_assoc. cbn [app].
      rewrite word8_small; [reflexivity|]. unfold fits in Hb. change (2 ^ 4) with 16 in Hb. lia.
    + rdf. cbn [runA]. rewrite IH by (try exact (Forall_inv_tail HF); lia). rewrite <- app_assoc. reflexivity.
Qed.

Lemma set_head p f a : fits 2 p ->
  bits_of 2 p ++ flag true ++ flag f ++ flag a ++ flag false = bits_of 6 (p * 16 + 8 + b2z f * 4 + b2z a * 2) /\
  let t := p * 16 + 8 + b2z f * 4 + b2z a * 2 in
  0 <= t < 2 ^ 6 /\ t / 16 mod 4 = p /\ t / 8 mod 2 = 1 /\ t / 4 mod 2 = b2z f /\ t / 2 mod 2 = b2z a /\ t mod 2 = 0.
Proof.
  intros H. unfold fits in H. change (2 ^ 2) with 4 in H.
  assert (P : p = 0 \/ p = 1 \/ p = 2 \/ p = 3) by lia.
  destruct P as [->|[->|[->| ->]]]; destruct f, a; cbn; repeat split; try reflexivity; lia.
Qed.

Lemma map_snd_combine {A B} (l : list A) (r : list B) : length l = length r -> map snd (combine l r) = r.
Proof. revert r. induction l as [|a l IH]; intros [|b r] H; cbn in *; try discriminate; [reflexivity|]. f_equal. apply IH. lia. Qed.
Lemma map_fst_combine {A B} (l : list A) (r : list B) : length l = length r -> map fst (combine l r) = l.
Proof. revert r. induction l as [|a l IH]; intros [|b r] H; cbn in *; try discriminate; [reflexivity|]. f_equal. apply IH. lia. Qed.

Lemma set_rt g k rest : valid_set g -> -1 <= k -> k + n_bands g < 24 ->
  exists G, runA (gain_set_params k) (enc_set g ++ rest) = Done (Ok (G, k + n_bands g), rest) /\
            stored_set to_word8 (k + 1) g G.
Proof.
  intros (V1 & V2) HK1 HK. unfold gain_set_params, enc_set.
  destruct (set_head (ms_prof g) (ms_full g) (ms_align g) V1) as (E & T0 & T1 & T2 & T3 & T4 & T5).
  set (t := ms_prof g * 16 + 8 + b2z (ms_full g) * 4 + b2z (ms_align g) * 2) in *.
  set (tail := if ms_prof g =? 3 then [] else _).
  replace ((bits_of 2 (ms_prof g) ++ flag true ++ flag (ms_full g) ++ flag (ms_align g) ++ flag false ++ tail) ++ rest)
    with (bits_of 6 t ++ tail ++ rest) by (rewrite <- E, <- !app_assoc; reflexivity).
  rewrite runA_rdb by (reflexivity || lia || exact T0). cbv zeta. rewrite T1, T2, T3, T4, T5. cbn [Z.eqb bind].
  unfold tail, stored_set, n_bands in *. destruct (ms_prof g =? 3) eqn:EP.
  - destruct V2 as (V2 & V3 & V4). rewrite V2, V3, V4. cbn [app runA]. eexists. split; [reflexivity|].
    cbn. apply Z.eqb_eq in EP. repeat split; auto.
  - destruct V2 as (V2 & V3 & V4 & V5 & V6). rewrite <- !app_assoc.
    rewrite runA_rdb; [|reflexivity|lia|change (2 ^ 4) with 16; lia].
    destruct (Z.ltb_spec BAND_MAX (Z.of_nat (length (ms_chars g)))) as [H|_]; [unfold BAND_MAX in H; lia|].
    assert (X : forall (K : Z -> prog (res (gset * Z))) r,
      runA (bind (if 1 <? Z.of_nat (length (ms_chars g)) then rd 1 else Ret 0) K)
        ((if 1 <? Z.of_nat (length (ms_chars g)) then flag (ms_xover g) else []) ++ r) = runA (K (b2z (ms_xover g))) r).
    { intros K r. destruct (Z.ltb_spec 1 (Z.of_nat (length (ms_chars g)))) as [H|H].
      - apply runA_flag.
      - rewrite V6 by lia. reflexivity. }
    rewrite X. clear X. rewrite runA_bind. rewrite !Nat2Z.id.
    change (fun (i : nat) '(bands, seq) => _) with band_body.
    rewrite bands_rt by (try exact V3; lia). cbn [app].
    rewrite runA_bind. change (fun (i : nat) (acc : list Z) => _) with (edge_body (b2z (ms_xover g))).
    replace (Z.to_nat (Z.of_nat (length (ms_chars g)) - 1)) with (length (ms_borders g)) by lia.
    rewrite edges_rt; [|exact V5|lia]. cbn [runA app]. eexists. split; [reflexivity|].
    cbn [gs_prof gs_interp gs_full gs_align gs_tflag gs_count gs_btype gs_bands gs_edges].
    assert (L : length (map (fun j => k + 1 + Z.of_nat j) (seq 0 (length (ms_chars g)))) = length (ms_chars g))
      by (rewrite map_length, seq_length; reflexivity).
    rewrite map_snd_combine, map_fst_combine by exact L. repeat split; reflexivity.
Qed.

Definition sets_body (i : nat) (x : list gset * Z) : prog (res (list gset * Z)) :=
  let '(sets, seq) := x in
  chk (Z.of_nat i) GAIN_SET_MAX ;;;
  r <- gain_set_params seq ;;
  match r with Er e => Ret (Er e) | Ok (g, seq) =>
  if negb (gs_tflag g =? 0) || negb (gs_interp g =? 1) then Ret (Er E_DRC_LC)
  else Ret (Ok (sets ++ [g], seq)) end.

Lemma n_bands_nonneg g : 0 <= n_bands g.
Proof. unfold n_bands. destruct (_ =? _); lia. Qed.
Lemma total_nonneg l : 0 <= total_bands l.
Proof. unfold total_bands. induction l as [|g l IH]; cbn [fold_right]; [lia|]. pose proof (n_bands_nonneg g). lia. Qed.

Lemma sets_rt : forall ms i acc k rest, Forall valid_set ms -> -1 <= k -> k + total_bands ms < 24 ->
  (i + length ms <= 24)%nat ->
  exists gs k', runA (forR (length ms) i sets_body (acc, k)) (concat (map enc_set ms) ++ rest)
             = Done (Ok (acc ++ gs, k'), rest) /\ stored_sets to_word8 (k + 1) ms gs.
Proof.
  induction ms as [|m ms IH]; intros i acc k rest HF HK HT HI; cbn [length forR map concat].
  - exists [], k. rewrite app_nil_r. split; [reflexivity|exact I].
  - cbn [length] in HI. unfold total_bands in HT; cbn [fold_right] in HT. fold (total_bands ms) in HT.
    pose proof (total_nonneg ms). pose proof (n_bands_nonneg m).
    rewrite runA_bind. unfold sets_body at 1. rewrite runA_chk by (unfold GAIN_SET_MAX; lia).
    rewrite <- app_assoc. destruct (set_rt m k (concat (map enc_set ms) ++ rest)) as (G & EG & SG);
      [exact (Forall_inv HF)|lia|lia|].
    rewrite runA_bind, EG. assert (SG' := SG). destruct SG' as (_ & I1 & _ & _ & I2 & _). rewrite I1, I2. cbn [Z.eqb Pos.eqb negb orb runA].
    destruct (IH (S i) (acc ++ [G]) (k + n_bands m) rest) as (gs & k' & E & SS);
      [exact (Forall_inv_tail HF)|lia|lia|lia|].
    exists (G :: gs), k'. rewrite E, <- app_assoc. split; [reflexivity|].
    cbn [stored_sets]. split; [exact SG|]. replace (k + 1 + n_bands m) with (k + n_bands m + 1) by lia. exact SS.
Qed.

Lemma coef_rt c rest : valid_coef c ->
  exists C, runA (parse_coeff false) (enc_coef c ++ rest) = Done (Ok C, rest) /\ stored_coef to_word8 c C.
Proof.
  intros (V1 & V2 & V3 & V4). unfold parse_coeff, enc_coef, flag. rewrite <- !app_assoc.
  rewrite (runA_rd2 5 4 1 (mc_loc c) (b2z false)); [|reflexivity|lia|exact V1|cbn; lia].
  cbn [b2z]. change (2 ^ Z.of_nat 1) with 2. rewrite Z.add_0_r, Z.mod_mul by lia. cbn [Z.eqb negb].
  rewrite Z.div_mul by lia. cbv zeta. unfold fits in V1. change (2 ^ 4) with 16 in V1. rewrite (Z.mod_small (mc_loc c)) by lia.
  rewrite runA_rdb; [|reflexivity|lia|change (2 ^ 6) with 64; lia].
  cbn [andb]. rewrite Nat2Z.id. rewrite runA_bind.
  change (fun (i : nat) '(sets, seq) => _) with sets_body.
  destruct (sets_rt (mc_sets c) 0 [] (-1) rest) as (gs & k' & E & SS); [exact V3|lia|lia|lia|].
  rewrite E. cbn [runA app]. eexists. split; [reflexivity|]. split; [reflexivity|exact SS].
Qed.

(** ** Parts of an instruction block *)
Lemma dmx_loop_rt : forall t i acc rest, Forall (fits 7) t -> (i + length t <= 8)%nat ->
  runA (forP (length t) i (fun i acc => chk (Z.of_nat i) DMX_ID_MAX ;;; v <- rd 7 ;; Ret (acc ++ [v])) acc)
       (concat (map (bits_of 7) t) ++ rest) = Done (acc ++ t, rest).
Proof.
  induction t as [|v t IH]; intros i acc rest HF HI; cbn [length forP map concat].
  - rewrite app_nil_r. reflexivity.
  - cbn [length] in HI. rewrite runA_bind. rewrite runA_chk by (unfold DMX_ID_MAX; lia).
    pose proof (Forall_inv HF) as Hv. rdf. cbn [runA]. rewrite IH by (try exact (Forall_inv_tail HF); lia).
    rewrite <- app_assoc. reflexivity.
Qed.

Lemma dmx_rt ids rest : (1 <= length ids <= 8)%nat -> Forall (fits 7) ids ->
  runA parse_downmix_id (bits_of 7 (hd 0 ids) ++
    (match tl ids with [] => flag false
     | t => flag true ++ bits_of 3 (Z.of_nat (length t)) ++ concat (map (bits_of 7) t) end) ++ rest) = Done (ids, rest).
Proof.
  intros HL HF. destruct ids as [|d t]; [cbn in HL; lia|]. cbn [hd tl]. unfold parse_downmix_id.
  pose proof (Forall_inv HF) as Hd. rdf. destruct t as [|d2 t].
  - rdf. reflexivity.
  - cbv iota. rewrite <- !app_assoc. rdf. cbn [b2z Z.eqb].
    rewrite runA_rdb; [|reflexivity|lia|change (2 ^ 3) with 8; cbn [length] in *; lia].
    rewrite Nat2Z.id, dmx_loop_rt; [reflexivity|exact (Forall_inv_tail HF)|cbn [length] in *; lia].
Qed.

Lemma scaling_rt o rest : fits_signed5 3 o ->
  runA ducking_scaling (enc_scaling o ++ rest) = Done (scaling_of o, rest).
Proof.
  intros V. unfold ducking_scaling, enc_scaling. destruct o as [[s v]|].
  - cbn in V. unfold fits in V. change (2 ^ 3) with 8 in V. rewrite <- !app_assoc. rdf. cbn [b2z Z.eqb].
    unfold flag. rewrite (runA_rd2 4 1 3 (b2z s) v); [|reflexivity|lia|destruct s; cbn; lia|change (2 ^ Z.of_nat 3) with 8; lia].
    change (2 ^ Z.of_nat 3) with 8. cbv zeta.
    rewrite Z.add_comm, Z.mod_add, Z.mod_small by lia. rewrite Z.div_add, Z.div_small by lia.
    destruct s; cbn [b2z Z.add Z.eqb runA scaling_of]; reflexivity.
  - rdf. reflexivity.
Qed.

Lemma mod_rt bc m rest : bc <= 4 ->
  (match mm_scale m with None => True | Some (a, b) => fits 4 a /\ fits 4 b end) -> fits_signed5 5 (mm_off m) ->
  exists g, runA (gain_modifiers bc) (enc_mod m ++ rest) = Done (g, rest) /\ gm_bands g = bc /\
    (gm_att g, gm_amp g) = (match mm_scale m with None => (8, 8) | Some p => p end) /\
    gm_off g = (match mm_off m with None => 0 | Some (true, v) => - (1 + v) | Some (false, v) => 1 + v end).
Proof.
  intros HB V1 V2. unfold gain_modifiers, enc_mod. rewrite <- app_assoc.
  assert (X1 : forall (K : Z -> Z * Z -> prog gmod) r,
     runA (sf <- rd 1 ;; x <- (if sf =? 0 then Ret (8, 8) else t <- rd 8 ;; Ret (t / 16 mod 16, t mod 16)) ;; K sf x)
       ((match mm_scale m with None => flag false | Some (a, b) => flag true ++ bits_of 4 a ++ bits_of 4 b end) ++ r)
     = runA (K (match mm_scale m with None => 0 | Some _ => 1 end) (match mm_scale m with None => (8, 8) | Some p => p end)) r).
  { intros K r. destruct (mm_scale m) as [[a b]|].
    - destruct V1 as [Va Vb]. unfold fits in *. change (2 ^ 4) with 16 in *. rewrite <- !app_assoc. rdf. cbn [b2z Z.eqb].
      rewrite bind_assoc. rewrite (runA_rd2 8 4 4 a b); [|reflexivity|lia|change (2 ^ Z.of_nat 4) with 16; lia|change (2 ^ Z.of_nat 4) with 16; lia].
      change (2 ^ Z.of_nat 4) with 16. cbn [bind].
      rewrite Z.add_comm, Z.div_add, Z.div_small, Z.mod_add, Z.add_0_l by lia. rewrite !Z.mod_small by lia. reflexivity.
    - rdf. reflexivity. }
  assert (X2 : forall (K : Z -> Z -> prog gmod) r,
     runA (of <- rd 1 ;; off <- (if of =? 0 then Ret 0 else t <- rd 6 ;;
             let v := 1 + t mod 32 in Ret (if t / 32 mod 2 =? 0 then v else - v)) ;; K of off)
       ((match mm_off m with None => flag false | Some (s, v) => flag true ++ flag s ++ bits_of 5 v end) ++ r)
     = runA (K (match mm_off m with None => 0 | Some _ => 1 end)
               (match mm_off m with None => 0 | Some (true, v) => - (1 + v) | Some (false, v) => 1 + v end)) r).
  { intros K r. destruct (mm_off m) as [[s v]|].
    - cbn in V2. unfold fits in V2. change (2 ^ 5) with 32 in V2. rewrite <- !app_assoc. rdf. cbn [b2z Z.eqb].
      rewrite bind_assoc. unfold flag. rewrite (runA_rd2 6 1 5 (b2z s) v); [|reflexivity|lia|destruct s; cbn; lia|change (2 ^ Z.of_nat 5) with 32; lia].
      change (2 ^ Z.of_nat 5) with 32. cbn [bind]. rewrite Z.add_comm, Z.mod_add, (Z.mod_small v), Z.div_add, (Z.div_small v) by lia.
      destruct s; reflexivity.
    - rdf. reflexivity. }
  rewrite X1. destruct (match mm_scale m with None => (8, 8) | Some p => p end) as [att amp]. rewrite X2. clear X1 X2.
  destruct (Z.ltb_spec 0 bc).
  - rewrite runA_chk by (unfold BAND_MAX; lia). eexists. split; [reflexivity|]. repeat split; reflexivity.
  - eexists. split; [reflexivity|]. repeat split; reflexivity.
Qed.
