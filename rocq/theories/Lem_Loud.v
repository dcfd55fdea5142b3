(** * Lem_Loud: loudness infos are decoded as written *)

From Coq Require Import ZArith List Lia Bool.
From Verif Require Import Bits BitBuf BitWrite Prog Escape Asi Wp Wlp Frame Loops Spec_Asi Lem_Asi Lem_AsiRT
  Loud Mhas Spec_Mhas Lem_Mhas Lem_MhasRT.
Import ListNotations.
Open Scope Z_scope.

Lemma quarters_ok m t : 0 <= m <= 9 -> 0 <= t < 2 ^ Z.of_nat (code_bits m) -> method_value m t = spec_quarters m t.
Proof.
  intros Hm Ht. unfold method_value, spec_quarters.
  assert (E : m = 0 \/ m = 1 \/ m = 2 \/ m = 3 \/ m = 4 \/ m = 5 \/ m = 6 \/ m = 7 \/ m = 8 \/ m = 9) by lia.
  destruct E as [->|[->|[->|[->|[->|[->|[->|[->|[->| ->]]]]]]]]]; cbn [Z.eqb Pos.eqb]; try lia.
  destruct (Z.eqb_spec t 0); [subst; reflexivity|reflexivity].
Qed.

(** The stored form of a measurement and of an info. *)
Definition stored_meas (m : meas) : lmeas :=
  mkLM (ms_method m) (spec_quarters (ms_method m) (ms_code m)) (ms_sys m) (ms_rel m).
Definition scope_type (s : lscope) : Z := match s with LAll => 0 | LGroup _ => 1 | LGroup2 _ => 2 | LPreset _ => 3 end.
Definition scope_group (s : lscope) : Z := match s with LAll => -1 | LGroup g | LGroup2 g => g | LPreset _ => 0 end.
Definition scope_preset (s : lscope) : Z := match s with LAll => -1 | LGroup _ | LGroup2 _ => 0 | LPreset p => p end.
Definition opt0 (o : option Z) : Z := match o with Some v => v | None => 0 end.
Definition stored_body (ty g p : Z) (l : loud) : linfo :=
  mkLI ty g p (ld_set l) (ld_dmx l) (opt0 (ld_peak l))
    (match ld_true l with Some (v, _, _) => v | None => 0 end)
    (match ld_true l with Some (_, s, _) => s | None => 0 end)
    (match ld_true l with Some (_, _, r) => r | None => 0 end) (map stored_meas (ld_meas l)).
Definition stored_loud (l : loud) : linfo :=
  stored_body (scope_type (ld_scope l)) (scope_group (ld_scope l)) (scope_preset (ld_scope l)) l.

(** Two fields read as one. *)
Lemma bits_join (a b : nat) x y : 0 <= x < 2 ^ Z.of_nat a -> 0 <= y < 2 ^ Z.of_nat b ->
  bits_of a x ++ bits_of b y = bits_of (a + b) (x * 2 ^ Z.of_nat b + y).
Proof.
  intros Hx Hy. rewrite bits_of_split. assert (P := pow2_pos (Z.of_nat b) ltac:(lia)).
  rewrite Z.div_add_l by lia. rewrite (Z.div_small y) by lia. rewrite Z.add_0_r. f_equal.
  rewrite <- (bits_of_mod b (x * _ + y)). f_equal.
  rewrite Z.add_comm, Z.mod_add by lia. symmetry. apply Z.mod_small. lia.
Qed.
Lemma runA_rd2 {A} (n : Z) (a b : nat) x y (k : Z -> prog A) rest :
  n = Z.of_nat (a + b) -> (a + b <= 24)%nat -> 0 <= x < 2 ^ Z.of_nat a -> 0 <= y < 2 ^ Z.of_nat b ->
  runA (bind (rd n) k) (bits_of a x ++ bits_of b y ++ rest) = runA (k (x * 2 ^ Z.of_nat b + y)) rest.
Proof.
  intros -> H Hx Hy. rewrite app_assoc, bits_join by assumption.
  rewrite runA_rdb; [reflexivity|reflexivity|exact H|].
  rewrite Nat2Z.inj_add, Z.pow_add_r by lia. nia.
Qed.
Lemma div4 x y : 0 <= y < 4 -> (x * 2 ^ Z.of_nat 2 + y) / 4 = x.
Proof. intros. change (2 ^ Z.of_nat 2) with 4. rewrite Z.div_add_l by lia. rewrite Z.div_small by lia. lia. Qed.
Lemma mod4 x y : 0 <= y < 4 -> (x * 2 ^ Z.of_nat 2 + y) mod 4 = y.
Proof. intros. change (2 ^ Z.of_nat 2) with 4. rewrite Z.add_comm, Z.mod_add by lia. apply Z.mod_small. lia. Qed.

Lemma loudness_measure_rt m rest : valid_meas m ->
  runA loudness_measure (enc_meas m ++ rest) = Done (Ok (stored_meas m), rest).
Proof.
  intros (V1 & V2 & V3 & V4). unfold loudness_measure, enc_meas. rewrite <- !app_assoc.
  assert (fits 4 (ms_method m)) by (unfold fits; change (2 ^ 4) with 16; lia). rdf.
  destruct (Z.ltb_spec 9 (ms_method m)); [lia|].
  assert (MB : method_bits (ms_method m) = Z.of_nat (code_bits (ms_method m))).
  { unfold method_bits, code_bits. destruct (Z.eqb_spec (ms_method m) 8), (Z.eqb_spec (ms_method m) 7); try lia; reflexivity. }
  rewrite runA_rdb; [|exact MB|unfold code_bits; destruct (ms_method m =? 7), (ms_method m =? 8); lia|rewrite MB; exact V2].
  unfold fits in V4. change (2 ^ 2) with 4 in V4.
  rewrite (runA_rd2 6 4 2) by (try reflexivity; try lia; change (2 ^ Z.of_nat 4) with 16; lia).
  cbv zeta. rewrite div4, mod4 by lia.
  destruct (Z.ltb_spec 11 (ms_sys m)); [lia|]. cbn [runA]. unfold stored_meas.
  rewrite quarters_ok by assumption. reflexivity.
Qed.

Lemma loudness_info_rt ty g p l rest : valid_loud l ->
  runA (loudness_info ty g p) (enc_loud l ++ rest) = Done (Ok (stored_body ty g p l), rest).
Proof.
  intros (V0 & V1 & V2 & V3 & V4 & V5 & V6). unfold loudness_info, enc_loud. rewrite <- !app_assoc. rdf.
  unfold fits in V2. change (2 ^ 7) with 128 in V2.
  assert (PK : forall (q : Z -> Z -> prog (res linfo)) r,
    runA (t <- rd 8 ;; pk <- (if t mod 2 =? 0 then Ret 0 else rd 12) ;; q (t / 2) pk)
      (bits_of 7 (ld_dmx l) ++ enc_opt (bits_of 12) (ld_peak l) ++ r) = runA (q (ld_dmx l) (opt0 (ld_peak l))) r).
  { intros q r. destruct (ld_peak l) as [v|]; cbn [enc_opt opt0]; unfold flag; rewrite <- ?app_assoc;
      (rewrite (runA_rd2 8 7 1) by (try reflexivity; try lia; cbn; lia)); change (2 ^ Z.of_nat 1) with 2; cbn [b2z].
    - rewrite (Z.div_add_l (ld_dmx l) 2 1) by lia. change (1 / 2) with 0. rewrite Z.add_0_r.
      rewrite (Z.add_comm _ 1), Z.mod_add by lia. change (1 mod 2 =? 0) with false. cbv iota.
      rewrite runA_rdb by (try reflexivity; try lia; apply V3). reflexivity.
    - rewrite (Z.div_add_l (ld_dmx l) 2 0) by lia. change (0 / 2) with 0. rewrite Z.add_0_r.
      rewrite Z.add_0_r, Z.mod_mul by lia. reflexivity. }
  rewrite (PK (fun d pk => tp <- rd 1 ;;
  ' (tl, ts, tr) <-
    (if tp =? 0 then Ret (0, 0, 0)
     else l <- rd 12 ;; x <- rd 6 ;; Ret (l, x / 4, x mod 4)) ;;
  n <- rd 4 ;;
  r <- loudness_measures n ;;
  match r with
  | Er e => Ret (Er e)
  | Ok ms => Ret (Ok (mkLI ty g p (ld_set l) d pk tl ts tr ms))
  end)). clear PK.
  assert (TP : forall (q : Z -> Z -> Z -> prog (res linfo)) r,
    runA (tp <- rd 1 ;; ' (tl, ts, tr) <- (if tp =? 0 then Ret (0, 0, 0)
             else l <- rd 12 ;; x <- rd 6 ;; Ret (l, x / 4, x mod 4)) ;; q tl ts tr)
      (enc_opt (fun '(v, s, r) => bits_of 12 v ++ bits_of 4 s ++ bits_of 2 r) (ld_true l) ++ r)
    = runA (q (match ld_true l with Some (v, _, _) => v | None => 0 end)
              (match ld_true l with Some (_, s, _) => s | None => 0 end)
              (match ld_true l with Some (_, _, r) => r | None => 0 end)) r).
  { intros q r. destruct (ld_true l) as [[[v s] e]|]; cbn [enc_opt].
    - destruct V4 as (W1 & W2 & W3 & W4). unfold fits in W3, W4. change (2 ^ 4) with 16 in W3. change (2 ^ 2) with 4 in W4.
      rdf. cbn [b2z Z.eqb]. rewrite bind_assoc. rdf. rewrite bind_assoc.
      rewrite (runA_rd2 6 4 2) by (try reflexivity; try lia; change (2 ^ Z.of_nat 4) with 16; lia).
      cbn [bind]. rewrite div4, mod4 by lia. reflexivity.
    - rdf. reflexivity. }
  rewrite (TP (fun tl ts tr => n <- rd 4 ;; r <- loudness_measures n ;;
    match r with Er e => Ret (Er e) | Ok ms => Ret (Ok (mkLI ty g p (ld_set l) (ld_dmx l) (opt0 (ld_peak l)) tl ts tr ms)) end)).
  clear TP.
  assert (fits 4 (Z.of_nat (length (ld_meas l)))) by (unfold fits; change (2 ^ 4) with 16; lia). rdf.
  unfold loudness_measures. rewrite runA_bind, Nat2Z.id.
  rewrite (forR_app _ enc_meas stored_meas valid_meas 16); [| |lia|exact V6].
  - cbn [app runA]. reflexivity.
  - intros i acc m r Hi Hm. rewrite runA_chk by (unfold MEASUREMENT_MAX; lia).
    rewrite runA_bind, loudness_measure_rt by exact Hm. reflexivity.
Qed.

Lemma loudness_infos_rt ls rest : (length ls <= 36)%nat -> Forall valid_loud ls ->
  runA (loudness_infos (Z.of_nat (length ls))) (concat (map (fun l => enc_scope (ld_scope l) ++ enc_loud l) ls) ++ rest)
  = Done (Ok (map stored_loud ls), rest).
Proof.
  intros HL HF. unfold loudness_infos. rewrite Nat2Z.id.
  rewrite (forR_app _ (fun l => enc_scope (ld_scope l) ++ enc_loud l) stored_loud valid_loud 36); [reflexivity| |lia|exact HF].
  intros i acc l r Hi Hl. rewrite runA_chk by (unfold LOUDNESS_INFO_MAX; lia). rewrite <- app_assoc.
  assert (K : forall (q : Z -> Z -> Z -> prog (res (list linfo))) b, runA (ty <- rd 2 ;; ' (grp, pre) <-
      (if ty =? 3 then p <- rd 5 ;; Ret (0, p) else if ty =? 0 then Ret (-1, -1) else g <- rd 7 ;; Ret (g, 0)) ;; q ty grp pre)
      (enc_scope (ld_scope l) ++ b) = runA (q (scope_type (ld_scope l)) (scope_group (ld_scope l)) (scope_preset (ld_scope l))) b).
  { intros q b. destruct Hl as (V0 & _). destruct (ld_scope l) as [|g|g|p]; cbn [enc_scope scope_type scope_group scope_preset valid_scope] in *.
    - rdf. reflexivity.
    - rdf. cbn [Z.eqb Pos.eqb]. rewrite bind_assoc. rdf. reflexivity.
    - rdf. cbn [Z.eqb Pos.eqb]. rewrite bind_assoc. rdf. reflexivity.
    - rdf. cbn [Z.eqb Pos.eqb]. rewrite bind_assoc. rdf. reflexivity. }
  rewrite (K (fun ty grp pre => r <- loudness_info ty grp pre ;; match r with Er e => Ret (Er e) | Ok x => Ret (Ok (acc ++ [x])) end)).
  rewrite runA_bind, loudness_info_rt by exact Hl. reflexivity.
Qed.

Lemma loudness_albums_rt : forall albums ls al i rest,
  (i + length albums <= 36)%nat -> Forall valid_loud albums ->
  (forall x, In x ls -> li_type x = 0) ->
  runA (forR (length albums) i (fun i '(al, inf) =>
    chk (Z.of_nat i) LOUDNESS_INFO_MAX ;;;
    let inf' := match nth_error inf i with
                | Some x => firstn i inf ++
                    mkLI 0 (li_group x) (li_preset x) (li_set x) (li_dmx x) (li_peak x)
                         (li_true x) (li_tsys x) (li_trel x) (li_meas x) :: skipn (S i) inf
                | None => inf end in
    r <- loudness_info 0 0 0 ;;
    match r with Er e => Ret (Er e) | Ok x => Ret (Ok (al ++ [x], inf')) end) (al, ls))
    (concat (map enc_loud albums) ++ rest)
  = Done (Ok (al ++ map (stored_body 0 0 0) albums, ls), rest).
Proof.
  induction albums as [|a albums IH]; intros ls al i rest HL HF HT; cbn [length forR map concat].
  - cbn [runA app]. rewrite app_nil_r. reflexivity.
  - inversion HF; subst. cbn [length] in HL. rewrite <- app_assoc, runA_bind, runA_chk by (unfold LOUDNESS_INFO_MAX; lia).
    cbv zeta. rewrite runA_bind, loudness_info_rt by assumption. cbn [runA].
    assert (Same : match nth_error ls i with
                | Some x => firstn i ls ++
                    mkLI 0 (li_group x) (li_preset x) (li_set x) (li_dmx x) (li_peak x)
                         (li_true x) (li_tsys x) (li_trel x) (li_meas x) :: skipn (S i) ls
                | None => ls end = ls).
    { destruct (nth_error ls i) as [x|] eqn:E; [|reflexivity].
      assert (T := HT x (nth_error_In _ _ E)). destruct x; cbn in *. subst li_type.
      clear -E. revert i E. induction ls as [|y ls IH]; intros i E; [destruct i; discriminate|].
      destruct i; cbn in *; [congruence|]. f_equal. apply IH. exact E. }
    rewrite Same. rewrite IH by (auto; lia). rewrite <- app_assoc. reflexivity.
Qed.

Lemma loudness_set_rt ls albums rest :
  (length ls <= 36)%nat -> (length albums <= 36)%nat -> Forall valid_loud ls -> Forall valid_loud albums ->
  (albums <> [] -> Forall (fun l => ld_scope l = LAll) ls) ->
  runA loudness_info_set (enc_louds ls albums ++ rest)
  = Done (Ok (mkLS (map stored_loud ls) (map (stored_body 0 0 0) albums)), rest).
Proof.
  intros L1 L2 F1 F2 HA. unfold loudness_info_set, enc_louds. rewrite <- !app_assoc.
  assert (fits 6 (Z.of_nat (length ls))) by (unfold fits; change (2 ^ 6) with 64; lia).
  assert (fits 6 (Z.of_nat (length albums))) by (unfold fits; change (2 ^ 6) with 64; lia). rdf.
  rewrite runA_bind, loudness_infos_rt by assumption. cbv beta iota.
  destruct albums as [|a albums].
  - rdf. cbn [b2z Z.eqb bind]. rdf. cbn [b2z Z.eqb bind]. reflexivity.
  - remember (a :: albums) as xs. rdf. cbn [b2z Z.eqb]. rewrite bind_assoc. rdf.
    unfold loudness_albums. rewrite runA_bind, Nat2Z.id, loudness_albums_rt; [|lia|exact F2|].
    + cbn [app]. rdf. cbn [b2z Z.eqb bind]. reflexivity.
    + intros x Hx. apply in_map_iff in Hx as (l & <- & Hl).
      assert (HA' := HA ltac:(subst xs; discriminate)). rewrite Forall_forall in HA'.
      unfold stored_loud. rewrite (HA' l Hl). reflexivity.
Qed.

(** Only a count above 36 is out of bounds. *)
Lemma wp_loudness_infos n : n <= 36 -> wp (loudness_infos n) (fun _ => True).
Proof.
  intros Hn.
  assert (M : wp loudness_measure (fun _ => True)).
  { unfold loudness_measure. apply wp_bindi, wp_rd; [lia|]. intros m Hm. wp1; [wps; exact I|].
    apply wp_bindi, wp_rd; [unfold method_bits; destruct (m =? 8); [lia|]; destruct (m =? 7); lia|].
    intros. wps; exact I. }
  unfold loudness_infos. eapply (wp_forR (fun _ _ => True) (fun _ => True)); auto.
  intros j t Hj _. unfold LOUDNESS_INFO_MAX. apply wp_bindi, wp_chk; [lia|].
  apply wp_bindi, (wp_mono _ (fun _ => True)); [|wps; exact I]. intros ty _. cbv beta.
  apply wp_bindi, (wp_mono _ (fun _ => True)); [|wps; exact I]. intros [grp pre] _. cbv beta iota.
  apply wp_bindi, (wp_mono _ (fun _ => True)); [intros [?|?] _; wps; exact I|].
  unfold loudness_info. apply wp_bindi, (wp_mono _ (fun _ => True)); [|wps; exact I]. intros id _. cbv beta.
  apply wp_bindi, (wp_mono _ (fun _ => True)); [|wps; exact I]. intros t0 _. cbv beta.
  apply wp_bindi, (wp_mono _ (fun _ => True)); [|wps; exact I]. intros pk _. cbv beta.
  apply wp_bindi, (wp_mono _ (fun _ => True)); [|wps; exact I]. intros tp _. cbv beta.
  apply wp_bindi, (wp_mono _ (fun _ => True)); [|wps; exact I]. intros [[tl ts] tr] _. cbv beta iota.
  apply wp_bindi, wp_rd; [lia|]. intros n0 Hn0. change (2 ^ 4) with 16 in Hn0.
  apply wp_bindi, (wp_mono _ (fun _ => True)); [intros [?|?] _; wps; exact I|].
  unfold loudness_measures. eapply (wp_forR (fun _ _ => True) (fun _ => True)); auto.
  intros k t1 Hk _. unfold MEASUREMENT_MAX. apply wp_bindi, wp_chk; [lia|].
  apply wp_bindi, (wp_mono _ (fun _ => True)); [intros [?|?] _; wps; exact I|exact M].
Qed.
