(** * Lemmas about configuration, memory and deletion *)
From Coq Require Import ZArith List Bool Lia.
From Verif Require Import Bits Api Spec_Api.
Import ListNotations.
Open Scope Z_scope.

(** ** Configuration *)

Lemma stored_loudness x : 0 <= x <= 255 <-> -63 <= - Z.shiftr x 2 <= 0.
Proof.
  rewrite Z.shiftr_div_pow2 by lia. change (2 ^ 2) with 4.
  pose proof (Z.div_mod x 4 ltac:(lia)). pose proof (Z.mod_pos_bound x 4 ltac:(lia)). lia.
Qed.

Definition pick (b : bool) (x y : Z) : Z := if b then x else y.
Lemma mhas_go c i : st_mhas c i = Go (s_c_mhas c (pick (i_mhas i =? 1) (i_mhas i) (c_mhas c))) i.
Proof. unfold st_mhas, pick. destruct c, (_ =? _); reflexivity. Qed.
Lemma resamp_go c i : st_resamp c i =
  Go (s_c_resamp c (pick (i_resamp i =? 0) (c_resamp c) 1) (pick (i_resamp i =? 0) (c_ofs c) (i_fs i))) i.
Proof. unfold st_resamp, pick. destruct c, (_ =? _); reflexivity. Qed.

Ltac steps :=
  unfold set_config_params; rewrite mhas_go; unfold st_cicp, st_preset, st_pcm, NUM_LS_CFGS, then_;
  repeat (cbn [i_mhas i_cicp i_preset i_wdsz i_resamp i_fs i_effect i_tl0 i_tl1 s_i_tl1];
    match goal with
    | |- context [if ?b then _ else _] =>
      match b with
      | context [if _ then _ else _] => fail 1
      | _ => destruct b eqn:?
      end
    end); rewrite ?resamp_go; unfold st_effect, st_loud;
  repeat (cbn [i_mhas i_cicp i_preset i_wdsz i_resamp i_fs i_effect i_tl0 i_tl1 s_i_tl1
               s_c_mhas s_c_cicp s_c_preset s_c_pcm s_c_resamp s_c_effect s_c_drc s_c_norm
               s_c_tl s_c_tlset c_pcm c_effect c_tl c_cicp c_preset c_drc c_norm c_tlset];
    match goal with
    | |- context [if ?b then _ else _] =>
      match b with
      | context [if _ then _ else _] => fail 1
      | _ => destruct b eqn:?
      end
    end).

Lemma settings_reported c i :
  0 <= i_cicp i -> -1 <= i_preset i ->
  let e := fst (fst (set_config_params c i)) in
  (e = 0 <-> valid i) /\
  (e = E_CICP_INDEX -> ~ layout_ok (i_cicp i)) /\
  (e = E_PRESET_ID -> ~ preset_ok (i_preset i)) /\
  (e = E_PCM_WDSZ -> ~ pcm_ok (i_wdsz i)) /\
  (e = E_EFFECT_TYPE -> ~ effect_ok (i_effect i)) /\
  (e = E_TARGET_LOUDNESS -> ~ loud_ok (i_tl0 i) (i_tl1 i)) /\
  In e [0; E_CICP_INDEX; E_PRESET_ID; E_PCM_WDSZ; E_EFFECT_TYPE; E_TARGET_LOUDNESS].
Proof.
  intros Hc Hp. pose proof (stored_loudness (i_tl1 i)) as HL.
  unfold valid, pcm_ok, effect_ok, loud_ok, layout_ok, preset_ok.
  steps; cbn [fst snd In] in *;
    unfold E_CICP_INDEX, E_PRESET_ID, E_PCM_WDSZ, E_EFFECT_TYPE, E_TARGET_LOUDNESS;
    (split; [|split; [|split; [|split; [|split; [|split]]]]]);
    try (intros; lia); try (split; intros; lia).
Qed.

Ltac fields := cbn [fst snd s_c_mhas s_c_cicp s_c_preset s_c_pcm s_c_resamp s_c_effect s_c_drc s_c_norm
    s_c_tl s_c_tlset s_i_tl1 i_tl1 i_resamp i_fs c_pcm c_cicp c_preset c_effect c_tl c_tlset c_norm c_drc
    c_up c_down c_ofs] in *.

Lemma settings_range i :
  0 <= i_cicp i -> -1 <= i_preset i ->
  let c := snd (fst (set_config_params (default_config zero_cfg) i)) in
  (c_pcm c = 16 \/ c_pcm c = 24 \/ c_pcm c = 32) /\ (c_pcm c = i_wdsz i \/ c_pcm c = 16) /\
  (0 <= c_cicp c <= 19) /\ (c_cicp c = i_cicp i \/ c_cicp c = 0) /\
  (-1 <= c_preset c <= 31) /\ (c_preset c = i_preset i \/ c_preset c = -1) /\
  (0 <= c_effect c <= 8) /\ (c_effect c = i_effect i \/ c_effect c = 0) /\
  (-63 <= c_tl c <= 0) /\
  (c_tl c = - Z.shiftr (i_tl1 i) 2 \/ c_tl c = -24 \/ c_tl c = 0).
Proof.
  intros Hc Hp. unfold default_config, zero_cfg.
  generalize (pick (i_mhas i =? 1) (i_mhas i) 0). intros _.
  steps; fields; generalize dependent (Z.shiftr (i_tl1 i) 2); intros;
    repeat match goal with
    | |- _ /\ _ => split
    | |- _ = _ => reflexivity
    | |- _ \/ _ => solve [left; reflexivity | right; reflexivity | right; left; reflexivity
                        | right; right; reflexivity]
    end; lia.
Qed.

Lemma settings_valid i : valid i ->
  exists c i', set_config_params (default_config zero_cfg) i = (0, c, i') /\
  c_pcm c = i_wdsz i /\ c_cicp c = i_cicp i /\ c_preset c = i_preset i /\
  c_effect c = i_effect i /\
  (i_tl0 i = 1 -> c_tl c = - Z.shiftr (i_tl1 i) 2 /\ c_tlset c = 1 /\ c_norm c = 1 /\ c_drc c = 1) /\
  (i_tl0 i <> 1 -> c_tl c = -24) /\
  c_up c = 1 /\ c_down c = 1 /\ c_ofs c = pick (i_resamp i =? 0) 48000 (i_fs i) /\
  i_resamp i' = i_resamp i /\ i_fs i' = i_fs i.
Proof.
  intros (V1 & V2 & V3 & V4 & V5). unfold pcm_ok, effect_ok, loud_ok, layout_ok, preset_ok in *.
  pose proof (stored_loudness (i_tl1 i)) as HL.
  unfold set_config_params. rewrite mhas_go. cbn [then_]. unfold st_cicp.
  assert (C1 : exists c, (if negb (i_cicp i =? 0) && (i_cicp i <? NUM_LS_CFGS)
     then Go (s_c_cicp (s_c_mhas (default_config zero_cfg) (pick (i_mhas i =? 1) (i_mhas i) (c_mhas (default_config zero_cfg)))) (i_cicp i)) i
     else if negb (i_cicp i =? 0) then Stop E_CICP_INDEX (s_c_mhas (default_config zero_cfg) (pick (i_mhas i =? 1) (i_mhas i) (c_mhas (default_config zero_cfg)))) i
     else Go (s_c_mhas (default_config zero_cfg) (pick (i_mhas i =? 1) (i_mhas i) (c_mhas (default_config zero_cfg)))) i) = Go c i /\
     c_cicp c = i_cicp i /\ c_preset c = -1 /\ c_effect c = 0 /\ c_tl c = -24 /\ c_up c = 1 /\ c_down c = 1 /\ c_ofs c = 48000 /\
     c_tlset c = 0).
  { unfold NUM_LS_CFGS. destruct (i_cicp i =? 0) eqn:E; cbn [negb andb].
    - eexists; split; [reflexivity|]. cbn. repeat split; lia.
    - replace (i_cicp i <? 20) with true by lia. eexists; split; [reflexivity|]. cbn. repeat split; lia. }
  destruct C1 as (c1 & -> & A1 & A2 & A3 & A4 & A5 & A6 & A7 & A8). cbn [then_]. unfold st_preset.
  assert (C2 : exists c, (if negb (i_preset i =? -1) && (i_preset i <? 32) then Go (s_c_preset c1 (i_preset i)) i
     else if negb (i_preset i =? -1) then Stop E_PRESET_ID c1 i else Go c1 i) = Go c i /\
     c_preset c = i_preset i /\ c_cicp c = i_cicp i /\ c_effect c = 0 /\ c_tl c = -24 /\ c_up c = 1 /\ c_down c = 1 /\ c_ofs c = 48000).
  { destruct (i_preset i =? -1) eqn:E; cbn [negb andb].
    - eexists; split; [reflexivity|]. repeat split; lia.
    - replace (i_preset i <? 32) with true by lia. eexists; split; [reflexivity|]. cbn. repeat split; lia. }
  destruct C2 as (c2 & -> & B1 & B2 & B3 & B4 & B5 & B6 & B7). cbn [then_]. unfold st_pcm.
  replace (negb (i_wdsz i =? 16) && negb (i_wdsz i =? 24) && negb (i_wdsz i =? 32)) with false by lia.
  cbn [then_]. rewrite resamp_go. cbn [then_]. unfold st_effect. cbn [s_c_pcm c_ofs c_resamp].
  set (c3 := s_c_resamp _ _ _).
  assert (C3 : exists c, (if negb (i_effect i =? 0) then if (8 <? i_effect i) || (i_effect i <? 0)
      then Stop E_EFFECT_TYPE (s_c_drc (s_c_effect c3 0) 1) i else Go (s_c_effect c3 (i_effect i)) i else Go c3 i) = Go c i /\
     c_effect c = i_effect i /\ c_preset c = i_preset i /\ c_cicp c = i_cicp i /\ c_pcm c = i_wdsz i /\ c_tl c = -24 /\
     c_up c = 1 /\ c_down c = 1 /\ c_ofs c = pick (i_resamp i =? 0) 48000 (i_fs i)).
  { subst c3. cbn [s_c_resamp]. rewrite B7. destruct (i_effect i =? 0) eqn:E; cbn [negb].
    - eexists; split; [reflexivity|]. cbn [c_effect c_preset c_cicp c_pcm c_tl c_up c_down c_ofs s_c_resamp s_c_pcm]. repeat split; lia.
    - replace ((8 <? i_effect i) || (i_effect i <? 0)) with false by lia. eexists; split; [reflexivity|].
      cbn [c_effect c_preset c_cicp c_pcm c_tl c_up c_down c_ofs s_c_resamp s_c_pcm s_c_effect]. repeat split; lia. }
  destruct C3 as (c4 & -> & D1 & D2 & D3 & D4 & D5 & D6 & D7 & D8). cbn [then_]. unfold st_loud.
  destruct (i_tl0 i =? 1) eqn:E1.
  - replace (0 <=? i_tl1 i) with true by lia. cbn [i_tl1 s_i_tl1].
    replace ((0 <? - Z.shiftr (i_tl1 i) 2) || (- Z.shiftr (i_tl1 i) 2 <? -63)) with false by lia.
    eexists _, _. split; [reflexivity|].
    cbn [c_effect c_preset c_cicp c_pcm c_tl c_up c_down c_ofs c_tlset c_norm c_drc s_c_tlset s_c_tl s_c_drc s_c_norm i_resamp i_fs].
    repeat split; auto; lia.
  - eexists _, _. split; [reflexivity|]. repeat split; auto; lia.
Qed.

Lemma settings_in_range i :
  0 <= i_cicp i -> -1 <= i_preset i ->
  let c := snd (fst (set_config_params (default_config zero_cfg) i)) in
  pcm_ok (c_pcm c) /\ (c_pcm c = i_wdsz i \/ c_pcm c = 16) /\
  layout_ok (c_cicp c) /\ (c_cicp c = i_cicp i \/ c_cicp c = 0) /\
  preset_ok (c_preset c) /\ (c_preset c = i_preset i \/ c_preset c = -1) /\
  effect_ok (c_effect c) /\ (c_effect c = i_effect i \/ c_effect c = 0) /\
  -63 <= c_tl c <= 0 /\
  (c_tl c = - Z.shiftr (i_tl1 i) 2 \/ c_tl c = -24 \/ c_tl c = 0) /\
  (valid i -> c_pcm c = i_wdsz i /\ c_cicp c = i_cicp i /\ c_preset c = i_preset i /\
    c_effect c = i_effect i /\
    (i_tl0 i = 1 -> c_tl c = - (i_tl1 i / 4) /\ c_tlset c = 1 /\ c_norm c = 1 /\ c_drc c = 1) /\
    (i_tl0 i <> 1 -> c_tl c = -24)).
Proof.
  intros Hc Hp. destruct (settings_range i Hc Hp) as (R1 & R2 & R3 & R4 & R5 & R6 & R7 & R8 & R9 & R10).
  cbv zeta. do 10 (split; [assumption|]). intros V.
  destruct (settings_valid i V) as (c & i' & E & A1 & A2 & A3 & A4 & A5 & A6 & _).
  rewrite E. cbn [fst snd]. rewrite Z.shiftr_div_pow2 in A5 by lia. auto 10.
Qed.

(** ** Creation *)

(** create is one run of allocations; its code does not depend on the configuration. *)
Lemma create_allocs al z i m :
  code (create al z i m) = fst (alloc_tables al (requests z) m) /\
  memory (create al z i m) = snd (alloc_tables al (requests z) m).
Proof.
  unfold create, requests. cbn [alloc_tables].
  destruct (alloc_one al (z_api z) 4 m) as [[b|] m1]; [|split; reflexivity].
  destruct (set_config_params _ i) as [[e c] i'].
  destruct (alloc_one al (tabs_size z) 4 m1) as [[b2|] m2]; [|split; reflexivity].
  destruct (alloc_tables al (mem_tables z) m2) as [e3 m3]; split; reflexivity.
Qed.

(** The blocks a run of successful allocations makes. *)
Fixpoint made (al : allocator) (n : nat) (ts : list (Z * Z)) : list block :=
  match ts with
  | [] => []
  | (s, a) :: r => let p := al n s a in mkB s a p (p + a - p mod a) :: made al (S n) r
  end.

Definition wr (b : block) : list (Z * Z) := [(b_base b, b_size b); (b_ptr b, b_size b)].

Lemma alloc_run al ts : forall m,
  exists k, (k <= length ts)%nat /\
  let r := alloc_tables al ts m in
  let bs := made al (m_calls m) (firstn k ts) in
  m_blocks (snd r) = m_blocks m ++ bs /\
  m_writes (snd r) = m_writes m ++ flat_map wr bs /\
  Forall (fun b => b_base b <> 0) bs /\
  m_freed (snd r) = m_freed m /\
  (fst r = 0 /\ k = length ts \/
   fst r = E_MEM_ALLOC /\ exists s a, nth_error ts k = Some (s, a) /\ al (m_calls m + k)%nat s a = 0).
Proof.
  induction ts as [|[s a] ts IH]; intros m.
  - exists 0%nat. split; [lia|]. cbn. rewrite !app_nil_r. repeat split; auto.
  - cbn [alloc_tables]. unfold alloc_one.
    set (m0 := mkMem _ _ _ _ _ _ _).
    assert (HB : forall p, m_blocks (put_slot m0 p) = m_blocks m /\ m_writes (put_slot m0 p) = m_writes m /\
                 m_calls (put_slot m0 p) = S (m_calls m) /\ m_freed (put_slot m0 p) = m_freed m)
      by (intros; unfold put_slot; destruct (_ && _); repeat split; reflexivity).
    destruct (HB (al (m_calls m) s a)) as (B1 & B2 & B3 & B4).
    destruct (al (m_calls m) s a =? 0) eqn:E.
    + exists 0%nat. split; [cbn; lia|]. cbn [firstn made flat_map fst snd].
      rewrite B1, B2, B4, !app_nil_r. repeat split; auto.
      right. split; auto. exists s, a. split; auto. rewrite Nat.add_0_r. lia.
    + match goal with |- context [alloc_tables al ts ?mm] => destruct (IH mm) as (k & Hk & R1 & R2 & R3 & R4 & R5) end.
      exists (S k). split; [cbn; lia|]. cbn [firstn made flat_map fst snd].
      cbn [m_calls m_blocks m_writes m_freed] in *. rewrite B3 in *. rewrite B1, B2, B4 in *.
      rewrite R1, R2, R4. rewrite <- !app_assoc. split; [reflexivity|]. split; [reflexivity|].
      split; [constructor; [cbn; lia|assumption]|]. split; [reflexivity|].
      destruct R5 as [[? ?]|(He & s' & a' & Hn & Ha)]; [left; split; [auto|cbn; lia]|right].
      split; auto. exists s', a'. split; auto. rewrite Nat.add_succ_r. exact Ha.
Qed.

Lemma made_shape al ts : forall n b, In b (made al n ts) ->
  (exists s a, In (s, a) ts /\ b_size b = s /\ b_align b = a) /\
  b_ptr b = b_base b + b_align b - b_base b mod b_align b.
Proof.
  induction ts as [|[s a] ts IH]; intros n b [].
  - subst. cbn. split; [|reflexivity]. exists s, a. split; auto.
  - destruct (IH _ _ H) as ((s' & a' & ? & ? & ?) & ?). split; auto. exists s', a'; split; auto. right; auto.
Qed.

Lemma firstn_In' {A} (x : A) k l : In x (firstn k l) -> In x l.
Proof. revert k. induction l; intros [|k]; cbn; auto; try tauto. intros [?|?]; eauto. Qed.

Lemma requests_ok z s a : sane z -> In (s, a) (requests z) -> 0 < s /\ (a = 4 \/ a = 8).
Proof.
  unfold sane, requests, tabs_size, mem_tables, IN_BUF_SIZE, OUT_BUF_SIZE. intros (A & B & C & D & F) H.
  assert (HU : u32 (u32 (z_state z + z_dec z) + 18560) = z_state z + z_dec z + 18560).
  { unfold u32, to_u. rewrite (Z.mod_small (z_state z + z_dec z)) by lia.
    apply Z.mod_small. lia. }
  rewrite HU in H. cbn [In] in H.
  repeat match goal with H : _ \/ _ |- _ => destruct H as [H|H] end; try tauto;
    pose proof (f_equal fst H) as E1; pose proof (f_equal snd H) as E2; cbn [fst snd] in E1, E2;
    (split; [lia|auto]).
Qed.

Lemma create_mem al z i m : exists k, (k <= 6)%nat /\
  let r := create al z i m in
  let bs := made al (m_calls m) (firstn k (requests z)) in
  m_blocks (memory r) = m_blocks m ++ bs /\
  m_writes (memory r) = m_writes m ++ flat_map wr bs /\
  Forall (fun b => b_base b <> 0) bs /\
  (code r = 0 /\ k = 6%nat \/
   code r = E_MEM_ALLOC /\ exists s a, nth_error (requests z) k = Some (s, a) /\ al (m_calls m + k)%nat s a = 0).
Proof.
  destruct (create_allocs al z i m) as [HC HM].
  destruct (alloc_run al (requests z) m) as (k & Hk & R1 & R2 & R3 & R4 & R5).
  exists k. split; [exact Hk|]. cbv zeta. rewrite HC, HM. auto.
Qed.

Lemma ptr_facts b p a : 0 < a -> b = p + a - p mod a -> b mod a = 0 /\ p < b <= p + a.
Proof.
  intros Ha ->. pose proof (Z.mod_pos_bound p a Ha). split; [|lia].
  replace (p + a - p mod a) with ((p / a + 1) * a).
  - apply Z.mod_mul; lia.
  - pose proof (Z.div_mod p a ltac:(lia)). nia.
Qed.

(** C19: alignment, containment, disjointness, and where create writes. *)
Lemma create_layout al z i m :
  sane z -> m_blocks m = [] -> m_writes m = [] ->
  let m' := memory (create al z i m) in
  reserved (m_blocks m') ->
  (forall b, In b (m_blocks m') ->
     In (b_size b, b_align b) (requests z) /\
     b_ptr b mod b_align b = 0 /\
     within (b_ptr b) (b_size b) (b_base b) (b_size b + b_align b)) /\
  (forall x y b c, x <> y -> nth_error (m_blocks m') x = Some b -> nth_error (m_blocks m') y = Some c ->
     apart (b_ptr b) (b_size b) (b_ptr c) (b_size c)) /\
  (forall a l, In (a, l) (m_writes m') ->
     exists b, In b (m_blocks m') /\ b_base b <> 0 /\ within a l (b_base b) (b_size b + b_align b)).
Proof.
  intros Hz H0 H1. destruct (create_mem al z i m) as (k & Hk & R1 & R2 & R3 & _).
  cbv zeta in *. rewrite R1, R2, H0, H1. cbn [app]. intros HR.
  set (bs := made _ _ _) in *.
  assert (HB : forall b, In b bs -> In (b_size b, b_align b) (requests z) /\ 0 < b_size b /\ 0 < b_align b /\
     b_ptr b mod b_align b = 0 /\ b_base b < b_ptr b <= b_base b + b_align b).
  { intros b Hb. destruct (made_shape _ _ _ _ Hb) as ((s & a & Hin & Es & Ea) & Ep).
    apply firstn_In' in Hin. destruct (requests_ok z s a Hz Hin) as [Hs Ha].
    rewrite Es, Ea. split; [exact Hin|]. split; [lia|]. split; [lia|]. rewrite Ea in Ep.
    apply ptr_facts; [lia|exact Ep]. }
  split; [|split].
  - intros b Hb. destruct (HB b Hb) as (? & ? & ? & ? & ?). unfold within. repeat split; auto; lia.
  - intros x y b c Hxy Hb Hc. pose proof (HR _ _ _ _ Hxy Hb Hc) as D. unfold apart in *.
    apply nth_error_In in Hb, Hc. destruct (HB b Hb) as (? & ? & ? & ? & ?), (HB c Hc) as (? & ? & ? & ? & ?). lia.
  - intros a l Hw. apply in_flat_map in Hw as (b & Hb & Hw). exists b. split; auto.
    split; [exact (proj1 (Forall_forall _ _) R3 b Hb)|].
    destruct (HB b Hb) as (? & ? & ? & ? & ?). unfold within.
    destruct Hw as [Hw|[Hw|[]]]; injection Hw as <- <-; lia.
Qed.

(** The decoder state and the decoder data lie one after the other in the persistent block. *)
Lemma dec_data_inside al z i m b :
  sane z -> m_blocks m = [] -> z_state z mod 8 = 0 ->
  let m' := memory (create al z i m) in
  nth_error (m_blocks m') 2 = Some b ->
  dec_data_ptr z b mod 8 = 0 /\
  within (dec_data_ptr z b) (z_dec z) (b_ptr b) (b_size b) /\
  apart (b_ptr b) (z_state z) (dec_data_ptr z b) (z_dec z).
Proof.
  intros Hz H0 H8. destruct (create_mem al z i m) as (k & Hk & R1 & _).
  cbv zeta in *. rewrite R1, H0. cbn [app].
  destruct k as [|[|[|k]]]; try (cbn; discriminate).
  unfold requests. cbn [firstn mem_tables made nth_error]. intros [= <-].
  unfold dec_data_ptr. cbn [b_ptr b_size b_align]. destruct Hz as (A & B & C & D & F).
  unfold IN_BUF_SIZE in *.
  assert (HU : u32 (u32 (z_state z + z_dec z) + 18560) = z_state z + z_dec z + 18560).
  { unfold u32, to_u. rewrite (Z.mod_small (z_state z + z_dec z)) by lia. apply Z.mod_small. lia. }
  rewrite HU. set (p := al _ _ _). clearbody p.
  destruct (ptr_facts _ p 8 ltac:(lia) eq_refl) as [P1 P2]. set (q := p + 8 - p mod 8) in *. clearbody q.
  unfold within, apart. repeat split; try lia.
  replace (q + (z_state z + z_dec z + 18560) - (z_dec z + 18560)) with (q + z_state z) by lia.
  rewrite Z.add_mod, P1, H8 by lia. reflexivity.
Qed.

(** C20 *)
Lemma create_failure al z i m k s a :
  nth_error (requests z) k = Some (s, a) -> al (m_calls m + k)%nat s a = 0 ->
  code (create al z i m) = E_MEM_ALLOC.
Proof.
  intros Hn Ha. destruct (create_mem al z i m) as (k' & Hk' & _ & _ & R3 & R4). cbv zeta in *.
  destruct R4 as [[? Ek]|[? _]]; auto. exfalso. subst k'.
  assert (L : length (requests z) = 6%nat) by reflexivity.
  rewrite firstn_all2 in R3 by lia.
  assert (G : forall ts n k s a, nth_error ts k = Some (s, a) -> al (n + k)%nat s a = 0 ->
     Forall (fun b => b_base b <> 0) (made al n ts) -> False).
  { clear. induction ts as [|[s' a'] ts IH]; intros n [|k] s a Hn Ha HF; cbn in Hn; try discriminate;
      inversion HF; subst.
    - injection Hn as -> ->. rewrite Nat.add_0_r in Ha. cbn in *. auto.
    - eapply (IH (S n) k); eauto. rewrite <- Ha. f_equal. lia. }
  eapply G; eauto.
Qed.

Lemma create_code al z i m : code (create al z i m) = 0 \/ code (create al z i m) = E_MEM_ALLOC.
Proof. destruct (create_mem al z i m) as (k & _ & _ & _ & _ & [[? _]|[? _]]); auto. Qed.

Lemma create_success al z i m :
  (forall n s a, al n s a <> 0) -> code (create al z i m) = 0.
Proof.
  intros H. destruct (create_mem al z i m) as (k & _ & _ & _ & _ & [[? _]|[_ (s & a & _ & E)]]); auto.
  exfalso. exact (H _ _ _ E).
Qed.

(** ** Deletion *)

(** The caller's table after a run of allocations that fits. *)
Lemma run_table al ts : forall m,
  (m_count m + Z.of_nat (length ts) <= 100) -> 0 <= m_count m -> length (m_arr m) = 100%nat ->
  let r := snd (alloc_tables al ts m) in
  exists bs, m_blocks r = m_blocks m ++ bs /\
  m_count r = m_count m + Z.of_nat (length bs) /\
  firstn (Z.to_nat (m_count r)) (m_arr r) = firstn (Z.to_nat (m_count m)) (m_arr m) ++ map b_base bs /\
  length (m_arr r) = 100%nat /\ m_oob r = m_oob m /\ m_freed r = m_freed m /\
  Forall (fun b => b_base b <> 0) bs /\
  (fst (alloc_tables al ts m) = 0 -> length bs = length ts).
Proof.
  induction ts as [|[s a] ts IH]; intros m Hc H0 HL.
  - cbn. exists []. rewrite !app_nil_r, Z.add_0_r. repeat split; auto.
  - cbn [alloc_tables]. unfold alloc_one. set (p := al _ _ _). clearbody p.
    unfold put_slot. cbn [m_count m_arr m_calls m_blocks m_writes m_freed m_oob].
    cbn [length] in Hc.
    replace ((0 <=? m_count m) && (m_count m <? ARR)) with true by (unfold ARR; lia).
    cbn [m_count m_arr m_calls m_blocks m_writes m_freed m_oob].
    set (n := Z.to_nat (m_count m)) in *.
    assert (Hn : (n < 100)%nat) by lia.
    assert (LA : length (firstn n (m_arr m) ++ p :: skipn (S n) (m_arr m)) = 100%nat)
      by (rewrite app_length; cbn [length]; rewrite firstn_length, skipn_length; lia).
    assert (F0 : firstn n (firstn n (m_arr m) ++ p :: skipn (S n) (m_arr m)) = firstn n (m_arr m))
      by (rewrite firstn_app, firstn_firstn, firstn_length, Nat.min_id;
          replace (n - Nat.min n (length (m_arr m)))%nat with 0%nat by lia; cbn; apply app_nil_r).
    destruct (p =? 0) eqn:E.
    + cbn [fst snd m_count m_arr m_calls m_blocks m_writes m_freed m_oob]. exists [].
      cbn [length map Z.of_nat]. rewrite !app_nil_r, Z.add_0_r. fold n. rewrite F0. repeat split; auto. discriminate.
    + match goal with |- context [alloc_tables al ts ?mm] =>
        assert (HU : m_count mm = m_count m + 1) by (cbn; unfold u32, to_u; apply Z.mod_small; lia);
        destruct (IH mm) as (bs & B1 & B2 & B3 & B4 & B5 & B6 & B7 & B8);
          [rewrite HU; lia|rewrite HU; lia|exact LA|]
      end.
      rewrite HU in *. cbn [m_arr m_blocks m_oob m_freed] in *.
      eexists (_ :: bs). rewrite B1, <- app_assoc. split; [reflexivity|].
      split; [rewrite B2; cbn [length]; lia|]. split.
      { rewrite B3. replace (Z.to_nat (m_count m + 1)) with (S n) by lia.
        cbn [map b_base]. replace (S n) with (n + 1)%nat by lia.
        rewrite firstn_app, firstn_firstn, firstn_length.
        replace (Nat.min (n + 1) n) with n by lia.
        replace (n + 1 - Nat.min n (length (m_arr m)))%nat with 1%nat by lia.
        cbn [firstn]. rewrite <- app_assoc. reflexivity. }
      repeat split; auto. constructor; [cbn; lia|assumption].
      intros HH. cbn [length]. f_equal. auto.
Qed.

Lemma free_all l : forall n, Forall (fun p => p <> 0) (firstn n l) -> (n <= length l)%nat ->
  free_from n l = rev (firstn n l).
Proof.
  induction n as [|n IH]; intros HF HL; [reflexivity|].
  cbn [free_from].
  assert (E : firstn (S n) l = firstn n l ++ [nth n l 0]).
  { clear - HL. revert n HL. induction l as [|x l IHl]; intros [|n] HL; cbn in *; try lia; auto.
    f_equal. apply IHl. lia. }
  rewrite E in *. rewrite rev_app_distr. apply Forall_app in HF as [HF H1]. inversion H1; subst.
  replace (nth n l 0 =? 0) with false by lia. cbn [rev app]. f_equal. apply IH; auto. lia.
Qed.

Lemma create_delete al z i :
  let m := memory (create al z i fresh_mem) in
  m_oob (delete m) = false /\
  m_freed (delete m) = rev (map b_base (m_blocks m)) /\
  (code (create al z i fresh_mem) = 0 -> length (m_blocks m) = 6%nat) /\
  Forall (fun b => b_base b <> 0) (m_blocks m).
Proof.
  cbv zeta. destruct (create_allocs al z i fresh_mem) as [HC HM]. rewrite HC, HM.
  destruct (run_table al (requests z) fresh_mem) as (bs & B1 & B2 & B3 & B4 & B5 & B6 & B7 & B8);
    [cbn; lia|cbn; lia|reflexivity|].
  set (r := snd _) in *. clearbody r.
  change (m_blocks fresh_mem) with (@nil block) in *. cbn [app] in B1.
  change (Z.to_nat (m_count fresh_mem)) with 0%nat in B3. cbn [firstn app] in B3.
  change (m_count fresh_mem) with 0 in *. change (m_oob fresh_mem) with false in *.
  change (m_freed fresh_mem) with (@nil Z) in *.
  assert (HLb : (length bs <= 100)%nat).
  { apply (f_equal (@length Z)) in B3. rewrite firstn_length, map_length in B3. lia. }
  assert (HS : s32 (m_count r) = m_count r).
  { unfold s32, to_s, to_u. rewrite B2, Z.mod_small by lia. destruct (_ <? _) eqn:?; lia. }
  unfold delete. cbn [m_oob m_freed m_arr]. rewrite HS, B5, B6. cbn [app orb].
  split; [unfold ARR; lia|]. split; [|split].
  - rewrite free_all, B3; [rewrite B1; reflexivity| |lia].
    rewrite B3. apply Forall_map. exact B7.
  - rewrite B1. exact B8.
  - rewrite B1. exact B7.
Qed.

(** ** The sampling ratio *)

Lemma ratio_supported c :
  let s := c_sfs c in
  ratio_of s <> None ->
  exists e c', get_sampling_ratio c = Some (e, c') /\
  (e = 0 \/ e = E_RATIO) /\
  c_sfs c' = c_sfs c /\ c_ofs c' = c_ofs c /\
  (e = 0 -> c_up c' * c_sfs c = c_down c' * c_ofs c /\ c_flen c' * c_down c' = 1024 * c_up c' /\
     (c_resamp c' = 0 <-> c_ofs c = c_sfs c) /\ 1 <= c_down c' <= 2 /\ 1 <= c_up c' <= 3) /\
  (e = E_RATIO -> c_up c' = c_up c /\ c_down c' = c_down c).
Proof.
  cbv zeta. unfold get_sampling_ratio. cbn [c_sfs c_ofs c_down c_up s_c_ratio]. intros H.
  destruct (ratio_of (c_sfs c)) as [[[o dn] up]|] eqn:E; [clear H|congruence].
  destruct (negb (c_ofs c =? o)) eqn:N; eexists _, _; (split; [reflexivity|]);
    cbn [c_sfs c_ofs c_down c_up c_flen c_resamp]; (split; [auto|]); (split; [reflexivity|]);
    (split; [reflexivity|]); (split; [|auto; try discriminate]).
  - intros Q; discriminate Q.
  - intros _. unfold ratio_of in E.
    repeat match type of E with context [if ?b then _ else _] => destruct b eqn:? end;
      try discriminate; injection E as <- <- <-;
      cbn [orb]; change (Z.quot (1024 * 1) 1) with 1024; change (Z.quot (1024 * 3) 2) with 1536;
      change (Z.quot (1024 * 2) 1) with 2048; change (Z.quot (1024 * 3) 1) with 3072;
      repeat match goal with |- context [if ?b then _ else _] => destruct b eqn:? end;
      cbn [s_c_ratio c_sfs c_ofs c_down c_up c_flen c_resamp] in *;
      repeat split; intros; lia.
Qed.
(** ** Rates at the interface *)

Definition stored (i : incfg) : dcfg := snd (fst (set_config_params (default_config zero_cfg) i)).
Definition after (i : incfg) : incfg := snd (set_config_params (default_config zero_cfg) i).

Lemma create_conf al z i m : (forall n s a, al n s a <> 0) ->
  conf (create al z i m) = Some (stored i) /\ input (create al z i m) = after i.
Proof.
  intros H. unfold create, stored, after.
  assert (HA : exists b m1, alloc_one al (z_api z) 4 m = (Some b, m1)).
  { unfold alloc_one.
    replace (al (m_calls m) (z_api z) 4 =? 0) with false by (specialize (H (m_calls m) (z_api z) 4); lia).
    eexists _, _; reflexivity. }
  destruct HA as (b & m1 & ->).
  destruct (set_config_params _ i) as [[e c] i'].
  destruct (alloc_one al (tabs_size z) 4 _) as [[b2|] m2]; [|split; reflexivity].
  destruct (alloc_tables al (mem_tables z) m2) as [e3 m3]; split; reflexivity.
Qed.

Lemma stored_rates i : valid i ->
  c_up (stored i) = 1 /\ c_down (stored i) = 1 /\
  c_ofs (stored i) = (if i_resamp i =? 0 then 48000 else i_fs i) /\
  i_resamp (after i) = i_resamp i /\ i_fs (after i) = i_fs i.
Proof.
  intros V. unfold stored, after.
  destruct (settings_valid i V) as (c & i' & E & _ & _ & _ & _ & _ & _ & H). rewrite E. exact H.
Qed.

Lemma rate_reported i fs : valid i -> (i_resamp i = 1 -> ratio_of fs <> None \/ fs = i_fs i) ->
  exists c' i', init_rate fs (stored i) (after i) = Some (c', i') /\
  samples_out fs c' * fs = 1024 * reported_rate fs c' i'.
Proof.
  intros V H. destruct (stored_rates i V) as (U & D & O & R & F).
  unfold init_rate. rewrite R, F. destruct (i_resamp i =? 1) eqn:E1.
  - destruct (fs =? i_fs i) eqn:Ef; cbn [negb].
    + eexists _, _. split; [reflexivity|]. unfold samples_out, reported_rate.
      rewrite R, O. replace (i_resamp i =? 0) with false by lia.
      rewrite Ef. cbn [negb andb]. lia.
    + destruct H as [H|H]; [lia| |lia].
      destruct (ratio_supported (s_c_rates (stored i) (i_fs i) fs)) as (e & c' & G & He & S1 & S2 & S3 & S4);
        [exact H|]. rewrite G. eexists _, _. split; [reflexivity|].
      cbn [s_c_rates c_sfs c_ofs c_up c_down] in *. unfold samples_out, reported_rate. rewrite S2.
      destruct He as [-> | ->].
      * destruct (S3 eq_refl) as (A & B & C & Dn & Up). cbn [Z.eqb negb]. rewrite R.
        replace (i_resamp i =? 0) with false by lia.
        replace (c_resamp c' =? 0) with false by lia. rewrite Ef. cbn [negb andb].
        replace (1024 * c_up c') with (c_flen c' * c_down c') by lia.
        rewrite Z.quot_mul by lia. nia.
      * destruct (S4 eq_refl) as (A & B). change (E_RATIO =? 0) with false. cbn [negb s_i_resamp i_resamp Z.eqb].
        rewrite A, B, U, D. destruct (_ && _); [|lia]. change (Z.quot (1024 * 1) 1) with 1024. lia.
  - eexists _, _. split; [reflexivity|]. unfold samples_out, reported_rate.
    cbn [s_c_rates c_ofs]. rewrite Z.eqb_refl. cbn [negb andb]. rewrite R. destruct (negb _); lia.
Qed.

(** ** The caller's structure *)

Lemma after_unchanged i : after i = i \/
  after i = s_i_tl1 i (- Z.shiftr (i_tl1 i) 2) /\ i_tl0 i = 1.
Proof.
  unfold after. steps; cbn [fst snd]; auto; right; split; auto; lia.
Qed.

(** ** Witnesses *)

(** A configuration with every setting invalid, and a plain one. *)
Definition bad_cfg : incfg := mkIn 17 99 1 1000 0 77 100 0 0.
Definition plain_cfg : incfg := mkIn 24 3 1 96 1 2 (-1) 1 48000.
(** An allocator that spaces its blocks by 2^24 bytes. *)
Definition spaced : allocator := fun n _ _ => 2 ^ 24 * (Z.of_nat n + 1).
Definition small_sizes : sizes := mkSz 4096 4096 8192 8.

Lemma bad_accepted al z m : (forall n s a, al n s a <> 0) ->
  ~ pcm_ok (i_wdsz bad_cfg) /\ ~ effect_ok (i_effect bad_cfg) /\ ~ loud_ok (i_tl0 bad_cfg) (i_tl1 bad_cfg) /\
  ~ layout_ok (i_cicp bad_cfg) /\ ~ preset_ok (i_preset bad_cfg) /\ typed bad_cfg /\
  code (create al z bad_cfg m) = 0.
Proof.
  intros H. unfold pcm_ok, effect_ok, loud_ok, layout_ok, preset_ok, typed.
  cbn [bad_cfg i_wdsz i_effect i_tl0 i_tl1 i_cicp i_preset].
  repeat (split; [lia|]). apply create_success. exact H.
Qed.

Lemma negative_stored al z m : (forall n s a, al n s a <> 0) ->
  let i := mkIn 16 0 0 0 0 (-5) (-7) 0 0 in
  typed i /\ code (create al z i m) = 0 /\
  exists c, conf (create al z i m) = Some c /\ c_cicp c = -5 /\ c_preset c = -7.
Proof.
  intros H i. destruct (create_conf al z i m H) as [E _]. rewrite E.
  split; [unfold typed; cbn; lia|]. split; [apply create_success; exact H|].
  eexists; split; [reflexivity|]. vm_compute. split; reflexivity.
Qed.

Lemma loudness_zero al z m : (forall n s a, al n s a <> 0) ->
  let i := mkIn 16 0 1 1000 0 0 (-1) 0 0 in
  typed i /\ code (create al z i m) = 0 /\ exists c, conf (create al z i m) = Some c /\ c_tl c = 0.
Proof.
  intros H i. destruct (create_conf al z i m H) as [E _]. rewrite E.
  split; [unfold typed; cbn; lia|]. split; [apply create_success; exact H|].
  eexists; split; [reflexivity|]. vm_compute. reflexivity.
Qed.

(** A valid configuration used twice. *)
Lemma second_create al z m : (forall n s a, al n s a <> 0) ->
  let i := mkIn 16 0 1 96 0 0 (-1) 0 0 in
  let r1 := create al z i m in
  let r2 := create al z (input r1) (memory r1) in
  valid i /\ (exists c, conf r1 = Some c /\ c_tl c = -24 /\ c_tlset c = 1) /\
  ~ valid (input r1) /\ (exists c, conf r2 = Some c /\ c_tl c = 0 /\ c_tlset c = 0).
Proof.
  intros H i r1 r2. destruct (create_conf al z i m H) as [E1 E2]. fold r1 in E1, E2.
  destruct (create_conf al z (input r1) (memory r1) H) as [E3 _]. fold r2 in E3.
  rewrite E1, E2 in *. rewrite E3.
  split; [unfold valid, pcm_ok, effect_ok, loud_ok, layout_ok, preset_ok; cbn; lia|].
  split; [eexists; split; [reflexivity|]; vm_compute; split; reflexivity|].
  split; [|eexists; split; [reflexivity|]; vm_compute; split; reflexivity].
  intros (_ & _ & L & _). revert L. unfold loud_ok. vm_compute (i_tl0 (after i)). vm_compute (i_tl1 (after i)). lia.
Qed.

(** Seventeen decoders made with one structure. *)
Fixpoint creates (n : nat) (al : allocator) (z : sizes) (i : incfg) (m : mem) : mem :=
  match n with O => m | S n => creates n al z i (memory (create al z i m)) end.

Lemma creates_count al z i : (forall n s a, al n s a <> 0) -> forall n m,
  m_count m = 6 * Z.of_nat (16 - n) -> (n <= 16)%nat -> length (m_arr m) = 100%nat ->
  let r := creates n al z i m in m_count r = 96 /\ length (m_arr r) = 100%nat.
Proof.
  intros H. induction n as [|n IH]; intros m Hc Hn HL.
  - cbn [creates]. split; [rewrite Hc; reflexivity|exact HL].
  - cbn [creates]. destruct (create_allocs al z i m) as [HC HM].
    destruct (run_table al (requests z) m) as (bs & B1 & B2 & B3 & B4 & B5 & B6 & B7 & B8);
      [cbn [requests mem_tables length]; lia|lia|exact HL|].
    rewrite <- HM in *. rewrite <- HC, create_success in B8 by exact H.
    rewrite B8 in B2 by reflexivity. apply IH; [|lia|exact B4].
    rewrite B2, Hc. change (length (requests z)) with 6%nat. lia.
Qed.

Lemma table_overflow al z i : (forall n s a, al n s a <> 0) ->
  m_oob (creates 17 al z i fresh_mem) = true.
Proof.
  intros H. replace (creates 17 al z i fresh_mem)
    with (memory (create al z i (creates 16 al z i fresh_mem))).
  2:{ reflexivity. }
  destruct (creates_count al z i H 16 fresh_mem) as [C L]; [reflexivity|lia|reflexivity|].
  set (m := creates 16 al z i fresh_mem) in *. clearbody m.
  destruct (create_allocs al z i m) as [_ ->].
  assert (G : forall ts m, (forall n s a, al n s a <> 0) -> 96 <= m_count m -> (100 < m_count m -> m_oob m = true) -> m_oob m = true \/ 100 < m_count m + Z.of_nat (length ts) ->
     m_count m + Z.of_nat (length ts) <= 102 -> m_oob (snd (alloc_tables al ts m)) = true).
  { clear. induction ts as [|[s a] ts IH]; intros m H HC HI HO HB.
    - cbn in *. destruct HO as [?|?]; [auto|apply HI; lia].
    - cbn [alloc_tables]. unfold alloc_one. pose proof (H (m_calls m) s a) as Hp.
      set (p := al (m_calls m) s a) in *. clearbody p.
      replace (p =? 0) with false by lia. cbn [length] in *.
      unfold put_slot. cbn [m_count m_arr m_calls m_blocks m_writes m_freed m_oob].
      destruct ((0 <=? m_count m) && (m_count m <? ARR)) eqn:Q;
        cbn [m_count m_arr m_calls m_blocks m_writes m_freed m_oob]; unfold ARR in Q;
        (assert (HU : u32 (m_count m + 1) = m_count m + 1) by (unfold u32, to_u; apply Z.mod_small; lia)).
      + apply IH; cbn [m_count m_oob]; rewrite ?HU; auto; try lia.
        destruct HO; [left; auto|right; lia].
      + destruct ts as [|t ts]; [reflexivity|].
        cbn [length] in *. apply IH; cbn [m_count m_oob length]; rewrite ?HU; auto; lia. }
  apply G; auto; [lia|lia|right|]; rewrite C; cbn; lia.
Qed.

Lemma delete_twice al z i : (forall n s a, al n s a <> 0) ->
  let m := memory (create al z i fresh_mem) in
  m_freed (delete (delete m)) = rev (map b_base (m_blocks m)) ++ rev (map b_base (m_blocks m)) /\
  length (m_blocks m) = 6%nat.
Proof.
  intros H m. destruct (create_delete al z i) as (_ & F & L & _). fold m in F, L.
  split; [|apply L; apply create_success; exact H].
  assert (F0 : m_freed m = []).
  { unfold m. destruct (create_allocs al z i fresh_mem) as [_ ->].
    destruct (alloc_run al (requests z) fresh_mem) as (k & _ & _ & _ & _ & R & _). exact R. }
  revert F. unfold delete. cbn [m_freed m_arr m_count]. rewrite F0. cbn [app]. intros ->. reflexivity.
Qed.

(** A multiple of 8 becomes an odd multiple of 4. *)
Lemma api_object_misaligned al z i b : m_blocks (memory (create al z i fresh_mem)) <> [] ->
  nth_error (m_blocks (memory (create al z i fresh_mem))) 0 = Some b ->
  b_base b mod 8 = 0 -> b_ptr b mod 8 = 4 /\ b_size b = z_api z.
Proof.
  intros _. destruct (create_mem al z i fresh_mem) as (k & Hk & R1 & _). cbv zeta in R1.
  rewrite R1. change (m_blocks fresh_mem) with (@nil block). cbn [app].
  destruct k as [|k]; [discriminate|]. unfold requests. cbn [firstn made nth_error].
  intros [= <-]. cbn [b_base b_ptr b_size b_align]. set (p := al _ _ _). clearbody p. intros H8.
  split; auto. assert (p mod 4 = 0).
  { pose proof (Z.div_mod p 8 ltac:(lia)). pose proof (Z.div_mod p 4 ltac:(lia)).
    pose proof (Z.mod_pos_bound p 4 ltac:(lia)). lia. }
  rewrite H. rewrite Z.sub_0_r, Z.add_mod, H8 by lia. reflexivity.
Qed.

(** Stream rates outside the table. *)
Lemma unknown_rate i fs : valid i -> i_resamp i = 1 -> ratio_of fs = None -> fs <> i_fs i ->
  exists c' i', init_rate fs (stored i) (after i) = Some (c', i') /\
  c_up c' = 1 /\ c_down c' = 1 /\ samples_out fs c' = 1024 /\ reported_rate fs c' i' = i_fs i.
Proof.
  intros V R1 HN HF. destruct (stored_rates i V) as (U & D & O & R & F).
  unfold init_rate, get_sampling_ratio. rewrite R, R1, F. cbn [Z.eqb negb].
  replace (fs =? i_fs i) with false by lia. cbn [negb].
  cbn [s_c_ratio s_c_rates c_sfs c_down c_up c_resamp c_flen]. rewrite HN, D. cbn [Z.eqb Pos.eqb].
  eexists _, _. split; [reflexivity|]. cbn [s_c_ratio s_c_rates c_up c_down].
  split; [exact U|]. split; [first [reflexivity|exact D]|].
  unfold samples_out, reported_rate. cbn [s_c_ratio s_c_rates c_ofs c_resamp c_up c_down negb].
  rewrite R, R1. cbn [Z.eqb negb]. split; [|reflexivity].
  rewrite ?U, ?D. destruct (_ && _); reflexivity.
Qed.

(** A second init with another stream keeps the factors of the first. *)
Lemma stale_ratio : let i := mkIn 16 0 0 0 0 0 (-1) 1 48000 in
  valid i /\ exists c1 i1 c2 i2, init_rate 24000 (stored i) (after i) = Some (c1, i1) /\
  init_rate 12000 c1 i1 = Some (c2, i2) /\ c_up c2 = 2 /\ c_down c2 = 1.
Proof.
  split; [unfold valid, pcm_ok, effect_ok, loud_ok, layout_ok, preset_ok; cbn; lia|].
  eexists _, _, _, _. split; [vm_compute; reflexivity|]. split; [vm_compute; reflexivity|].
  split; reflexivity.
Qed.

Lemma spaced_reserved : reserved (m_blocks (memory (create spaced small_sizes plain_cfg fresh_mem))).
Proof.
  set (l := m_blocks _). vm_compute in l. subst l.
  intros i j b c H Hb Hc. unfold apart.
  assert (K : forall k x, nth_error (A:=block) [mkB 4096 4 16777216 16777220; mkB 160 4 33554432 33554436;
      mkB 30848 8 50331648 50331656; mkB 3932160 8 67108864 67108872; mkB 18560 8 83886080 83886088;
      mkB 196608 8 100663296 100663304] k = Some x ->
    b_base x = 16777216 * (Z.of_nat k + 1) /\ 0 <= b_size x + b_align x <= 16777216).
  { intros k x. do 6 (destruct k as [|k]; [cbn [nth_error]; intros [= <-]; cbn [b_base b_size b_align]; lia|]).
    destruct k; discriminate. }
  destruct (K i b Hb), (K j c Hc). lia.
Qed.
