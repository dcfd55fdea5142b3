(** * Lem_OamFrame: the object metadata payload with intra frames, from the bits to the
    renderer's tables *)

From Coq Require Import ZArith List Lia Bool SpecFloat.
From Verif Require Import Bits BitBuf Prog Wp Loops Leaf Config Lem_Dmx F32 Oam Spec_Oam Lem_OamRT Lem_OamRT2.
Import ListNotations.
Open Scope Z_scope.
Open Scope prog_scope.

(** An object's integer fields at index [k] of the tables. *)
Definition object_at (uni dyn : bool) (w : raws) (k : nat) (o : obj) : Prop :=
  nth_error (r_az w) k = Some (b_az o) /\ nth_error (r_el w) k = Some (b_el o) /\
  nth_error (r_rad w) k = Some (b_rad o) /\ nth_error (r_gain w) k = Some (b_gain o) /\
  nth_error (r_sw w) k = Some (b_sw o) /\
  (uni = false -> nth_error (r_sh w) k = Some (b_sh o) /\ nth_error (r_sd w) k = Some (b_sd o)) /\
  (dyn = true -> nth_error (r_pri w) k = Some (b_pri o)).

(** What the renderer reads about the object at index [k]. *)
Definition placed_at (pw : powers) (uni dyn : bool) (d : dscs) (k : nat) (o : obj) : Prop :=
  nth_error (d_az d) k = Some (az_degrees (b_az o)) /\ nth_error (d_el d) k = Some (el_degrees (b_el o)) /\
  nth_error (d_rad d) k = Some (clamp (lit 5 10) (lit 16 1) (f_div (p_rad pw (b_rad o)) (lit 2 1))) /\
  nth_error (d_gain d) k = Some (clamp (lit 4 1000) (lit 5957 1000) (p_gain pw (b_gain o))) /\
  nth_error (d_sw d) k = Some (width_degrees (b_sw o)) /\
  (uni = false -> nth_error (d_sh d) k = Some (height_degrees (b_sh o)) /\
     nth_error (d_sd d) k = Some (clamp (lit 0 1) (lit 155 10) (f_sub (p_dep pw (b_sd o)) (lit 5 10)))) /\
  (dyn = true -> nth_error (d_pri d) k = Some (lit (b_pri o) 1)).

Lemma written_at uni dyn w b os w' i o : written uni dyn w b os w' -> nth_error os i = Some o ->
  object_at uni dyn w' (b + i) o.
Proof.
  intros ((A1 & A2 & A3 & A4) & A5 & A6 & A7) E.
  assert (M : forall (g : obj -> Z) l l', put l b (map g os) l' -> nth_error l' (b + i) = Some (g o)).
  { intros g l l' (_ & P & _). apply P. rewrite nth_error_map, E. reflexivity. }
  unfold object_at. split; [|split; [|split; [|split; [|split; [|split]]]]]; eauto.
  - intros ->. destruct A6. split; eauto.
  - intros ->. eauto.
Qed.

Definition dlen (d : dscs) (N : nat) : Prop :=
  (length (d_az d) = N /\ length (d_el d) = N /\ length (d_rad d) = N /\ length (d_gain d) = N) /\
  (length (d_sw d) = N /\ length (d_sh d) = N /\ length (d_sd d) = N /\ length (d_pri d) = N).

Lemma nth_slice {A} (l : list A) b n j : (j < n)%nat -> nth_error (firstn n (skipn b l)) j = nth_error l (b + j).
Proof.
  intros H. revert b l. revert n j H. assert (F : forall n j (l : list A), (j < n)%nat -> nth_error (firstn n l) j = nth_error l j).
  { induction n; intros j l Hj; [lia|]. destruct l, j; cbn; auto. apply IHn. lia. }
  assert (K : forall b j (l : list A), nth_error (skipn b l) j = nth_error l (b + j)).
  { induction b; intros j l; cbn; auto. destruct l; cbn; auto. destruct j; auto. }
  intros n j H b l. rewrite F, K by auto. reflexivity.
Qed.

Lemma nth_firstn {A} (l : list A) n j : (j < n)%nat -> nth_error (firstn n l) j = nth_error l j.
Proof. intros H. exact (nth_slice l 0 n j H). Qed.

Lemma slice_len {A} (l : list A) b n : (b + n <= length l)%nat -> length (firstn n (skipn b l)) = n.
Proof. intros H. rewrite firstn_length_le; auto. rewrite skipn_length. lia. Qed.

(** Descaling and limiting, table by table. *)
Lemma descale_one g (raw : list Z) out b n : (b + n <= length out)%nat -> (b + n <= length raw)%nat ->
  exists out', descale_tab g (Z.of_nat b) (Z.of_nat n) raw out = Ret out' /\ length out' = length out /\
    (forall i v, (i < n)%nat -> nth_error raw (b + i) = Some v -> nth_error out' (b + i) = Some (g v)).
Proof.
  intros H1 H2. destruct (descale_run g raw out b (firstn n (skipn b raw))) as (o & E & P).
  - intros j x Ej. assert (j < n)%nat. { rewrite <- (slice_len raw b n H2). apply nth_error_Some. congruence. }
    rewrite nth_slice in Ej by auto. exact Ej.
  - rewrite slice_len by auto. exact H1.
  - rewrite slice_len in E by auto. exists o. split; [exact E|]. destruct P as (P1 & P2 & _). split; [exact P1|].
    intros i v Hi Ev. apply P2. rewrite nth_error_map, nth_slice, Ev by auto. reflexivity.
Qed.

Lemma limit_one lo hi n t : (n <= length t)%nat ->
  exists t', limit_tab lo hi (Z.of_nat n) t = Ret t' /\ length t' = length t /\
    (forall i v, (i < n)%nat -> nth_error t i = Some v -> nth_error t' i = Some (clamp lo hi v)).
Proof.
  intros H. destruct (limit_run lo hi n t H) as (t' & E & P1 & P2 & _). exists t'. split; [exact E|]. split; [exact P1|].
  intros i v Hi Ev. apply (P2 i). rewrite nth_error_map. rewrite (nth_firstn t n i) by auto. rewrite Ev. reflexivity.
Qed.

Lemma descale_all pw c w d b n N : wlen w N -> dlen d N -> (b + n <= N)%nat ->
  exists d', descale pw c (Z.of_nat b) (Z.of_nat n) w d = Ret d' /\ dlen d' N /\
    forall i, (i < n)%nat -> forall v,
      (nth_error (r_az w) (b + i) = Some v -> nth_error (d_az d') (b + i) = Some (g_az v)) /\
      (nth_error (r_el w) (b + i) = Some v -> nth_error (d_el d') (b + i) = Some (g_el v)) /\
      (nth_error (r_rad w) (b + i) = Some v -> nth_error (d_rad d') (b + i) = Some (g_rad pw v)) /\
      (nth_error (r_gain w) (b + i) = Some v -> nth_error (d_gain d') (b + i) = Some (g_gain pw v)) /\
      (nth_error (r_sw w) (b + i) = Some v -> nth_error (d_sw d') (b + i) = Some (g_sw v)) /\
      (oc_uni c = 0 -> nth_error (r_sh w) (b + i) = Some v -> nth_error (d_sh d') (b + i) = Some (g_sh v)) /\
      (oc_uni c = 0 -> nth_error (r_sd w) (b + i) = Some v -> nth_error (d_sd d') (b + i) = Some (g_sd pw v)) /\
      (nth_error (r_pri w) (b + i) = Some v -> nth_error (d_pri d') (b + i) = Some (g_pri v)).
Proof.
  intros ((A1 & A2 & A3 & A4) & (A5 & A6 & A7 & A8)) ((B1 & B2 & B3 & B4) & (B5 & B6 & B7 & B8)) HN.
  unfold descale.
  destruct (descale_one g_pri (r_pri w) (d_pri d) b n) as (pri & -> & Lp & Hp); try lia. cbn [bind].
  destruct (descale_one g_sw (r_sw w) (d_sw d) b n) as (sw & -> & Lw & Hw); try lia. cbn [bind].
  assert (SP : exists sh sd, (if negb (oc_uni c =? 1) then
       sh <- descale_tab g_sh (Z.of_nat b) (Z.of_nat n) (r_sh w) (d_sh d) ;;
       sd <- descale_tab (g_sd pw) (Z.of_nat b) (Z.of_nat n) (r_sd w) (d_sd d) ;; Ret (sh, sd)
     else Ret (d_sh d, d_sd d)) = Ret (sh, sd) /\ length sh = N /\ length sd = N /\
     (oc_uni c = 0 -> forall i v, (i < n)%nat -> 
        (nth_error (r_sh w) (b + i) = Some v -> nth_error sh (b + i) = Some (g_sh v)) /\
        (nth_error (r_sd w) (b + i) = Some v -> nth_error sd (b + i) = Some (g_sd pw v)))).
  { destruct (Z.eqb_spec (oc_uni c) 1) as [U|U]; cbn [negb].
    - exists (d_sh d), (d_sd d). repeat split; auto; intros; lia.
    - destruct (descale_one g_sh (r_sh w) (d_sh d) b n) as (sh & -> & Lh & Hh); try lia. cbn [bind].
      destruct (descale_one (g_sd pw) (r_sd w) (d_sd d) b n) as (sd & -> & Ld & Hd); try lia. cbn [bind].
      exists sh, sd. split; [reflexivity|]. split; [congruence|]. split; [congruence|]. intros; auto. }
  destruct SP as (sh & sd & -> & Lh & Ld & HS). cbn [bind].
  destruct (descale_one (g_rad pw) (r_rad w) (d_rad d) b n) as (rad & -> & Lr & Hr); try lia. cbn [bind].
  destruct (descale_one g_el (r_el w) (d_el d) b n) as (el & -> & Le & He); try lia. cbn [bind].
  destruct (descale_one g_az (r_az w) (d_az d) b n) as (az & -> & La & Ha); try lia. cbn [bind].
  destruct (descale_one (g_gain pw) (r_gain w) (d_gain d) b n) as (gn & -> & Lg & Hg); try lia. cbn [bind].
  eexists. split; [reflexivity|]. split.
  - unfold dlen. cbn [d_az d_el d_rad d_gain d_sw d_sh d_sd d_pri]. repeat split; congruence.
  - intros i Hi v. cbn [d_az d_el d_rad d_gain d_sw d_sh d_sd d_pri].
    split; [|split; [|split; [|split; [|split; [|split; [|split]]]]]]; intros; auto; apply HS; auto.
Qed.

Lemma limit_all c n d N : dlen d N -> (n <= N)%nat ->
  exists d', limit c (Z.of_nat n) d = Ret d' /\ dlen d' N /\
    forall i, (i < n)%nat -> forall v,
      (nth_error (d_az d) i = Some v -> nth_error (d_az d') i = Some (clamp (lit (-180) 1) (lit 180 1) v)) /\
      (nth_error (d_el d) i = Some v -> nth_error (d_el d') i = Some (clamp (lit (-90) 1) (lit 90 1) v)) /\
      (nth_error (d_rad d) i = Some v -> nth_error (d_rad d') i = Some (clamp (lit 5 10) (lit 16 1) v)) /\
      (nth_error (d_gain d) i = Some v -> nth_error (d_gain d') i = Some (clamp (lit 4 1000) (lit 5957 1000) v)) /\
      (nth_error (d_sw d) i = Some v -> nth_error (d_sw d') i = Some (clamp (lit 0 1) (lit 180 1) v)) /\
      (oc_uni c = 0 -> nth_error (d_sh d) i = Some v -> nth_error (d_sh d') i = Some (clamp (lit 0 1) (lit 90 1) v)) /\
      (oc_uni c = 0 -> nth_error (d_sd d) i = Some v -> nth_error (d_sd d') i = Some (clamp (lit 0 1) (lit 155 10) v)) /\
      (nth_error (d_pri d) i = Some v -> nth_error (d_pri d') i = Some (clamp (lit 0 1) (lit 7 1) v)).
Proof.
  intros ((B1 & B2 & B3 & B4) & (B5 & B6 & B7 & B8)) HN. unfold limit.
  destruct (limit_one (lit 5 10) (lit 16 1) n (d_rad d)) as (rad & -> & Lr & Hr); try lia. cbn [bind].
  destruct (limit_one (lit (-90) 1) (lit 90 1) n (d_el d)) as (el & -> & Le & He); try lia. cbn [bind].
  destruct (limit_one (lit (-180) 1) (lit 180 1) n (d_az d)) as (az & -> & La & Ha); try lia. cbn [bind].
  destruct (limit_one (lit 4 1000) (lit 5957 1000) n (d_gain d)) as (gn & -> & Lg & Hg); try lia. cbn [bind].
  destruct (limit_one (lit 0 1) (lit 180 1) n (d_sw d)) as (sw & -> & Lw & Hw); try lia. cbn [bind].
  assert (SP : exists sd sh, (if oc_uni c =? 0 then
       sd <- limit_tab (lit 0 1) (lit 155 10) (Z.of_nat n) (d_sd d) ;;
       sh <- limit_tab (lit 0 1) (lit 90 1) (Z.of_nat n) (d_sh d) ;; Ret (sd, sh)
     else Ret (d_sd d, d_sh d)) = Ret (sd, sh) /\ length sh = N /\ length sd = N /\
     (oc_uni c = 0 -> forall i v, (i < n)%nat ->
        (nth_error (d_sh d) i = Some v -> nth_error sh i = Some (clamp (lit 0 1) (lit 90 1) v)) /\
        (nth_error (d_sd d) i = Some v -> nth_error sd i = Some (clamp (lit 0 1) (lit 155 10) v)))).
  { destruct (Z.eqb_spec (oc_uni c) 0) as [U|U].
    - destruct (limit_one (lit 0 1) (lit 155 10) n (d_sd d)) as (sd & -> & Ld & Hd); try lia. cbn [bind].
      destruct (limit_one (lit 0 1) (lit 90 1) n (d_sh d)) as (sh & -> & Lh & Hh); try lia. cbn [bind].
      exists sd, sh. split; [reflexivity|]. split; [congruence|]. split; [congruence|]. intros; auto.
    - exists (d_sd d), (d_sh d). repeat split; auto; intros; lia. }
  destruct SP as (sd & sh & -> & Lh & Ld & HS). cbn [bind].
  destruct (limit_one (lit 0 1) (lit 7 1) n (d_pri d)) as (pri & -> & Lp & Hp); try lia. cbn [bind].
  eexists. split; [reflexivity|]. split.
  - unfold dlen. cbn [d_az d_el d_rad d_gain d_sw d_sh d_sd d_pri]. repeat split; congruence.
  - intros i Hi v. cbn [d_az d_el d_rad d_gain d_sw d_sh d_sd d_pri].
    split; [|split; [|split; [|split; [|split; [|split; [|split]]]]]]; intros; auto; apply HS; auto.
Qed.

Lemma Forall_nth_error {A} (P : A -> Prop) l : (forall i x, nth_error l i = Some x -> P x) -> Forall P l.
Proof. intros H. apply Forall_forall. intros x Hx. apply In_nth_error in Hx as (i & Hi). eauto. Qed.

Lemma sample_run S fl n l : 0 <= fl -> S + fl <= 2 ^ 31 -> (n <= length l)%nat ->
  Forall (fun v => 0 <= v < S) l ->
  exists l', forP n 0 (fun i l => acc l (Z.of_nat i) fl) l = Ret l' /\ length l' = length l /\
    Forall (fun v => 0 <= v < S + fl) l' /\
    (forall i v, (i < n)%nat -> nth_error l i = Some v -> nth_error l' i = Some (v + fl)).
Proof.
  intros Hf HS HL HF.
  assert (HN : forall i v, nth_error l i = Some v -> 0 <= v < S).
  { intros i v E. apply nth_error_In in E. rewrite Forall_forall in HF. apply HF, E. }
  set (xs := map (fun v => v + fl) (firstn n l)).
  assert (LX : length xs = n) by (unfold xs; rewrite map_length, firstn_length_le; auto).
  destruct (forP_puti (fun i l => acc l (Z.of_nat i) fl) xs 0 l) as (l' & E & P1 & P2 & P3).
  - intros i l1 y Ey Hi (Q1 & Q2 & Q3). unfold xs in Ey. rewrite nth_error_map in Ey.
    assert (Hin : (i < n)%nat). { destruct (nth_error (firstn n l) i) eqn:EE; [|discriminate].
      assert ((i < length (firstn n l))%nat) by (apply nth_error_Some; congruence). rewrite firstn_length_le in H; lia. }
    rewrite (nth_firstn l n i) in Ey by auto.
    destruct (nth_error l i) as [v|] eqn:Ev; [|discriminate]. injection Ey as <-.
    assert (E1 : nth_error l1 (0 + i) = Some v).
    { rewrite Q3; [exact Ev|]. right. rewrite firstn_length_le by (rewrite LX; lia). lia. }
    unfold acc. change (Z.of_nat i) with (Z.of_nat 0 + Z.of_nat i). rewrite (aget_at l1 0 i v E1). cbn [bind].
    assert (Bv := HN i v Ev). unfold addi.
    replace ((- 2 ^ 31 <=? v + fl) && (v + fl <? 2 ^ 31)) with true
      by (symmetry; apply andb_true_intro; split; [apply Z.leb_le|apply Z.ltb_lt]; lia).
    cbn [bind]. apply aset_set1. lia.
  - rewrite LX. exact HL.
  - rewrite LX in E. exists l'. split; [exact E|]. split; [exact P1|]. split.
    2:{ intros i v Hi Ev. apply (P2 i). unfold xs. rewrite nth_error_map, nth_firstn, Ev by auto. reflexivity. }
    apply Forall_nth_error. intros i v Ev. destruct (Nat.lt_ge_cases i n) as [Hi|Hi].
    + assert (Hl : nth_error xs i <> None) by (apply nth_error_Some; lia).
      destruct (nth_error xs i) as [y|] eqn:Ey; [|congruence]. pose proof (P2 i y Ey) as E2. cbn [Nat.add] in E2. rewrite E2 in Ev. injection Ev as <-.
      unfold xs in Ey. rewrite nth_error_map, (nth_firstn l n i) in Ey by auto.
      destruct (nth_error l i) as [u|] eqn:Eu; [|discriminate]. injection Ey as <-. assert (B := HN i u Eu). lia.
    + rewrite P3 in Ev by (right; lia). assert (B := HN i v Ev). lia.
Qed.

(** ** The scales are the ones of the specification *)
Lemma range_check (f : Z -> bool) lo n : forallb (fun i => f (lo + Z.of_nat i)) (seq 0 n) = true ->
  forall v, lo <= v < lo + Z.of_nat n -> f v = true.
Proof.
  intros H v Hv. rewrite forallb_forall in H. specialize (H (Z.to_nat (v - lo))).
  rewrite Z2Nat.id in H by lia. replace (lo + (v - lo)) with v in H by lia. apply H. apply in_seq. lia.
Qed.

Definition feqb (a b : spec_float) : bool :=
  match a, b with
  | S754_zero s, S754_zero t => Bool.eqb s t
  | S754_infinity s, S754_infinity t => Bool.eqb s t
  | S754_nan, S754_nan => true
  | S754_finite s m e, S754_finite t n f => Bool.eqb s t && Pos.eqb m n && Z.eqb e f
  | _, _ => false
  end.
Lemma feqb_eq a b : feqb a b = true -> a = b.
Proof.
  destruct a, b; cbn; intros H; try discriminate; try reflexivity;
    try (apply Bool.eqb_prop in H; subst; reflexivity).
  apply andb_prop in H as (H & H3). apply andb_prop in H as (H1 & H2).
  apply Bool.eqb_prop in H1. apply Pos.eqb_eq in H2. apply Z.eqb_eq in H3. subst. reflexivity.
Qed.

Lemma az_scale v : -128 <= v < 128 -> clamp (lit (-180) 1) (lit 180 1) (g_az v) = az_degrees v.
Proof.
  intros H. apply feqb_eq.
  apply (range_check (fun v => feqb (clamp (lit (-180) 1) (lit 180 1) (g_az v)) (az_degrees v)) (-128) 256);
    [vm_compute; reflexivity|exact H].
Qed.
Lemma el_scale v : -32 <= v < 32 -> clamp (lit (-90) 1) (lit 90 1) (g_el v) = el_degrees v.
Proof.
  intros H. apply feqb_eq.
  apply (range_check (fun v => feqb (clamp (lit (-90) 1) (lit 90 1) (g_el v)) (el_degrees v)) (-32) 64);
    [vm_compute; reflexivity|exact H].
Qed.
Lemma sw_scale v : 0 <= v < 128 -> clamp (lit 0 1) (lit 180 1) (g_sw v) = width_degrees v.
Proof.
  intros H. apply feqb_eq.
  apply (range_check (fun v => feqb (clamp (lit 0 1) (lit 180 1) (g_sw v)) (width_degrees v)) 0 128);
    [vm_compute; reflexivity|exact H].
Qed.
Lemma sh_scale v : 0 <= v < 32 -> clamp (lit 0 1) (lit 90 1) (g_sh v) = height_degrees v.
Proof.
  intros H. apply feqb_eq.
  apply (range_check (fun v => feqb (clamp (lit 0 1) (lit 90 1) (g_sh v)) (height_degrees v)) 0 32);
    [vm_compute; reflexivity|exact H].
Qed.
Lemma pri_scale v : 0 <= v < 8 -> clamp (lit 0 1) (lit 7 1) (g_pri v) = lit v 1.
Proof.
  intros H. apply feqb_eq.
  apply (range_check (fun v => feqb (clamp (lit 0 1) (lit 7 1) (g_pri v)) (lit v 1)) 0 8);
    [vm_compute; reflexivity|exact H].
Qed.

(** ** One intra frame *)

(** A decoder state: tables of 96 entries, sample counters below [S]. *)
Definition sized (S : Z) (st : oamst) : Prop :=
  length (o_pres st) = 4%nat /\ wlen (o_raw st) 96 /\ dlen (o_dsc st) 96 /\
  length (o_smp st) = 96%nat /\ Forall (fun v => 0 <= v < S) (o_smp st).

Lemma put_length {A} (l l' : list A) b vs N : put l b vs l' -> length l = N -> length l' = N.
Proof. intros (H & _) E. rewrite H. exact E. Qed.

Lemma written_len uni dyn w b os w' N : written uni dyn w b os w' -> wlen w N -> wlen w' N.
Proof.
  intros ((A1 & A2 & A3 & A4) & A5 & A6 & A7) ((L1 & L2 & L3 & L4) & (L5 & L6 & L7 & L8)).
  split; [split; [|split; [|split]]|split; [|split; [|split]]].
  - exact (put_length _ _ _ _ _ A1 L1).
  - exact (put_length _ _ _ _ _ A2 L2).
  - exact (put_length _ _ _ _ _ A3 L3).
  - exact (put_length _ _ _ _ _ A4 L4).
  - exact (put_length _ _ _ _ _ A5 L5).
  - destruct uni; destruct A6 as (A6 & A8); [rewrite A6; exact L6|exact (put_length _ _ _ _ _ A6 L6)].
  - destruct uni; destruct A6 as (A6 & A8); [rewrite A8; exact L7|exact (put_length _ _ _ _ _ A8 L7)].
  - destruct dyn; [exact (put_length _ _ _ _ _ A7 L8)|rewrite A7; exact L8].
Qed.

Lemma low_delay_intra pw c uni dyn m os st S k rest :
  oc_uni c = flag uni -> oc_dyn c = flag dyn -> o_n st = Z.of_nat (length os) -> (0 < length os <= 24)%nat ->
  o_sub st = Z.of_nat (1 + k) -> (k < 4)%nat ->
  sized S st -> 0 <= oc_fl c -> S + oc_fl c <= 2 ^ 31 -> Forall legal_obj os -> fair_modes uni dyn m os ->
  k = 0%nat \/ length os = 1%nat \/ uni = false \/ m_sp m <> Fixed ->
  exists st', runA (low_delay_dec pw c st) (true :: enc_intra uni dyn m os ++ rest) = Done (st', rest) /\
    sized (S + oc_fl c) st' /\ o_n st' = o_n st /\ o_sub st' = o_sub st /\ o_pres st' = o_pres st /\
    written uni dyn (o_raw st) (k * length os) os (o_raw st') /\
    (k = 0%nat -> forall i o, nth_error os i = Some o -> placed_at pw uni dyn (o_dsc st') i o).
Proof.
  intros Eu Ed En Hn Es Hk (S1 & S2 & S3 & S4 & S5) Hfl HS HF HM HC.
  unfold low_delay_dec. cbv zeta. rewrite En, Es.
  replace ((Z.of_nat (1 + k) - 1) * Z.of_nat (length os)) with (Z.of_nat (k * length os)) by lia.
  rewrite flag_run. change (1 =? 0) with false. cbv iota.
  assert (HB : (k * length os + length os <= 96)%nat) by nia.
  destruct (intra_run c uni dyn m os (o_raw st) (o_fix st) (k * length os) 96 rest) as (w' & x' & E & W); auto; try lia.
  { destruct HC as [->|HC]; [left; reflexivity|right; exact HC]. }
  rewrite bind_assoc, runA_bind, E. clear E. cbn [bind].
  assert (W96 : wlen w' 96) by (eapply written_len; eauto).
  destruct (descale_all pw c w' (o_dsc st) (k * length os) (length os) 96) as (d & -> & D96 & HD); auto. cbn [bind].
  destruct (limit_all c (length os) d 96) as (d' & -> & D96' & HD'); auto; try lia. cbn [bind].
  rewrite Nat2Z.id.
  destruct (sample_run S (oc_fl c) (length os) (o_smp st)) as (sm & -> & L1 & F1 & _); auto; try lia. cbn [bind runA].
  eexists. split; [reflexivity|]. cbn [o_n o_sub o_pres o_raw o_dsc].
  split; [|split; [congruence|split; [congruence|split; [reflexivity|split; [exact W|]]]]].
  - unfold sized. cbn [o_pres o_raw o_dsc o_smp]. repeat (split; [assumption || congruence|]). exact F1.
  - intros -> i o Eo. cbn [Nat.mul] in *.
    assert (Hi : (i < length os)%nat) by (apply nth_error_Some; congruence).
    assert (LO : legal_obj o) by (apply nth_error_In in Eo; rewrite Forall_forall in HF; auto).
    destruct LO as (O1 & O2 & O3 & O4 & O5 & O6 & O7 & O8).
    destruct (written_at _ _ _ _ _ _ i o W Eo) as (V1 & V2 & V3 & V4 & V5 & V6 & V7). cbn [Nat.add] in *.
    assert (G := HD i Hi). assert (G' := HD' i Hi). clear HD HD'. unfold placed_at.
    split; [|split; [|split; [|split; [|split; [|split]]]]].
    + rewrite <- az_scale by auto. apply G', (G (b_az o)), V1.
    + rewrite <- el_scale by auto. apply G', (G (b_el o)), V2.
    + apply G', (G (b_rad o)), V3.
    + apply G', (G (b_gain o)), V4.
    + rewrite <- sw_scale by auto. apply G', (G (b_sw o)), V5.
    + intros ->. destruct (V6 eq_refl) as (V8 & V9). split.
      * rewrite <- sh_scale by auto. apply G'; [exact Eu|]. apply (G (b_sh o)); auto.
      * apply G'; [exact Eu|]. apply (G (b_sd o)); auto.
    + intros ->. rewrite <- pri_scale by auto. apply G', (G (b_pri o)), V7. reflexivity.
Qed.

Lemma payload_intra pw c uni dyn m os st rest :
  oc_ld c <> 0 -> oc_fl c = 1024 -> oc_uni c = flag uni -> oc_dyn c = flag dyn ->
  o_n st = Z.of_nat (length os) -> (0 < length os <= 24)%nat -> sized (2 ^ 31 - 1024) st ->
  Forall legal_obj os -> fair_modes uni dyn m os ->
  exists st', runA (oam_payload pw c 1024 st) (true :: enc_intra uni dyn m os ++ rest) = Done ((0, st'), rest) /\
    forall i o, nth_error os i = Some o ->
      object_at uni dyn (o_raw st') i o /\ placed_at pw uni dyn (o_dsc st') i o.
Proof.
  intros El Ef Eu Ed En Hn HS HF HM. unfold oam_payload.
  cbn [avail bind runA]. rewrite Ef. change (1024 =? 256) with false. change (1024 =? 512) with false.
  change (1024 =? 1024) with true. change (1024 <? 1024) with false. cbn [orb negb]. cbv iota.
  replace (Z.of_nat (length (true :: enc_intra uni dyn m os ++ rest)) <=? 0) with false
    by (symmetry; apply Z.leb_gt; cbn [length]; lia).
  unfold obj_md_dec. replace (oc_ld c =? 0) with false by (symmetry; apply Z.eqb_neq; exact El). cbn [negb].
  destruct (low_delay_intra pw c uni dyn m os (s_sub st 1) (2 ^ 31 - 1024) 0 rest) as (st' & E & _ & _ & _ & _ & W & P);
    auto; try lia.
  rewrite runA_bind, E. cbn [runA]. exists st'. split; [reflexivity|]. intros i o Eo. split; [|apply P; auto].
  apply (written_at uni dyn _ 0 os _ i o W Eo).
Qed.

(** ** Several intra frames in one access unit *)
Definition frame := option (modes * list obj).
Definition enc_frame (uni dyn : bool) (f : frame) : list bool :=
  match f with None => [false] | Some (m, os) => true :: true :: enc_intra uni dyn m os end.
Definition frame_ok (uni dyn : bool) (n : nat) (f : frame) : Prop :=
  match f with
  | None => True
  | Some (m, os) => length os = n /\ Forall legal_obj os /\ fair_modes uni dyn m os /\
      (length os = 1%nat \/ uni = false \/ m_sp m <> Fixed)
  end.

(** The [k]-th frame sent and those after it are in the slots [k], [k+1], ... *)
Fixpoint shown (uni dyn : bool) (n k : nat) (fs : list frame) (w : raws) : Prop :=
  match fs with
  | [] => True
  | None :: fs => shown uni dyn n k fs w
  | Some (_, os) :: fs =>
      (forall i o, nth_error os i = Some o -> object_at uni dyn w (k * n + i) o) /\ shown uni dyn n (S k) fs w
  end.

Definition same_below (uni dyn : bool) (j : nat) (w w' : raws) : Prop :=
  forall i o, (i < j)%nat -> object_at uni dyn w i o -> object_at uni dyn w' i o.

Lemma written_below uni dyn w b os w' : written uni dyn w b os w' -> same_below uni dyn b w w'.
Proof.
  intros (((_ & _ & A1) & (_ & _ & A2) & (_ & _ & A3) & (_ & _ & A4)) & (_ & _ & A5) & A6 & A7) i o Hi
    (B1 & B2 & B3 & B4 & B5 & B6 & B7).
  unfold object_at. rewrite A1, A2, A3, A4, A5 by (left; exact Hi).
  split; [exact B1|]. split; [exact B2|]. split; [exact B3|]. split; [exact B4|]. split; [exact B5|]. split.
  - intros ->. destruct A6 as ((_ & _ & A6) & (_ & _ & A8)). rewrite A6, A8 by (left; exact Hi). auto.
  - intros ->. destruct A7 as (_ & _ & A7). rewrite A7 by (left; exact Hi). auto.
Qed.

Definition present (fs : list frame) : list Z := map (fun f => match f with None => 0 | Some _ => 1 end) fs.

Definition sub_body (pw : powers) (c : oamc) (i : nat) (st : oamst) : prog (Z * oamst) :=
  p <- rd 1 ;;
  pres <- aset (o_pres st) (Z.of_nat i) p ;;
  if p =? 0 then Ret (0, s_pres st pres)
  else obj_md_dec pw c (s_sub (s_pres st pres) (o_sub st + 1)).

Lemma sub_frames pw c uni dyn n : oc_ld c <> 0 -> oc_uni c = flag uni -> oc_dyn c = flag dyn -> 0 <= oc_fl c ->
  (0 < n <= 24)%nat ->
  forall fs j k S st rest,
  Forall (frame_ok uni dyn n) fs -> (k <= j)%nat -> (j + length fs <= 4)%nat ->
  o_n st = Z.of_nat n -> o_sub st = Z.of_nat k -> sized S st -> S + oc_fl c * Z.of_nat (length fs) <= 2 ^ 31 ->
  exists st', runA (forE (length fs) j (sub_body pw c) st) (concat (map (enc_frame uni dyn) fs) ++ rest) = Done ((0, st'), rest) /\
    shown uni dyn n k fs (o_raw st') /\ same_below uni dyn (k * n) (o_raw st) (o_raw st') /\
    put (o_pres st) j (present fs) (o_pres st').
Proof.
  intros El Eu Ed Hfl Hn. induction fs as [|f fs IH]; intros j k S st rest HF Hk Hj En Es HS HB.
  - cbn [length forE map concat app runA present]. exists st. split; [reflexivity|]. split; [exact I|]. split.
    + intros i o _ H. exact H.
    + apply put_nil.
  - inversion HF as [|? ? HF1 HF2]; subst. cbn [length] in Hj, HB.
    assert (Hfs : 0 <= oc_fl c * Z.of_nat (length fs)) by nia.
    assert (HBs : S + oc_fl c + oc_fl c * Z.of_nat (length fs) <= 2 ^ 31) by nia.
    cbn [length forE map concat]. rewrite <- app_assoc.
    assert (PL := HS). destruct PL as (P4 & _).
    destruct f as [[m os]|]; cbn [enc_frame frame_ok shown present] in *.
    + destruct HF1 as (Hl & HFo & HM & HC). rewrite <- !app_comm_cons. unfold sub_body at 1. rewrite bind_assoc, flag_run.
      rewrite aset_one by lia. cbn [bind]. change (1 =? 0) with false. cbv iota.
      unfold obj_md_dec. replace (oc_ld c =? 0) with false by (symmetry; apply Z.eqb_neq; exact El). cbn [negb].
      set (st1 := s_sub (s_pres st (set1 (o_pres st) j 1)) (o_sub st + 1)).
      assert (L1 : length (set1 (o_pres st) j 1) = 4%nat) by (unfold set1; rewrite aset_len; lia).
      destruct (low_delay_intra pw c uni dyn m os st1 S k (concat (map (enc_frame uni dyn) fs) ++ rest))
        as (st2 & E & S2 & N2 & U2 & R2 & W2 & _); auto; try lia.
      { unfold st1. cbn [s_sub s_pres o_n]. rewrite En, Hl. reflexivity. }
      { unfold st1. cbn [s_sub s_pres o_sub]. rewrite Es. lia. }
      { unfold st1, sized. cbn [s_sub s_pres o_pres o_raw o_dsc o_smp]. destruct HS as (_ & HS). auto. }
      rewrite bind_assoc, runA_bind, E. cbn [bind]. change (0 =? 0) with true. cbv iota.
      destruct (IH (Datatypes.S j) (Datatypes.S k) (S + oc_fl c) st2 rest) as (st' & E' & SH & SB & PP); auto; try lia.
      { rewrite N2. unfold st1. cbn [s_sub s_pres o_n]. exact En. }
      { rewrite U2. unfold st1. cbn [s_sub s_pres o_sub]. lia. }
      rewrite E'. exists st'. split; [reflexivity|]. rewrite Hl in W2. split; [split|split].
      * intros i o Eo. apply SB.
        -- assert ((i < length os)%nat) by (apply nth_error_Some; congruence). nia.
        -- eapply written_at; eauto.
      * exact SH.
      * intros i o Hi Ho. apply SB; [nia|]. apply (written_below _ _ _ _ _ _ W2); auto.
      * rewrite R2 in PP. unfold st1 in PP. cbn [s_sub s_pres o_pres] in PP. destruct PP as (Q1 & Q2 & Q3).
        split; [lia|]. split.
        -- intros [|i] x Ex; unfold present in *; cbn [map nth_error] in Ex.
           ++ injection Ex as <-. rewrite Nat.add_0_r. rewrite Q3 by (left; lia). unfold set1. apply nth_aset_eq. lia.
           ++ replace (j + Datatypes.S i)%nat with (Datatypes.S j + i)%nat by lia. apply Q2, Ex.
        -- intros i Hi. unfold present in *. cbn [map length] in Hi. rewrite Q3 by lia. unfold set1. apply nth_aset_neq; lia.
    + change ([false] ++ concat (map (enc_frame uni dyn) fs) ++ rest) with (false :: concat (map (enc_frame uni dyn) fs) ++ rest).
      unfold sub_body at 1. rewrite bind_assoc, flag_run. rewrite aset_one by lia. cbn [bind]. change (0 =? 0) with true. cbv iota. cbn [bind].
      change (0 =? 0) with true. cbv iota.
      assert (L1 : length (set1 (o_pres st) j 0) = 4%nat) by (unfold set1; rewrite aset_len; lia).
      destruct (IH (Datatypes.S j) k S (s_pres st (set1 (o_pres st) j 0)) rest) as (st' & E' & SH & SB & PP); auto; try lia.
      { unfold sized. cbn [s_pres o_pres o_raw o_dsc o_smp]. destruct HS as (_ & HS). auto. }
      rewrite E'. exists st'. split; [reflexivity|]. split; [exact SH|]. split; [exact SB|].
      cbn [s_pres o_pres] in PP. destruct PP as (Q1 & Q2 & Q3).
      split; [lia|]. split.
      * intros [|i] x Ex; unfold present in *; cbn [map nth_error] in Ex.
        -- injection Ex as <-. rewrite Nat.add_0_r. rewrite Q3 by (left; lia). unfold set1. apply nth_aset_eq. lia.
        -- replace (j + Datatypes.S i)%nat with (Datatypes.S j + i)%nat by lia. apply Q2, Ex.
      * intros i Hi. unfold present in *. cbn [map length] in Hi. rewrite Q3 by lia. unfold set1. apply nth_aset_neq; lia.
Qed.

Lemma payload_subframes pw c uni dyn n fs st rest :
  oc_ld c <> 0 -> (oc_fl c = 256 \/ oc_fl c = 512) -> oc_uni c = flag uni -> oc_dyn c = flag dyn ->
  o_n st = Z.of_nat n -> (0 < n <= 24)%nat -> sized (2 ^ 31 - 1024) st ->
  oc_fl c * Z.of_nat (length fs) = 1024 -> Forall (frame_ok uni dyn n) fs ->
  exists st', runA (oam_payload pw c 1024 st) (concat (map (enc_frame uni dyn) fs) ++ rest) = Done ((0, st'), rest) /\
    shown uni dyn n 0 fs (o_raw st') /\ firstn (length fs) (o_pres st') = present fs.
Proof.
  intros El Ef Eu Ed En Hn HS HL HF. unfold oam_payload. cbn [avail bind runA].
  assert (LF : (1 <= length fs <= 4)%nat) by lia.
  replace (Z.of_nat (length (concat (map (enc_frame uni dyn) fs) ++ rest)) <=? 0) with false.
  2:{ symmetry. apply Z.leb_gt. destruct fs as [|f fs]; [cbn in LF; lia|].
      cbn [map concat]. rewrite !app_length. destruct f as [[m os]|]; cbn [enc_frame length]; lia. }
  replace (negb ((oc_fl c =? 256) || (oc_fl c =? 512) || (oc_fl c =? 1024))) with false
    by (destruct Ef as [-> | ->]; reflexivity).
  replace (oc_fl c <? 1024) with true by (destruct Ef as [-> | ->]; reflexivity).
  replace (Z.to_nat (1024 / oc_fl c)) with (length fs)
    by (destruct Ef as [X|X]; rewrite X in *; [change (1024 / 256) with 4|change (1024 / 512) with 2]; lia).
  destruct (sub_frames pw c uni dyn n El Eu Ed ltac:(lia) Hn fs 0 0 (2 ^ 31 - 1024) (s_sub st 0) rest)
    as (st' & E & SH & _ & PP); auto; try lia.
  match goal with |- context [forE _ 0 ?f _] => change f with (sub_body pw c) end.
  rewrite E. exists st'. split; [reflexivity|]. split; [exact SH|].
  destruct PP as (P1 & P2 & _). cbn [s_sub o_pres] in P1. destruct HS as (L4 & _).
  assert (LP : length (present fs) = length fs) by (unfold present; apply map_length).
  apply nth_ext with (d := 0) (d' := 0).
  - rewrite firstn_length_le by lia. auto.
  - intros i Hi. rewrite firstn_length_le in Hi by lia.
    destruct (nth_error (present fs) i) as [y|] eqn:Ey; [|apply nth_error_None in Ey; lia].
    pose proof (P2 i y Ey) as E2. cbn [Nat.add] in E2.
    apply (nth_error_nth _ _ 0) in Ey. rewrite Ey.
    apply nth_error_nth. rewrite nth_firstn by lia. exact E2.
Qed.
