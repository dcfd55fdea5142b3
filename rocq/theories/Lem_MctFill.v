(** * Lem_MctFill: the downmix of the frame before *)

From Coq Require Import ZArith List Lia Bool Arith SpecFloat.
From Verif Require Import Bits BitBuf F32 Prog Mct Spec_Mct MctProc Spec_MctProc Spec_MctFill Lem_MctHuff Lem_MctBand Lem_MctBox Lem_MctRT Lem_MctProc.
Import ListNotations.
Open Scope list_scope.
Open Scope Z_scope.

Lemma get_idx (l : list f32) q : len l = 65%nat -> 0 <= q <= 64 -> oget l q = Done (nth (Z.to_nat q) l S754_nan).
Proof. intros Hl Hq. rewrite <- (Z2Nat.id q) at 1 by lia. apply oget_nth. lia. Qed.

Section Fill.
Context (cs sn : list f32) (l r : list f32) (N : nat).
Hypothesis Hcs : len cs = 65%nat.
Hypothesis Hsn : len sn = 65%nat.
Hypothesis Hl : len l = N.
Hypothesis Hr : len r = N.

Lemma inv_run q : 0 <= q <= 64 -> forall n a dmx, len dmx = N -> (a + n <= N)%nat ->
  exists d', inv_lines cs sn q (Some l) (Some r) n (Z.of_nat a) dmx = Done d' /\ len d' = N /\
    forall k, nth k d' zf = if ((a <=? k) && (k <? a + n))%nat then turn_back cs sn q (nth k l zf) (nth k r zf) else nth k dmx zf.
Proof.
  intros HQ. induction n as [|n IH]; intros a dmx L H.
  - exists dmx. split; [reflexivity|]. split; [exact L|]. intros k.
    destruct (Nat.leb_spec a k), (Nat.ltb_spec k (a + 0)); cbn [andb]; try reflexivity; lia.
  - cbn [inv_lines]. rewrite (oget_nth dmx a zf) by lia. cbn [obind]. unfold inv_line.
    rewrite (oget_nth l a zf) by lia. cbn [obind]. rewrite (get_idx cs q Hcs HQ). cbn [obind].
    rewrite (oget_nth r a zf) by lia. cbn [obind]. rewrite (get_idx sn q Hsn HQ). cbn [obind fst].
    fold (turn_back cs sn q (nth a l zf) (nth a r zf)).
    destruct (oput_nth dmx a (turn_back cs sn q (nth a l zf) (nth a r zf)) zf) as (d & D1 & D2 & D3); [lia|].
    rewrite D1. cbn [obind]. replace (Z.of_nat a + 1) with (Z.of_nat (S a)) by lia.
    destruct (IH (S a) d) as (d' & E1 & E2 & E3); [lia|lia|].
    exists d'. split; [exact E1|]. split; [exact E2|]. intros k. rewrite E3, D3. destruct (Nat.eqb_spec k a) as [Ek|Nk].
    + subst k. destruct (Nat.leb_spec (S a) a); [lia|]. cbn [andb]. destruct (Nat.leb_spec a a), (Nat.ltb_spec a (a + S n)); cbn [andb]; try lia. reflexivity.
    + destruct (Nat.leb_spec (S a) k), (Nat.ltb_spec k (S a + n)), (Nat.leb_spec a k), (Nat.ltb_spec k (a + S n)); cbn [andb]; try lia; reflexivity.
Qed.

Lemma half_run rev : forall n a dmx, len dmx = N -> (a + n <= N)%nat ->
  exists d', half_lines (z1 rev) l r n (Z.of_nat a) dmx = Done d' /\ len d' = N /\
    forall k, nth k d' zf = if ((a <=? k) && (k <? a + n))%nat then half rev (nth k l zf) (nth k r zf) else nth k dmx zf.
Proof.
  induction n as [|n IH]; intros a dmx L H.
  - exists dmx. split; [reflexivity|]. split; [exact L|]. intros k.
    destruct (Nat.leb_spec a k), (Nat.ltb_spec k (a + 0)); cbn [andb]; try reflexivity; lia.
  - cbn [half_lines]. rewrite (oget_nth l a zf) by lia. cbn [obind]. rewrite (oget_nth r a zf) by lia. cbn [obind].
    assert (V : f_mul (lit 1 2) (if z1 rev =? 0 then f_add (nth a l zf) (nth a r zf) else f_sub (nth a l zf) (nth a r zf)) = half rev (nth a l zf) (nth a r zf)) by (destruct rev; reflexivity).
    rewrite V.
    destruct (oput_nth dmx a (half rev (nth a l zf) (nth a r zf)) zf) as (d & D1 & D2 & D3); [lia|].
    rewrite D1. cbn [obind]. replace (Z.of_nat a + 1) with (Z.of_nat (S a)) by lia.
    destruct (IH (S a) d) as (d' & E1 & E2 & E3); [lia|lia|].
    exists d'. split; [exact E1|]. split; [exact E2|]. intros k. rewrite E3, D3. destruct (Nat.eqb_spec k a) as [Ek|Nk].
    + subst k. destruct (Nat.leb_spec (S a) a); [lia|]. cbn [andb]. destruct (Nat.leb_spec a a), (Nat.ltb_spec a (a + S n)); cbn [andb]; try lia. reflexivity.
    + destruct (Nat.leb_spec (S a) k), (Nat.ltb_spec k (S a + n)), (Nat.leb_spec a k), (Nat.ltb_spec k (a + S n)); cbn [andb]; try lia; reflexivity.
Qed.

Context (bins : nat) (tbl : list Z) (row : list (option Z)) (mask coef : list Z).
Hypothesis HB : (bins <= N)%nat.
Hypothesis HE : ends_ok (Z.of_nat bins) tbl.
Hypothesis HR : forall t o, nth_error row t = Some o -> nth_error mask t = Some (on o) /\
  forall q, o = Some q -> nth_error coef t = Some q /\ 0 <= q <= 64.

Definition turned (m : option Z) (k : nat) (old : f32) : f32 :=
  match m with Some q => turn_back cs sn q (nth k l zf) (nth k r zf) | None => old end.
Definition ang (b : nat) : Z := match nth b row None with Some q => q | None => 32 end.

Lemma dmx_run h : len tbl = (2 * h + 1)%nat -> (h < len mask)%nat -> forall left b dmx, (b <= h)%nat -> (h < b + left)%nat -> len dmx = N ->
  exists d', dmx_bands cs sn (Some l) (Some r) mask coef (Z.of_nat (len row)) (Z.of_nat (len tbl)) tbl left (Z.of_nat b) (2 * Z.of_nat b - 1) dmx = Done (0, d') /\
    len d' = N /\ forall k, nth k d' zf = turned (match sfb_at tbl (Z.of_nat k) with
      | Some j => if (b <=? j / 2)%nat then Some (ang (j / 2)) else None | None => None end) k (nth k dmx zf).
Proof.
  intros HT HM. assert (RS : rising 0 tbl) by apply HE.
  induction left as [|left IH]; intros b dmx B1 B2 L; [lia|].
  cbn [dmx_bands].
  destruct (nth_error mask b) as [mk|] eqn:Em; [|apply nth_error_None in Em; lia].
  rewrite (oget_some _ _ _ Em). cbn [obind].
  assert (AQ : (if negb (mk =? 0) && (Z.of_nat b <? Z.of_nat (len row)) then oget coef (Z.of_nat b) else Done 32) = Done (ang b) /\ 0 <= ang b <= 64).
  { unfold ang. destruct (Z.ltb_spec (Z.of_nat b) (Z.of_nat (len row))) as [G|G].
    - destruct (nth_error row b) as [o|] eqn:Eo; [|apply nth_error_None in Eo; lia].
      destruct (HR b o Eo) as [M C]. assert (mk = on o) by congruence. subst mk. rewrite (nth_error_nth row b None Eo).
      destruct o as [q|]; cbn [on Z.eqb negb andb]; [|split; [reflexivity|lia]].
      destruct (C q eq_refl) as [C1 C2]. split; [apply oget_some, C1|exact C2].
    - rewrite andb_false_r, nth_overflow by lia. split; [reflexivity|lia]. }
  destruct AQ as [AQ AR]. rewrite AQ. cbn [obind].
  set (start := st_ tbl (2 * b)). set (stop := if (2 * b + 1 <? len tbl)%nat then e_ tbl (2 * b + 1) else e_ tbl (2 * b)).
  assert (E1 : (if 2 * Z.of_nat b - 1 <? 0 then Done 0 else oget tbl (2 * Z.of_nat b - 1)) = Done start).
  { unfold start. destruct b as [|b']; [reflexivity|]. replace (2 * Z.of_nat (S b') - 1 <? 0) with false by (symmetry; apply Z.ltb_ge; lia).
    replace (2 * Z.of_nat (S b') - 1) with (Z.of_nat (2 * S b' - 1)) by lia. rewrite (oget_nth tbl _ 0) by lia.
    replace (2 * S b')%nat with (S (2 * S b' - 1)) at 2 by lia. reflexivity. }
  rewrite E1. cbn [obind].
  replace (Z.of_nat (len tbl) <=? 2 * Z.of_nat b - 1 + 1) with false by (symmetry; apply Z.leb_gt; lia).
  assert (E2 : (if 2 * Z.of_nat b - 1 + 2 <? Z.of_nat (len tbl) then oget tbl (2 * Z.of_nat b - 1 + 2) else oget tbl (2 * Z.of_nat b - 1 + 1)) = Done stop).
  { unfold stop. replace (2 * Z.of_nat b - 1 + 2) with (Z.of_nat (2 * b + 1)) by lia. replace (2 * Z.of_nat b - 1 + 1) with (Z.of_nat (2 * b)) by lia.
    destruct (Nat.ltb_spec (2 * b + 1) (len tbl)) as [G|G].
    - replace (Z.of_nat (2 * b + 1) <? Z.of_nat (len tbl)) with true by (symmetry; apply Z.ltb_lt; lia). apply oget_nth, G.
    - replace (Z.of_nat (2 * b + 1) <? Z.of_nat (len tbl)) with false by (symmetry; apply Z.ltb_ge; lia). apply oget_nth. lia. }
  rewrite E2. cbn [obind].
  assert (EH := ends_hi bins tbl HE).
  assert (BS : 0 <= start <= stop /\ stop <= Z.of_nat bins).
  { assert (stop <= Z.of_nat bins /\ e_ tbl (2 * b) <= stop).
    { unfold stop. destruct (Nat.ltb_spec (2 * b + 1) (len tbl)) as [G|G].
      - split; [apply EH, G|]. apply rising_le; [exact RS|lia].
      - split; [apply EH; lia|lia]. }
    assert (0 <= start <= e_ tbl (2 * b)).
    { unfold start. destruct (2 * b)%nat as [|c] eqn:Ec; cbn [st_]; [assert (X := EH 0%nat ltac:(lia)); lia|].
      assert (X := EH c ltac:(lia)). assert (Y := rising_le tbl RS c (S c) ltac:(lia)). lia. }
    lia. }
  destruct (inv_run (ang b) AR (Z.to_nat (stop - start)) (Z.to_nat start) dmx L ltac:(lia)) as (d1 & R1 & R2 & R3).
  rewrite Z2Nat.id in R1 by lia. rewrite R1. cbn [obind].
  assert (K1 : forall k, nth k d1 zf = turned (match sfb_at tbl (Z.of_nat k) with Some j => if (j / 2 =? b)%nat then Some (ang b) else None | None => None end) k (nth k dmx zf)).
  { intros k. rewrite R3. assert (P := sfb_pair tbl (Z.of_nat k) b RS ltac:(lia) ltac:(lia)). fold start stop in P.
    destruct (Nat.leb_spec (Z.to_nat start) k) as [A1|A1], (Nat.ltb_spec k (Z.to_nat start + Z.to_nat (stop - start))) as [A2|A2]; cbn [andb].
    - destruct (proj1 P ltac:(lia)) as (j & J1 & J2). rewrite J1, J2, Nat.eqb_refl. reflexivity.
    - destruct (sfb_at tbl _) as [j|] eqn:J; [|reflexivity]. destruct (Nat.eqb_spec (j / 2) b) as [J2|]; [|reflexivity].
      assert (X := proj2 P (ex_intro _ j (conj eq_refl J2))). lia.
    - destruct (sfb_at tbl _) as [j|] eqn:J; [|reflexivity]. destruct (Nat.eqb_spec (j / 2) b) as [J2|]; [|reflexivity].
      assert (X := proj2 P (ex_intro _ j (conj eq_refl J2))). lia.
    - destruct (sfb_at tbl _) as [j|] eqn:J; [|reflexivity]. destruct (Nat.eqb_spec (j / 2) b) as [J2|]; [|reflexivity].
      assert (X := proj2 P (ex_intro _ j (conj eq_refl J2))). lia. }
  destruct (Z.leb_spec (Z.of_nat (len tbl)) (2 * Z.of_nat b - 1 + 2)) as [G|G].
  - exists d1. split; [reflexivity|]. split; [exact R2|]. intros k. rewrite K1. f_equal.
    destruct (sfb_at tbl _) as [j|] eqn:J; [|reflexivity]. destruct (sfb_at_spec _ _ _ J) as (A1 & _).
    assert (j / 2 <= b)%nat by (apply Nat.lt_succ_r; apply Nat.div_lt_upper_bound; lia).
    destruct (Nat.eqb_spec (j / 2) b) as [->|X]; [rewrite Nat.leb_refl; reflexivity|].
    replace (b <=? j / 2)%nat with false by (symmetry; apply Nat.leb_gt; lia). reflexivity.
  - replace (Z.of_nat b + 1) with (Z.of_nat (S b)) by lia. replace (2 * Z.of_nat b - 1 + 2) with (2 * Z.of_nat (S b) - 1) by lia.
    destruct (IH (S b) d1 ltac:(lia) ltac:(lia) R2) as (d' & Q1 & Q2 & Q3). exists d'. split; [exact Q1|]. split; [exact Q2|].
    intros k. rewrite Q3, K1. destruct (sfb_at tbl _) as [j|]; [|reflexivity].
    destruct (Nat.eqb_spec (j / 2) b) as [->|X].
    + rewrite Nat.leb_refl. replace (S b <=? b)%nat with false by (symmetry; apply Nat.leb_gt; lia). reflexivity.
    + destruct (Nat.leb_spec (S b) (j / 2)), (Nat.leb_spec b (j / 2)); try lia; reflexivity.
Qed.

(** One window. *)
Theorem fill_window k rev whole dmx : len dmx = N ->
  (forall q, whole = Some q -> nth_error coef 0 = Some q /\ 0 <= q <= 64) ->
  (k = Rotation -> whole = None -> Nat.Odd (len tbl) /\ (len tbl <= 127)%nat /\ (len tbl < 2 * len mask)%nat) ->
  forall bw mf, ((bw =? 0) && (mf =? 0) = match whole with Some _ => true | None => false end) ->
  exists d', prev_dmx cs sn (kz k) bw mf (z1 rev) (Some l) (Some r) mask coef (Z.of_nat (len row)) (Z.of_nat bins) (Z.of_nat (len tbl)) tbl dmx = Done (0, d') /\
    len d' = N /\ forall i, (i < bins)%nat -> nth i d' zf =
      match k with
      | Prediction => half rev (nth i l zf) (nth i r zf)
      | Rotation => match angle_at whole row tbl (Z.of_nat i) with
                    | Some a => turn_back cs sn a (nth i l zf) (nth i r zf)
                    | None => nth i dmx zf end
      end.
Proof.
  intros L HW HO bw mf BM. unfold prev_dmx. destruct k.
  - change (kz Prediction =? 0) with true. cbn iota. rewrite Nat2Z.id. change 0 with (Z.of_nat 0) at 1.
    destruct (half_run rev bins 0 dmx L ltac:(lia)) as (d' & R1 & R2 & R3). rewrite R1. cbn [obind].
    exists d'. split; [reflexivity|]. split; [exact R2|]. intros i Hi. rewrite R3. cbn [Nat.leb andb]. replace (i <? 0 + bins)%nat with true by (symmetry; apply Nat.ltb_lt; lia). reflexivity.
  - change (kz Rotation =? 0) with false. cbn iota. rewrite BM. destruct whole as [q|].
    + destruct (HW q eq_refl) as [C Q]. rewrite (oget_some coef 0 q C : oget coef 0 = _). cbn [obind]. rewrite Nat2Z.id.
      destruct (inv_run q Q bins 0 dmx L ltac:(lia)) as (d' & R1 & R2 & R3). change (Z.of_nat 0) with 0 in R1. rewrite R1. cbn [obind].
      exists d'. split; [reflexivity|]. split; [exact R2|]. intros i Hi. rewrite R3. cbn [Nat.leb andb angle_at]. replace (i <? 0 + bins)%nat with true by (symmetry; apply Nat.ltb_lt; lia). reflexivity.
    + destruct (HO eq_refl eq_refl) as ([h Hh] & H2 & H3).
      destruct (dmx_run h Hh ltac:(lia) 64 0 dmx ltac:(lia) ltac:(lia) L) as (d' & R1 & R2 & R3).
      exists d'. split; [exact R1|]. split; [exact R2|]. intros i Hi. rewrite R3. unfold angle_at, ang. cbn [Nat.leb].
      destruct (sfb_at tbl _); reflexivity.
Qed.
End Fill.

(** An even number of scale factor bands is never accepted. *)
Lemma dmx_even cs sn p1 p2 mask coef bpw tbl h : forall left b dmx d, (b <= h)%nat -> (h < b + left)%nat ->
  dmx_bands cs sn p1 p2 mask coef bpw (Z.of_nat (2 * h)) tbl left (Z.of_nat b) (2 * Z.of_nat b - 1) dmx <> Done (0, d).
Proof.
  induction left as [|left IH]; intros b dmx d B1 B2 H; [lia|]. cbn [dmx_bands] in H.
  destruct (oget mask _) as [mk| |]; try discriminate. cbn [obind] in H.
  destruct (if negb (mk =? 0) && _ then _ else _) as [a| |]; try discriminate. cbn [obind] in H.
  destruct (if 2 * Z.of_nat b - 1 <? 0 then _ else _) as [start| |]; try discriminate. cbn [obind] in H.
  destruct (Z.leb_spec (Z.of_nat (2 * h)) (2 * Z.of_nat b - 1 + 1)) as [G|G]; [discriminate|].
  destruct (if 2 * Z.of_nat b - 1 + 2 <? _ then _ else _) as [stop| |]; try discriminate. cbn [obind] in H.
  destruct (inv_lines _ _ _ _ _ _ _ _) as [d1| |]; try discriminate. cbn [obind] in H.
  destruct (Z.leb_spec (Z.of_nat (2 * h)) (2 * Z.of_nat b - 1 + 2)) as [G2|G2]; [lia|].
  replace (Z.of_nat b + 1) with (Z.of_nat (S b)) in H by lia. replace (2 * Z.of_nat b - 1 + 2) with (2 * Z.of_nat (S b) - 1) in H by lia.
  exact (IH (S b) d1 d ltac:(lia) ltac:(lia) H).
Qed.

Theorem fill_even cs sn bw mf rev p1 p2 mask coef bpw bins tbl dmx d : (bw =? 0) && (mf =? 0) = false -> Nat.Even (len tbl) -> (len tbl <= 126)%nat ->
  prev_dmx cs sn (kz Rotation) bw mf rev p1 p2 mask coef bpw bins (Z.of_nat (len tbl)) tbl dmx <> Done (0, d).
Proof.
  intros B [h H] L. unfold prev_dmx. change (kz Rotation =? 0) with false. cbn iota. rewrite B, H. apply (dmx_even cs sn p1 p2 mask coef bpw tbl h 64 0 dmx d); lia.
Qed.
