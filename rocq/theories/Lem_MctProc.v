(** * Lem_MctProc: every line gets the coefficient of its band *)

From Coq Require Import ZArith List Lia Bool Arith SpecFloat.
From Verif Require Import Bits BitBuf F32 Prog Mct Spec_Mct MctProc Spec_MctProc Lem_MctHuff Lem_MctBand Lem_MctBox Lem_MctRT Lem_MctFrame Lem_MctSafe Lem_MctCut Lem_MctSeq.
Import ListNotations.
Open Scope list_scope.
Open Scope Z_scope.

Definition zf : f32 := S754_nan.
Definition at_ (dr : list f32 * list f32) (k : nat) : f32 * f32 := (nth k (fst dr) zf, nth k (snd dr) zf).

Lemma oget_nth {A} (l : list A) i d : (i < len l)%nat -> oget l (Z.of_nat i) = Done (nth i l d).
Proof.
  intros H. unfold oget. replace (Z.of_nat i <? 0) with false by (symmetry; apply Z.ltb_ge; lia). rewrite Nat2Z.id.
  rewrite (nth_error_nth' l d H). reflexivity.
Qed.
Lemma oget_some {A} (l : list A) i v : nth_error l i = Some v -> oget l (Z.of_nat i) = Done v.
Proof.
  intros H. unfold oget. replace (Z.of_nat i <? 0) with false by (symmetry; apply Z.ltb_ge; lia). rewrite Nat2Z.id, H. reflexivity.
Qed.

Lemma oput_nth {A} (l : list A) i a (d : A) : (i < len l)%nat -> exists l', oput l (Z.of_nat i) a = Done l' /\ len l' = len l /\
  forall k, nth k l' d = if (k =? i)%nat then a else nth k l d.
Proof.
  intros H. unfold oput. replace (Z.of_nat i <? 0) with false by (symmetry; apply Z.ltb_ge; lia).
  replace (Z.of_nat (len l) <=? Z.of_nat i) with false by (symmetry; apply Z.leb_gt; lia). cbn [orb]. rewrite Nat2Z.id.
  eexists. split; [reflexivity|]. split.
  { rewrite app_length, firstn_length. cbn [List.length]. rewrite skipn_length. lia. }
  intros k. destruct (Nat.eqb_spec k i) as [->|N].
  - rewrite app_nth2; rewrite firstn_length, Nat.min_l by lia; [|lia]. rewrite Nat.sub_diag. reflexivity.
  - destruct (le_lt_dec i k) as [G|G].
    + rewrite app_nth2; rewrite firstn_length, Nat.min_l by lia; [|lia].
      destruct (k - i)%nat as [|m] eqn:E; [lia|]. cbn [nth]. replace k with (S i + m)%nat by lia.
      clear - i. revert i. induction l as [|x l IH]; intros i; [destruct i, m; reflexivity|]. destruct i as [|i]; [reflexivity|]. cbn [skipn Nat.add nth]. apply IH.
    + rewrite app_nth1 by (rewrite firstn_length; lia). clear - G. revert i k G. induction l as [|x l IH]; intros i k G.
      * rewrite firstn_nil. destruct k; reflexivity.
      * destruct i as [|i]; [lia|]. destruct k as [|k]; [reflexivity|]. cbn [firstn nth]. apply IH. lia.
Qed.

Definition sized2 (n : nat) (dr : list f32 * list f32) : Prop := len (fst dr) = n /\ len (snd dr) = n.

(** A run of lines. *)
Lemma lines_run op f N : (forall x y, op x y = Done (f (x, y))) -> forall n a dr, sized2 N dr -> (a + n <= N)%nat ->
  exists dr', lines op n (Z.of_nat a) dr = Done dr' /\ sized2 N dr' /\
    forall k, at_ dr' k = if ((a <=? k) && (k <? a + n))%nat then f (at_ dr k) else at_ dr k.
Proof.
  intros HO. induction n as [|n IH]; intros a dr [L1 L2] H.
  - exists dr. split; [reflexivity|]. split; [split; assumption|]. intros k.
    destruct (Nat.leb_spec a k), (Nat.ltb_spec k (a + 0)); cbn [andb]; try reflexivity; lia.
  - cbn [lines]. rewrite (oget_nth (fst dr) a zf) by lia. cbn [obind]. rewrite (oget_nth (snd dr) a zf) by lia. cbn [obind].
    rewrite HO. cbn [obind]. fold (at_ dr a).
    destruct (oput_nth (fst dr) a (fst (f (at_ dr a))) zf) as (d & D1 & D2 & D3); [lia|].
    destruct (oput_nth (snd dr) a (snd (f (at_ dr a))) zf) as (r & R1 & R2 & R3); [lia|].
    rewrite D1. cbn [obind]. rewrite R1. cbn [obind]. replace (Z.of_nat a + 1) with (Z.of_nat (S a)) by lia.
    destruct (IH (S a) (d, r)) as (dr' & E1 & E2 & E3); [split; cbn [fst snd]; lia|lia|].
    exists dr'. split; [exact E1|]. split; [exact E2|]. intros k. rewrite E3.
    assert (X : at_ (d, r) k = if (k =? a)%nat then f (at_ dr a) else at_ dr k).
    { unfold at_ at 1. cbn [fst snd]. rewrite D3, R3. destruct (k =? a)%nat; [symmetry; apply surjective_pairing|reflexivity]. }
    rewrite X. clear X. destruct (Nat.eqb_spec k a) as [Ek|Nk].
    + subst k. destruct (Nat.leb_spec (S a) a); [lia|]. cbn [andb]. destruct (Nat.leb_spec a a), (Nat.ltb_spec a (a + S n)); cbn [andb]; try lia. reflexivity.
    + destruct (Nat.leb_spec (S a) k), (Nat.ltb_spec k (S a + n)), (Nat.leb_spec a k), (Nat.ltb_spec k (a + S n)); cbn [andb]; try lia; reflexivity.
Qed.

(** ** Scale factor bands *)
Definition e_ (tbl : list Z) (j : nat) : Z := nth j tbl 0.
Definition st_ (tbl : list Z) (j : nat) : Z := match j with O => 0 | S i => e_ tbl i end.

Lemma rising_nth tbl : forall lo, rising lo tbl -> forall j, (j < len tbl)%nat -> lo <= e_ tbl j /\ (match j with O => lo | S i => e_ tbl i end) <= e_ tbl j.
Proof.
  induction tbl as [|e r IH]; intros lo R j H; [cbn in H; lia|]. destruct R as [R1 R2]. cbn [List.length] in H. destruct j as [|j].
  - unfold e_. cbn [nth]. lia.
  - specialize (IH e R2 j ltac:(lia)). unfold e_ in *. cbn [nth]. destruct j; cbn [nth] in *; lia.
Qed.
Lemma rising_le tbl : rising 0 tbl -> forall i j, (i <= j < len tbl)%nat -> e_ tbl i <= e_ tbl j.
Proof.
  intros R i j [H1 H2]. induction j as [|j IH]; [replace i with 0%nat by lia; lia|].
  destruct (Nat.eq_dec i (S j)) as [->|]; [lia|]. specialize (IH ltac:(lia) ltac:(lia)).
  assert (X := rising_nth tbl 0 R (S j) H2). cbn in X. lia.
Qed.

Lemma sfb_at_spec tbl : forall k j, sfb_at tbl k = Some j -> (j < len tbl)%nat /\ k < e_ tbl j /\ forall i, (i < j)%nat -> e_ tbl i <= k.
Proof.
  induction tbl as [|e r IH]; intros k j H; cbn [sfb_at] in H; [discriminate|].
  destruct (Z.ltb_spec k e) as [L|L].
  - injection H as <-. unfold e_. cbn [nth List.length]. split; [lia|]. split; [exact L|lia].
  - destruct (sfb_at r k) as [i|] eqn:E; [|discriminate]. cbn in H. injection H as <-. destruct (IH k i E) as (A & B & C).
    cbn [List.length]. split; [lia|]. unfold e_ in *. cbn [nth]. split; [exact B|]. intros i0 H0. destruct i0 as [|i0]; [exact L|]. apply C. lia.
Qed.
Lemma sfb_at_none tbl : forall k, sfb_at tbl k = None -> forall i, (i < len tbl)%nat -> e_ tbl i <= k.
Proof.
  induction tbl as [|e r IH]; intros k H i Hi; cbn [List.length] in Hi; [lia|]. cbn [sfb_at] in H.
  destruct (Z.ltb_spec k e) as [L|L]; [discriminate|]. destruct (sfb_at r k) eqn:E; [discriminate|].
  destruct i as [|i]; [exact L|]. apply IH; [exact E|lia].
Qed.

(** Line [k] lies in band [b] of the tool: scale factor bands [2b] and [2b+1]. *)
Lemma sfb_pair tbl k b : rising 0 tbl -> 0 <= k -> (2 * b < len tbl)%nat ->
  (st_ tbl (2 * b) <= k < (if (2 * b + 1 <? len tbl)%nat then e_ tbl (2 * b + 1) else e_ tbl (2 * b))) <->
  exists j, sfb_at tbl k = Some j /\ (j / 2 = b)%nat.
Proof.
  intros R K B. split.
  - intros [H1 H2]. destruct (sfb_at tbl k) as [j|] eqn:E.
    + destruct (sfb_at_spec _ _ _ E) as (A1 & A2 & A3). exists j. split; [reflexivity|].
      assert (2 * b <= j)%nat.
      { destruct (le_lt_dec (2 * b) j) as [G|G]; [exact G|]. exfalso. destruct (2 * b)%nat as [|c] eqn:Ec; [lia|].
        cbn [st_] in H1. assert (X := rising_le tbl R j c ltac:(lia)). lia. }
      assert (j <= 2 * b + 1)%nat.
      { destruct (le_lt_dec j (2 * b + 1)) as [G|G]; [exact G|]. exfalso. specialize (A3 (2 * b + 1)%nat G).
        destruct (Nat.ltb_spec (2 * b + 1) (len tbl)); lia. }
      assert (j = 2 * b \/ j = 2 * b + 1)%nat as [-> | ->] by lia.
      * rewrite Nat.mul_comm. apply Nat.div_mul. lia.
      * rewrite Nat.mul_comm, Nat.div_add_l by lia. cbn. lia.
    + exfalso. assert (X := sfb_at_none _ _ E). destruct (Nat.ltb_spec (2 * b + 1) (len tbl)) as [G|G].
      * specialize (X _ G). lia.
      * specialize (X _ B). lia.
  - intros (j & E & D). destruct (sfb_at_spec _ _ _ E) as (A1 & A2 & A3).
    assert (J : (j = 2 * b \/ j = 2 * b + 1)%nat).
    { assert (X := Nat.div_mod j 2 ltac:(lia)). assert (Y := Nat.mod_upper_bound j 2 ltac:(lia)). lia. }
    split.
    + destruct (2 * b)%nat as [|c] eqn:Ec; [exact K|]. cbn [st_]. apply A3. lia.
    + destruct (Nat.ltb_spec (2 * b + 1) (len tbl)) as [G|G].
      * destruct J as [-> | ->]; [|exact A2]. assert (X := rising_le tbl R (2 * b) (2 * b + 1) ltac:(lia)). lia.
      * destruct J as [-> | ->]; [exact A2|lia].
Qed.

(** ** The bands of a window *)
Definition sel (base bins : nat) (tbl : list Z) (row : list (option Z)) (b k : nat) : option Z :=
  if ((base <=? k) && (k <? base + bins))%nat then
    match sfb_at tbl (Z.of_nat (k - base)) with
    | Some j => if (b <=? j / 2)%nat then nth (j / 2) row None else None
    | None => None
    end
  else None.

Definition evs (ev : Z -> f32 * f32 -> f32 * f32) (m : option Z) (xy : f32 * f32) : f32 * f32 :=
  match m with Some q => ev q xy | None => xy end.

Section Win.
Context (cs sn : list f32) (ty dir : Z) (coef mask : list Z) (ev : Z -> f32 * f32 -> f32 * f32).
Context (N base bins off : nat) (tbl : list Z) (row : list (option Z)).
Hypothesis HN : (base + bins <= N)%nat.
Hypothesis HE : ends_ok (Z.of_nat bins) tbl.
Hypothesis HR : forall t o, nth_error row t = Some o -> nth_error mask (off + t) = Some (on o) /\
  forall q, o = Some q -> nth_error coef (off + t) = Some q /\ forall x y, line_op cs sn ty dir q x y = Done (ev q (x, y)).

Lemma tbl_get j : (j < len tbl)%nat -> oget tbl (Z.of_nat j) = Done (e_ tbl j).
Proof. intros H. apply oget_nth. exact H. Qed.

Lemma ends_hi j : (j < len tbl)%nat -> 0 <= e_ tbl j <= Z.of_nat bins.
Proof.
  destruct HE as (_ & R & F). intros H. split; [apply (rising_nth tbl 0 R j H)|]. rewrite Forall_forall in F. apply F. apply nth_In. exact H.
Qed.

Lemma bands_run left : forall b dr, (b + left = len row)%nat -> (2 * b < len tbl)%nat -> sized2 N dr ->
  exists dr', bands cs sn ty dir coef mask (Z.of_nat off) (Z.of_nat base) (Z.of_nat (len tbl)) tbl left (Z.of_nat b) (2 * Z.of_nat b - 1) dr = Done dr' /\
    sized2 N dr' /\ forall k, at_ dr' k = evs ev (sel base bins tbl row b k) (at_ dr k).
Proof.
  induction left as [|left IH]; intros b dr HB HT SZ.
  - exists dr. split; [reflexivity|]. split; [exact SZ|]. intros k. unfold sel. destruct ((_ <=? k) && _)%nat; [|reflexivity].
    destruct (sfb_at tbl _) as [j|]; [|reflexivity]. destruct (Nat.leb_spec b (j / 2)); [|reflexivity]. rewrite nth_overflow by lia. reflexivity.
  - cbn [bands]. replace (Z.of_nat off + Z.of_nat b) with (Z.of_nat (off + b)) by lia.
    destruct (nth_error row b) as [o|] eqn:Eo; [|apply nth_error_None in Eo; lia].
    destruct (HR b o Eo) as [M C]. rewrite (oget_some _ _ _ M). cbn [obind].
    assert (RS : rising 0 tbl) by apply HE.
    (* this band *)
    assert (STEP : exists dr1, (if on o =? 1 then
        olet start := (if 2 * Z.of_nat b - 1 <? 0 then Done 0 else oget tbl (2 * Z.of_nat b - 1)) in
        olet stop := (if 2 * Z.of_nat b - 1 + 2 <? Z.of_nat (len tbl) then oget tbl (2 * Z.of_nat b - 1 + 2) else oget tbl (2 * Z.of_nat b - 1 + 1)) in
        olet q := oget coef (Z.of_nat (off + b)) in
        lines (line_op cs sn ty dir q) (Z.to_nat (stop - start)) (Z.of_nat base + start) dr
      else Done dr) = Done dr1 /\ sized2 N dr1 /\
      forall k, at_ dr1 k = evs ev (if ((base <=? k) && (k <? base + bins))%nat then
        match sfb_at tbl (Z.of_nat (k - base)) with Some j => if (j / 2 =? b)%nat then o else None | None => None end else None) (at_ dr k)).
    { destruct o as [q|]; cbn [on Z.eqb].
      - destruct (C q eq_refl) as [C1 C2].
        set (start := st_ tbl (2 * b)). set (stop := if (2 * b + 1 <? len tbl)%nat then e_ tbl (2 * b + 1) else e_ tbl (2 * b)).
        assert (E1 : (if 2 * Z.of_nat b - 1 <? 0 then Done 0 else oget tbl (2 * Z.of_nat b - 1)) = Done start).
        { unfold start. destruct b as [|b']; [reflexivity|]. replace (2 * Z.of_nat (S b') - 1 <? 0) with false by (symmetry; apply Z.ltb_ge; lia).
          replace (2 * Z.of_nat (S b') - 1) with (Z.of_nat (2 * S b' - 1)) by lia. rewrite tbl_get by lia.
          replace (2 * S b')%nat with (S (2 * S b' - 1)) at 2 by lia. reflexivity. }
        assert (E2 : (if 2 * Z.of_nat b - 1 + 2 <? Z.of_nat (len tbl) then oget tbl (2 * Z.of_nat b - 1 + 2) else oget tbl (2 * Z.of_nat b - 1 + 1)) = Done stop).
        { unfold stop. replace (2 * Z.of_nat b - 1 + 2) with (Z.of_nat (2 * b + 1)) by lia. replace (2 * Z.of_nat b - 1 + 1) with (Z.of_nat (2 * b)) by lia.
          destruct (Nat.ltb_spec (2 * b + 1) (len tbl)) as [G|G].
          - replace (Z.of_nat (2 * b + 1) <? Z.of_nat (len tbl)) with true by (symmetry; apply Z.ltb_lt; lia). apply tbl_get, G.
          - replace (Z.of_nat (2 * b + 1) <? Z.of_nat (len tbl)) with false by (symmetry; apply Z.ltb_ge; lia). apply tbl_get. lia. }
        rewrite E1. cbn [obind]. rewrite E2. cbn [obind]. rewrite (oget_some _ _ _ C1). cbn [obind].
        assert (B1 : 0 <= start <= stop /\ stop <= Z.of_nat bins).
        { assert (stop <= Z.of_nat bins /\ e_ tbl (2 * b) <= stop).
          { unfold stop. destruct (Nat.ltb_spec (2 * b + 1) (len tbl)) as [G|G].
            - split; [apply ends_hi, G|]. apply rising_le; [exact RS|lia].
            - split; [apply ends_hi; lia|lia]. }
          assert (0 <= start <= e_ tbl (2 * b)).
          { unfold start. destruct (2 * b)%nat as [|c] eqn:Ec; cbn [st_]; [assert (X := ends_hi 0 HT); lia|].
            assert (X := ends_hi c ltac:(lia)). assert (Y := rising_le tbl RS c (S c) ltac:(lia)). lia. }
          lia. }
        replace (Z.of_nat base + start) with (Z.of_nat (base + Z.to_nat start)) by lia.
        destruct (lines_run (line_op cs sn ty dir q) (ev q) N C2 (Z.to_nat (stop - start)) (base + Z.to_nat start) dr SZ ltac:(lia)) as (dr1 & L1 & L2 & L3).
        exists dr1. split; [exact L1|]. split; [exact L2|]. intros k. rewrite L3.
        destruct (Nat.leb_spec base k) as [K1|K1].
        + assert (P := sfb_pair tbl (Z.of_nat (k - base)) b RS ltac:(lia) HT). fold start stop in P.
          destruct (Nat.ltb_spec k (base + bins)) as [K2|K2]; cbn [andb].
          * destruct (Nat.leb_spec (base + Z.to_nat start) k) as [A1|A1], (Nat.ltb_spec k (base + Z.to_nat start + Z.to_nat (stop - start))) as [A2|A2]; cbn [andb].
            -- destruct (proj1 P ltac:(lia)) as (j & J1 & J2). rewrite J1, J2, Nat.eqb_refl. reflexivity.
            -- destruct (sfb_at tbl _) as [j|] eqn:J; [|reflexivity]. destruct (Nat.eqb_spec (j / 2) b) as [J2|]; [|reflexivity].
               assert (X := proj2 P (ex_intro _ j (conj eq_refl J2))). lia.
            -- destruct (sfb_at tbl _) as [j|] eqn:J; [|reflexivity]. destruct (Nat.eqb_spec (j / 2) b) as [J2|]; [|reflexivity].
               assert (X := proj2 P (ex_intro _ j (conj eq_refl J2))). lia.
            -- destruct (sfb_at tbl _) as [j|] eqn:J; [|reflexivity]. destruct (Nat.eqb_spec (j / 2) b) as [J2|]; [|reflexivity].
               assert (X := proj2 P (ex_intro _ j (conj eq_refl J2))). lia.
          * replace (k <? base + Z.to_nat start + Z.to_nat (stop - start))%nat with false by (symmetry; apply Nat.ltb_ge; lia).
            rewrite andb_false_r. reflexivity.
        + replace (base + Z.to_nat start <=? k)%nat with false by (symmetry; apply Nat.leb_gt; lia). reflexivity.
      - exists dr. split; [reflexivity|]. split; [exact SZ|]. intros k. destruct (_ && _); [|reflexivity].
        destruct (sfb_at tbl _) as [j|]; [|reflexivity]. destruct (_ =? _)%nat; reflexivity. }
    destruct STEP as (dr1 & S1 & S2 & S3). cbn [obind] in S1 |- *. rewrite S1. cbn [obind]. clear S1.
    assert (NO : nth b row None = o) by (rewrite (nth_error_nth row b None Eo); reflexivity).
    destruct (Z.leb_spec (Z.of_nat (len tbl) - 1) (2 * Z.of_nat b - 1 + 2)) as [G|G].
    + exists dr1. split; [reflexivity|]. split; [exact S2|]. intros k. rewrite S3. f_equal. unfold sel.
      destruct (_ && _); [|reflexivity]. destruct (sfb_at tbl _) as [j|] eqn:J; [|reflexivity].
      destruct (sfb_at_spec _ _ _ J) as (A1 & _).
      assert (j / 2 <= b)%nat by (apply Nat.lt_succ_r; apply Nat.div_lt_upper_bound; lia).
      destruct (Nat.eqb_spec (j / 2) b) as [->|X]; [rewrite Nat.leb_refl, NO; reflexivity|].
      replace (b <=? j / 2)%nat with false by (symmetry; apply Nat.leb_gt; lia). reflexivity.
    + replace (Z.of_nat b + 1) with (Z.of_nat (S b)) by lia. replace (2 * Z.of_nat b - 1 + 2) with (2 * Z.of_nat (S b) - 1) by lia.
      destruct (IH (S b) dr1 ltac:(lia) ltac:(lia) S2) as (dr' & R1 & R2 & R3). exists dr'. split; [exact R1|]. split; [exact R2|].
      intros k. rewrite R3, S3. unfold sel. destruct (_ && _); [|reflexivity]. destruct (sfb_at tbl _) as [j|]; [|reflexivity].
      destruct (Nat.eqb_spec (j / 2) b) as [->|X].
      * rewrite Nat.leb_refl, NO. replace (S b <=? b)%nat with false by (symmetry; apply Nat.leb_gt; lia). reflexivity.
      * destruct (Nat.leb_spec (S b) (j / 2)), (Nat.leb_spec b (j / 2)); try lia; reflexivity.
Qed.
End Win.

(** ** A window *)
Definition angles_in (c : list (list (option Z))) : Prop :=
  Forall (Forall (fun o => match o with Some q => 0 <= q <= 64 | None => True end)) c.

Lemma freq_angles row : forall ref, freq_ok Rotation ref row -> Forall (fun o => match o with Some q => 0 <= q <= 64 | None => True end) row.
Proof.
  induction row as [|[q|] r IH]; intros ref H; cbn [freq_ok] in H; constructor; try exact I; try apply H.
  - eapply IH. apply H.
  - eapply IH. exact H.
Qed.
Lemma time_angles prev row : forall j, time_ok Rotation prev j row -> Forall (fun o => match o with Some q => 0 <= q <= 64 | None => True end) row.
Proof.
  induction row as [|[q|] r IH]; intros j H; cbn [time_ok] in H; constructor; try exact I; try apply H.
  - eapply IH. apply H.
  - eapply IH. exact H.
Qed.
Lemma rows_angles time rows : forall prev, rows_ok Rotation time prev rows -> angles_in rows.
Proof.
  induction rows as [|r rs IH]; intros prev H; cbn [rows_ok] in H; constructor.
  - destruct time; [eapply time_angles|eapply freq_angles]; apply H.
  - eapply IH. apply H.
Qed.
Lemma content_angles time short ref c : content_ok Rotation time short ref c -> angles_in (effect short c).
Proof.
  destruct c as [q|q rows|rows|rows]; cbn [content_ok]; intros H.
  - cbn [effect]. unfold angles_in. apply Forall_forall. intros r Hr. apply repeat_spec in Hr. subst r. apply Forall_forall. intros o Ho. apply repeat_spec in Ho. subst o. exact H.
  - cbn [effect]. unfold angles_in. rewrite Forall_map. apply Forall_forall. intros r _. rewrite Forall_map. apply Forall_forall. intros b _. destruct b; [apply H|exact I].
  - eapply rows_angles, H.
  - eapply rows_angles, H.
Qed.

Definition line_val (cs sn : list f32) (k : kind) (rev : bool) (q : Z) (xy : f32 * f32) : f32 * f32 := upmix cs sn k rev (Some q) xy.

Lemma line_op_val cs sn k rev q x y : len cs = 65%nat -> len sn = 65%nat -> (k = Rotation -> 0 <= q <= 64) ->
  line_op cs sn (kz k) (z1 rev) q x y = Done (line_val cs sn k rev q (x, y)).
Proof.
  intros Hcs' Hsn' HQ. destruct k.
  - unfold line_op, line_val, upmix. cbn [kz Z.eqb fst snd]. unfold pred_line, prediction. destruct rev; reflexivity.
  - specialize (HQ eq_refl). unfold line_op, line_val, upmix. cbn [kz Z.eqb fst snd]. unfold rot_line.
    assert (G : forall l : list f32, len l = 65%nat -> oget l q = Done (nth (Z.to_nat q) l S754_nan)).
    { intros l Hl. rewrite <- (Z2Nat.id q) at 1 by lia. apply oget_nth. lia. }
    change (rot_line cs sn q x y = Done (rotation (nth (Z.to_nat q) cs S754_nan) (nth (Z.to_nat q) sn S754_nan) x y)). unfold rot_line. rewrite (G cs Hcs'), (G sn Hsn'). reflexivity.
Qed.

Lemma evs_upmix cs sn k rev m xy : evs (line_val cs sn k rev) m xy = upmix cs sn k rev m xy.
Proof. destruct m; reflexivity. Qed.

Section Pair.
Context (cs sn : list f32) (k : kind) (s : sbox) (b : box) (ref : Z * list Z) (tbl : list Z) (bins N : nat).
Hypothesis Hcs : len cs = 65%nat.
Hypothesis Hsn : len sn = 65%nat.
Hypothesis HC : content_ok k (s_time s) (s_short s) ref (s_cont s).
Hypothesis HS : shows s b.
Hypothesis HE : ends_ok (Z.of_nat bins) tbl.

Let bpw := bands_of (s_short s) (s_cont s).

Definition in_window (w i : nat) : option Z :=
  if ((w * bins <=? i) && (i <? w * bins + bins))%nat then coefficient s tbl w (Z.of_nat (i - w * bins)) else None.

Lemma process_run w dr : (w < windows (s_short s))%nat -> (w * bins + bins <= N)%nat -> sized2 N dr ->
  exists dr', mc_process cs sn (kz k) b (Z.of_nat (w * bpw)) (Z.of_nat bpw) (Z.of_nat (w * bins)) (Z.of_nat bins) (Z.of_nat (len tbl)) tbl dr = Done dr' /\
    sized2 N dr' /\ forall i, at_ dr' i = upmix cs sn k (s_dir s) (in_window w i) (at_ dr i).
Proof.
  intros HW HN SZ. destruct HS as (_ & _ & S3 & S4 & S5 & S6 & S7 & S8).
  destruct (effect_shape _ _ _ _ _ HC) as (E1 & E2 & E3).
  destruct (nth_error (effect (s_short s) (s_cont s)) w) as [row|] eqn:Er; [|apply nth_error_None in Er; lia].
  assert (LR : len row = bpw) by exact (nth_in _ _ _ _ E2 Er).
  assert (AN : k = Rotation -> forall o q, In o row -> o = Some q -> 0 <= q <= 64).
  { intros -> o q Ho ->. assert (A := content_angles _ _ _ _ HC). assert (B := nth_in _ _ _ _ A Er). rewrite Forall_forall in B. exact (B _ Ho). }
  assert (GEN : (forall i, coefficient s tbl w i = match sfb_at tbl i with Some j => nth (j / 2) row None | None => None end) ->
    exists dr', bands cs sn (kz k) (x_dir b) (x_coef b) (x_mask b) (Z.of_nat (w * bpw)) (Z.of_nat (w * bins)) (Z.of_nat (len tbl)) tbl (Z.to_nat (Z.of_nat bpw)) 0 (-1) dr = Done dr' /\
    sized2 N dr' /\ forall i, at_ dr' i = upmix cs sn k (s_dir s) (in_window w i) (at_ dr i)).
  { intros CO. rewrite Nat2Z.id.
    assert (LT : (2 * 0 < len tbl)%nat) by (destruct HE as (X & _); destruct tbl; [congruence|cbn; lia]).
    destruct (bands_run cs sn (kz k) (x_dir b) (x_coef b) (x_mask b) (line_val cs sn k (s_dir s)) N (w * bins) bins (w * bpw) tbl row HN HE) with (left := bpw) (b := 0%nat) (dr := dr)
      as (dr' & R1 & R2 & R3); auto.
    - intros t o Ho. destruct (S8 w row t o Er Ho) as [M C]. rewrite LR in M, C. split; [exact M|]. intros q Q. split; [apply C, Q|].
      intros x y. rewrite S3. apply line_op_val; auto. intros K. eapply AN; [exact K|eapply nth_error_In, Ho|exact Q].
    - exists dr'. split; [exact R1|]. split; [exact R2|]. intros i. rewrite R3, evs_upmix. f_equal. unfold sel, in_window.
      destruct (_ && _); [|reflexivity]. rewrite CO. destruct (sfb_at tbl _); reflexivity. }
  unfold mc_process. rewrite S5, S6.
  assert (NR : nth w (effect (s_short s) (s_cont s)) [] = row) by (apply nth_error_nth, Er).
  destruct (s_cont s) as [q|q rows|rows|rows] eqn:Ec.
  - clear GEN. cbn [is_wise is_masked z1 Z.eqb andb].
    cbn [effect] in Er. assert (ER : row = repeat (Some q) (64 / windows (s_short s))) by (rewrite nth_error_rep in Er by exact HW; congruence).
    assert (0 < bpw)%nat by (unfold bpw; cbn [bands_of]; destruct (s_short s); cbn; lia).
    assert (N0 : nth_error row 0 = Some (Some q)).
    { rewrite ER. apply nth_error_rep. rewrite <- (repeat_length (Some q) (64 / windows (s_short s))), <- ER. lia. }
    destruct (S8 w row 0%nat (Some q)) as [_ CQ]; [cbn [effect]; exact Er|exact N0|]. specialize (CQ q eq_refl). rewrite Nat.add_0_r, LR in CQ.
    rewrite (oget_some _ _ _ CQ). cbn [obind]. rewrite S3, Nat2Z.id.
    destruct (lines_run (line_op cs sn (kz k) (z1 (s_dir s)) q) (line_val cs sn k (s_dir s) q) N) with (n := bins) (a := (w * bins)%nat) (dr := dr) as (dr' & R1 & R2 & R3); auto.
    { intros x y. apply line_op_val; auto. intros K. eapply AN; [exact K| |reflexivity]. eapply nth_error_In, N0. }
    exists dr'. split; [exact R1|]. split; [exact R2|]. intros i. rewrite R3. unfold in_window, coefficient. rewrite Ec. destruct (_ && _); reflexivity.
  - apply GEN. intros i. unfold coefficient. rewrite Ec, NR. reflexivity.
  - apply GEN. intros i. unfold coefficient. rewrite Ec, NR. reflexivity.
  - apply GEN. intros i. unfold coefficient. rewrite Ec, NR. reflexivity.
Qed.

Lemma windows_run left : forall w dr, (w + left = windows (s_short s))%nat -> (windows (s_short s) * bins <= N)%nat -> sized2 N dr ->
  exists dr', mc_windows cs sn (kz k) b (Z.of_nat bpw) (Z.of_nat bins) (Z.of_nat (len tbl)) tbl left (Z.of_nat w) dr = Done dr' /\
    sized2 N dr' /\ (forall v i, (w <= v < windows (s_short s))%nat -> (i < bins)%nat ->
       at_ dr' (v * bins + i) = upmix cs sn k (s_dir s) (coefficient s tbl v (Z.of_nat i)) (at_ dr (v * bins + i))) /\
    (forall i, (i < w * bins \/ windows (s_short s) * bins <= i)%nat -> at_ dr' i = at_ dr i).
Proof.
  induction left as [|left IH]; intros w dr HW HN SZ.
  - exists dr. split; [reflexivity|]. split; [exact SZ|]. split; [intros; lia|reflexivity].
  - cbn [mc_windows]. replace (Z.of_nat w * Z.of_nat bpw) with (Z.of_nat (w * bpw)) by lia. replace (Z.of_nat w * Z.of_nat bins) with (Z.of_nat (w * bins)) by lia.
    assert (FIT : (w * bins + bins <= N)%nat) by nia.
    destruct (process_run w dr ltac:(lia) FIT SZ) as (d1 & R1 & R2 & R3). rewrite R1. cbn [obind].
    replace (Z.of_nat w + 1) with (Z.of_nat (S w)) by lia.
    destruct (IH (S w) d1 ltac:(lia) HN R2) as (d2 & Q1 & Q2 & Q3 & Q4). exists d2. split; [exact Q1|]. split; [exact Q2|].
    assert (OUT : forall i, (i < w * bins \/ w * bins + bins <= i)%nat -> at_ d1 i = at_ dr i).
    { intros i Hi. rewrite R3. unfold in_window. destruct (Nat.leb_spec (w * bins) i), (Nat.ltb_spec i (w * bins + bins)); cbn [andb]; try reflexivity; lia. }
    split.
    + intros v i Hv Hi. destruct (Nat.eq_dec v w) as [->|NE].
      * rewrite Q4 by (left; nia). rewrite R3. f_equal. unfold in_window.
        replace (w * bins <=? w * bins + i)%nat with true by (symmetry; apply Nat.leb_le; lia).
        replace (w * bins + i <? w * bins + bins)%nat with true by (symmetry; apply Nat.ltb_lt; lia). cbn [andb]. f_equal. lia.
      * rewrite Q3 by lia. f_equal. apply OUT. right. nia.
    + intros i Hi. rewrite Q4 by (destruct Hi; [left; nia|right; nia]). apply OUT. destruct Hi; [left; lia|right; nia].
Qed.

Theorem apply_run dr : (windows (s_short s) * bins <= N)%nat -> sized2 N dr ->
  exists dr', mc_apply cs sn (kz k) b (x_long b) (Z.of_nat bins) (Z.of_nat (len tbl)) tbl (windows (s_short s)) dr = Done dr' /\
    sized2 N dr' /\ (forall w i, (w < windows (s_short s))%nat -> (i < bins)%nat ->
       at_ dr' (w * bins + i) = upmix cs sn k (s_dir s) (coefficient s tbl w (Z.of_nat i)) (at_ dr (w * bins + i))) /\
    (forall i, (windows (s_short s) * bins <= i)%nat -> at_ dr' i = at_ dr i).
Proof.
  intros HN SZ. unfold mc_apply.
  replace (if x_long b =? 0 then x_nb b / 8 else x_nb b) with (Z.of_nat bpw).
  - destruct (windows_run (windows (s_short s)) 0 dr eq_refl HN SZ) as (dr' & R1 & R2 & R3 & R4).
    exists dr'. split; [exact R1|]. split; [exact R2|]. split; [intros; apply R3; lia|intros; apply R4; right; lia].
  - destruct HS as (_ & _ & _ & S4 & _ & _ & S7 & _). rewrite S4, S7.
    destruct (effect_shape _ _ _ _ _ HC) as (E1 & E2 & _). fold bpw in E2.
    assert (LC : len (List.concat (effect (s_short s) (s_cont s))) = (windows (s_short s) * bpw)%nat).
    { rewrite <- E1. clear -E2. induction E2 as [|r rs Hr _ IH]; [reflexivity|]. cbn [List.concat length]. rewrite app_length, IH, Hr. reflexivity. }
    rewrite LC. destruct (s_short s); cbn [windows].
    + replace (Z.of_nat (8 * bpw)) with (Z.of_nat bpw * 8) by lia. rewrite Z.div_mul by lia. reflexivity.
    + f_equal. lia.
Qed.
End Pair.
