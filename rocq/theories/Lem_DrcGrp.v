(** * Lem_DrcGrp: the channel groups of an accepted DRC configuration *)

From Coq Require Import ZArith List Lia Bool.
From Verif Require Import Bits BitBuf Prog Asi Wp Wlp Leaf Loud DrcCfg Spec_Drc Lem_DrcCfg.
Import ListNotations.
Open Scope Z_scope.

Lemma leaf_forR {S} (I : nat -> S -> Prop) (body : nat -> S -> prog (res S)) (Q : res S -> Prop) :
  forall n i s,
  I i s ->
  (forall j t, (i <= j < i + n)%nat -> I j t -> leaf (body j t) (okP (I (Datatypes.S j)))) ->
  (forall t, I (i + n)%nat t -> Q (Ok t)) -> (forall c, Q (Er c)) ->
  leaf (forR n i body s) Q.
Proof.
  induction n as [|n IH]; intros i s H0 HB HQ HE; cbn [forR].
  - cbn. apply HQ. rewrite Nat.add_0_r. exact H0.
  - apply leaf_bind. eapply leaf_mono; [|apply HB; [lia|exact H0]].
    intros [u|c]; cbn [okP]; [|intros _; apply HE]. intros Hu. apply IH; auto.
    + intros j t Hj. apply HB. lia.
    + intros t Ht. apply HQ. replace (i + Datatypes.S n)%nat with (Datatypes.S i + n)%nat by lia. exact Ht.
Qed.
Lemma leaf_chk i n (Q : unit -> Prop) : (0 <= i < n -> Q tt) -> leaf (chk i n) Q.
Proof.
  intros H. unfold chk. destruct (Z.leb_spec 0 i), (Z.ltb_spec i n); cbn; auto.
Qed.

Section Groups.
  Context {A B : Type} (key : A -> B) (used : A -> Prop).

  Lemma nth_snoc {T} (l : list T) x i y : nth_error (l ++ [x]) i = Some y ->
    (i < length l)%nat /\ nth_error l i = Some y \/ i = length l /\ y = x.
  Proof.
    intros H. destruct (Nat.lt_ge_cases i (length l)) as [L|L].
    - left. rewrite nth_error_app1 in H by exact L. auto.
    - rewrite nth_error_app2 in H by exact L. destruct (i - length l)%nat as [|m] eqn:E.
      + right. split; [lia|]. cbn in H. congruence.
      + cbn in H. destruct m; discriminate.
  Qed.
  Lemma nth_snoc_l {T} (l : list T) x i y : nth_error l i = Some y -> nth_error (l ++ [x]) i = Some y.
  Proof. intros H. rewrite nth_error_app1; [exact H|]. apply nth_error_Some. congruence. Qed.
  Lemma nth_snoc_r {T} (l : list T) x : nth_error (l ++ [x]) (length l) = Some x.
  Proof. rewrite nth_error_app2 by lia. rewrite Nat.sub_diag. reflexivity. Qed.

  Lemma part_nil : partitioned key used [] [] [].
  Proof.
    split; [constructor|]. split; [reflexivity|].
    split; [|split]; intros i ? H; destruct i; discriminate.
  Qed.

  Lemma part_unused chs gr cg x : partitioned key used chs gr cg -> ~ used x ->
    partitioned key used (chs ++ [x]) gr (cg ++ [-1]).
  Proof.
    intros (P1 & P2 & P3 & P4 & P5) U. split; [exact P1|]. split; [rewrite !app_length; cbn; lia|].
    split; [|split].
    - intros ch y H N. apply nth_snoc in H. destruct H as [(_ & H)|(-> & ->)].
      + apply nth_snoc_l. eauto.
      + rewrite <- P2. apply nth_snoc_r.
    - intros ch y H Y. apply nth_snoc in H. destruct H as [(_ & H)|(-> & ->)]; [|contradiction].
      destruct (P4 _ _ H Y) as (g & G1 & G2). exists g. split; [apply nth_snoc_l, G1|exact G2].
    - intros g b H. destruct (P5 _ _ H) as (ch & y & Y1 & Y2 & Y3 & Y4 & Y5). exists ch, y.
      split; [apply nth_snoc_l, Y1|]. split; [exact Y2|]. split; [exact Y3|]. split; [apply nth_snoc_l, Y4|].
      intros ch' h Hh L. apply nth_snoc in Hh. destruct Hh as [(_ & Hh)|(_ & Hh)]; [eauto|lia].
  Qed.

  Lemma part_old chs gr cg x g : partitioned key used chs gr cg -> used x ->
    nth_error gr g = Some (key x) -> partitioned key used (chs ++ [x]) gr (cg ++ [Z.of_nat g]).
  Proof.
    intros (P1 & P2 & P3 & P4 & P5) U HG. split; [exact P1|]. split; [rewrite !app_length; cbn; lia|].
    split; [|split].
    - intros ch y H N. apply nth_snoc in H. destruct H as [(_ & H)|(-> & ->)]; [|contradiction].
      apply nth_snoc_l. eauto.
    - intros ch y H Y. apply nth_snoc in H. destruct H as [(_ & H)|(-> & ->)].
      + destruct (P4 _ _ H Y) as (m & G1 & G2). exists m. split; [apply nth_snoc_l, G1|exact G2].
      + exists g. split; [rewrite <- P2; apply nth_snoc_r|exact HG].
    - intros m b H. destruct (P5 _ _ H) as (ch & y & Y1 & Y2 & Y3 & Y4 & Y5). exists ch, y.
      split; [apply nth_snoc_l, Y1|]. split; [exact Y2|]. split; [exact Y3|]. split; [apply nth_snoc_l, Y4|].
      intros ch' h Hh L. apply nth_snoc in Hh. destruct Hh as [(_ & Hh)|(-> & Hh)]; [eauto|].
      rewrite P2. apply nth_error_Some. congruence.
  Qed.

  Lemma part_new chs gr cg x : partitioned key used chs gr cg -> used x -> ~ In (key x) gr ->
    partitioned key used (chs ++ [x]) (gr ++ [key x]) (cg ++ [Z.of_nat (length gr)]).
  Proof.
    intros (P1 & P2 & P3 & P4 & P5) U HG. split.
    { apply NoDup_snoc; assumption. }
    split; [rewrite !app_length; cbn; lia|]. split; [|split].
    - intros ch y H N. apply nth_snoc in H. destruct H as [(_ & H)|(-> & ->)]; [|contradiction].
      apply nth_snoc_l. eauto.
    - intros ch y H Y. apply nth_snoc in H. destruct H as [(_ & H)|(-> & ->)].
      + destruct (P4 _ _ H Y) as (m & G1 & G2). exists m. split; apply nth_snoc_l; assumption.
      + exists (length gr). split; [rewrite <- P2; apply nth_snoc_r|apply nth_snoc_r].
    - intros m b H. apply nth_snoc in H. destruct H as [(Lm & H)|(-> & ->)].
      + destruct (P5 _ _ H) as (ch & y & Y1 & Y2 & Y3 & Y4 & Y5). exists ch, y.
        split; [apply nth_snoc_l, Y1|]. split; [exact Y2|]. split; [exact Y3|]. split; [apply nth_snoc_l, Y4|].
        intros ch' h Hh L. apply nth_snoc in Hh. destruct Hh as [(_ & Hh)|(-> & Hh)]; [eauto|].
        rewrite P2. apply nth_error_Some. congruence.
      + exists (length chs), x. split; [apply nth_snoc_r|]. split; [exact U|]. split; [reflexivity|].
        split; [rewrite <- P2; apply nth_snoc_r|].
        intros ch' h Hh L. exfalso. apply nth_snoc in Hh. destruct Hh as [(Lc & Hh)|(_ & Hh)]; [|lia].
        rewrite P2 in Lc. apply nth_error_Some in Lc.
        destruct (nth_error chs ch') as [y|] eqn:Ey; [|congruence].
        assert (D : used y \/ ~ used y).
        { destruct (nth_error cg ch') as [z|] eqn:Ez; [|discriminate]. inversion Hh; subst z.
          destruct (Nat.lt_ge_cases h (length gr)) as [Q|Q]; [|right; intros Uy].
          - lia.
          - destruct (P4 _ _ Ey Uy) as (g & G1 & G2). rewrite Ez in G1. inversion G1.
            assert (h = g) by lia. subst g.
            assert (h < length gr)%nat by (apply nth_error_Some; congruence). lia. }
        destruct D as [Uy|Uy].
        * destruct (P4 _ _ Ey Uy) as (g & G1 & G2). rewrite Hh in G1. inversion G1.
          assert (h = g) by lia. subst g.
          assert (h < length gr)%nat by (apply nth_error_Some; congruence). lia.
        * rewrite (P3 _ _ Ey Uy) in Hh. inversion Hh. lia.
  Qed.
End Groups.

Lemma find_pos_some {A} eqb (x : A) u : forall n m, find_pos eqb x u n = Some m ->
  exists k y, m = n + Z.of_nat k /\ nth_error u k = Some y /\ eqb x y = true.
Proof.
  induction u as [|y t IH]; intros n m H; cbn in H; [discriminate|].
  destruct (eqb x y) eqn:E.
  - inversion H; subst. exists O, y. split; [lia|]. auto.
  - apply IH in H. destruct H as (k & z & H1 & H2 & H3). exists (S k), z. split; [lia|]. auto.
Qed.
Lemma find_pos_none {A} eqb (x : A) u : forall n, find_pos eqb x u n = None -> forall y, In y u -> eqb x y = false.
Proof.
  induction u as [|y t IH]; intros n H z Hz; [destruct Hz|]. cbn in H.
  destruct (eqb x y) eqn:E; [discriminate|]. destruct Hz as [<-|Hz]; eauto.
Qed.

Lemma group_loop_leaf {A} eqb unused (l : list A) :
  (forall x y, eqb x y = true <-> x = y) -> forall chs uniq cg,
  partitioned (fun x => x) (fun x => unused x = false) chs uniq cg ->
  leaf (group_loop eqb unused l uniq cg)
       (fun r => partitioned (fun x => x) (fun x => unused x = false) (chs ++ l) (fst r) (snd r)).
Proof.
  intros HE. induction l as [|x t IH]; intros chs uniq cg P; cbn [group_loop].
  - cbn. rewrite app_nil_r. exact P.
  - replace (chs ++ x :: t) with ((chs ++ [x]) ++ t) by (rewrite <- app_assoc; reflexivity).
    destruct (unused x) eqn:U.
    + apply IH. apply part_unused; [exact P|congruence].
    + destruct (find_pos eqb x uniq 0) as [n|] eqn:F.
      * apply find_pos_some in F. destruct F as (k & y & -> & F1 & F2). apply HE in F2. subst y.
        apply IH. apply part_old; auto.
      * apply leaf_bind. apply leaf_chk. intros _. apply IH.
        apply (part_new (fun x => x)); auto. intros Hin. pose proof (find_pos_none _ _ _ _ F _ Hin) as X.
        assert (eqb x x = true) by (apply HE; reflexivity). congruence.
Qed.

Lemma duck_other_leaf (l : list (Z * Z)) : forall chs uniq cg seq,
  partitioned (fun x => snd x) (fun x => fst x < 0) chs uniq cg ->
  (seq <> -1 -> In seq (map fst chs) /\ 0 <= seq) ->
  leaf (duck_other_loop l uniq cg seq)
       (okP (fun r => partitioned (fun x => snd x) (fun x => fst x < 0) (chs ++ l) (fst (fst r)) (snd (fst r)) /\
                      In (snd r) (map fst (chs ++ l)) /\ 0 <= snd r)).
Proof.
  induction l as [|[idx f] t IH]; intros chs uniq cg seq P HS; cbn [duck_other_loop].
  - destruct (Z.eqb_spec seq (-1)) as [E|E]; cbn; [exact I|]. rewrite app_nil_r. split; [exact P|apply HS, E].
  - replace (chs ++ (idx, f) :: t) with ((chs ++ [(idx, f)]) ++ t) by (rewrite <- app_assoc; reflexivity).
    destruct (Z.leb_spec 0 idx) as [U|U].
    + destruct (negb (idx =? seq) && (0 <? seq)); [exact I|]. apply IH.
      * apply (part_unused (fun x : Z * Z => snd x) (fun x => fst x < 0)); [exact P|cbn; lia].
      * intros _. split; [|exact U]. rewrite map_app. apply in_or_app. right. left. reflexivity.
    + assert (HS' : seq <> -1 -> In seq (map fst (chs ++ [(idx, f)])) /\ 0 <= seq).
      { intros N. destruct (HS N) as [H1 H2]. split; [|exact H2]. rewrite map_app. apply in_or_app. auto. }
      destruct (find_pos Z.eqb f uniq 0) as [n|] eqn:F.
      * apply find_pos_some in F. destruct F as (k & y & -> & F1 & F2). apply Z.eqb_eq in F2. subst y.
        apply IH; [|exact HS']. apply (part_old (fun x : Z * Z => snd x) (fun x => fst x < 0)); auto.
      * apply leaf_bind. apply leaf_chk. intros _. apply IH; [|exact HS'].
        apply (part_new (fun x : Z * Z => snd x) (fun x => fst x < 0) chs uniq cg (idx, f)); [exact P|cbn; lia|].
        intros Hin. pose proof (find_pos_none _ _ _ _ F _ Hin) as X. cbn in X. rewrite Z.eqb_refl in X. discriminate.
Qed.

Lemma duck_other_only (l : list (Z * Z)) : forall chs uniq cg seq,
  (forall j, In j (map fst chs) -> 0 <= j -> j = seq \/ j = 0) ->
  leaf (duck_other_loop l uniq cg seq)
       (okP (fun r => forall j, In j (map fst (chs ++ l)) -> 0 <= j -> j = snd r \/ j = 0)).
Proof.
  induction l as [|[idx f] t IH]; intros chs uniq cg seq HS; cbn [duck_other_loop].
  - destruct (seq =? -1); cbn; [exact I|]. rewrite app_nil_r. exact HS.
  - replace (chs ++ (idx, f) :: t) with ((chs ++ [(idx, f)]) ++ t) by (rewrite <- app_assoc; reflexivity).
    destruct (Z.leb_spec 0 idx) as [U|U].
    + destruct (Z.eqb_spec idx seq) as [E|E]; destruct (Z.ltb_spec 0 seq) as [K|K]; cbn [negb andb]; try exact I; apply IH;
        intros j Hj H0; rewrite map_app in Hj; apply in_app_or in Hj; destruct Hj as [Hj|[<-|[]]]; auto;
        destruct (HS j Hj H0); lia.
    + assert (HS' : forall j, In j (map fst (chs ++ [(idx, f)])) -> 0 <= j -> j = seq \/ j = 0).
      { intros j Hj H0. rewrite map_app in Hj. apply in_app_or in Hj. destruct Hj as [Hj|[<-|[]]]; [auto|cbn in H0; lia]. }
      destruct (find_pos Z.eqb f uniq 0) as [n|]; [apply IH, HS'|].
      apply leaf_bind, leaf_chk. intros _. apply IH, HS'.
Qed.

(** Effect bits. *)
Lemma land_bit e n : 0 <= n -> (Z.land e (2 ^ n) =? 0) = negb (Z.testbit e n).
Proof.
  intros Hn. destruct (Z.testbit e n) eqn:T; cbn.
  - apply Z.eqb_neq. intros H. assert (X : Z.testbit (Z.land e (2 ^ n)) n = false) by (rewrite H; apply Z.bits_0).
    rewrite Z.land_spec, T, Z.pow2_bits_true in X by exact Hn. discriminate.
  - apply Z.eqb_eq. apply Z.bits_inj'. intros m Hm. rewrite Z.land_spec, Z.bits_0.
    destruct (Z.eq_dec m n) as [->|N]; [rewrite T; reflexivity|].
    rewrite Z.pow2_bits_false by lia. apply andb_false_r.
Qed.
Lemma duck_self_bit e : duck_self e = Z.testbit e 11.
Proof. unfold duck_self. change 0x800 with (2 ^ 11). rewrite land_bit by lia. apply negb_involutive. Qed.
Lemma duck_other_bit e : duck_other e = Z.testbit e 10.
Proof. unfold duck_other. change 0x400 with (2 ^ 10). rewrite land_bit by lia. apply negb_involutive. Qed.
Lemma duck_bits_bit e : duck_bits e = Z.testbit e 10 || Z.testbit e 11.
Proof.
  rewrite <- duck_self_bit, <- duck_other_bit. unfold duck_bits, duck_self, duck_other.
  change 0xC00 with (Z.lor 0x400 0x800). rewrite Z.land_lor_distr_r.
  destruct (Z.eqb_spec (Z.lor (Z.land e 0x400) (Z.land e 0x800)) 0) as [H|H].
  - apply Z.lor_eq_0_iff in H. destruct H as [-> ->]. reflexivity.
  - destruct (Z.eqb_spec (Z.land e 0x400) 0) as [E1|]; [|reflexivity].
    destruct (Z.eqb_spec (Z.land e 0x800) 0) as [E2|]; [|reflexivity]. rewrite E1, E2 in H. contradiction.
Qed.

(** ** Channel counts *)
Lemma channel_loop_leaf {A} (item : prog (res (A * Z))) cnt : forall fuel acc,
  leaf (channel_loop fuel item cnt acc) (okP (fun l => cnt <= zlen l)).
Proof.
  induction fuel as [|f IH]; intros acc; cbn [channel_loop];
    destruct (Z.leb_spec cnt (zlen acc)); try exact I; try (cbn; assumption).
  apply leaf_bind. apply leaf_any. intros [[a rep]|e]; [|exact I].
  apply leaf_bind. apply leaf_any. intros _. destruct (rep =? 1); [|apply IH].
  apply leaf_bind. apply leaf_any. intros n. destruct (CHANNEL_MAX <? _); [exact I|].
  apply leaf_bind. apply leaf_any. intros acc'. apply IH.
Qed.

Definition plain_right (ids : list Z) (p : chpart) : Prop :=
  match ids with
  | [d] => d <> 127 -> partitioned (fun k => k) (fun k => 0 <= k) (cp_gsi p) (cp_sets p) (cp_cg p)
  | _ => cp_sets p = filter (Z.leb 0) (cp_gsi p)
  end.

Lemma part_used {A B} (key : A -> B) (U V : A -> Prop) chs gr cg : (forall x, U x <-> V x) ->
  partitioned key U chs gr cg -> partitioned key V chs gr cg.
Proof.
  intros HUV (P1 & P2 & P3 & P4 & P5). split; [exact P1|]. split; [exact P2|]. split; [|split].
  - intros ch x Hx N. apply (P3 _ _ Hx). rewrite HUV. exact N.
  - intros ch x Hx Y. apply (P4 _ _ Hx). rewrite HUV. exact Y.
  - intros g b H. destruct (P5 _ _ H) as (ch & x & X1 & X2 & X3). exists ch, x. rewrite <- HUV. auto.
Qed.

Lemma not_self_other_leaf dmxs ids base c : ids <> [] ->
  leaf (not_self_other dmxs ids base c)
       (okP (fun p => plain_right ids p /\ update_ch_count dmxs ids base = Ok (zlen (cp_gsi p)))).
Proof.
  intros HN. unfold not_self_other. destruct (update_ch_count dmxs ids base) as [cnt|e] eqn:EC; [|exact I].
  apply leaf_bind. eapply leaf_mono; [|apply channel_loop_leaf].
  intros [gsi|e]; cbn [okP]; intros HL; [|exact I]. destruct (Z.ltb_spec cnt (zlen gsi)) as [H|H]; [exact I|].
  assert (Hc : cnt = zlen gsi) by lia. subst cnt.
  apply leaf_bind. apply leaf_mono with (Q := fun x =>
    plain_right ids (mkCP gsi [] (snd x) (fst x) [] [])).
  - intros [uniq cg] HP. cbn [fst snd] in HP. destruct (CHANNEL_MAX <? zlen uniq); [exact I|].
    apply leaf_bind. apply leaf_any. intros [mods|e]; cbn; [|exact I]. split; [|reflexivity].
    exact HP.
  - destruct ((hd 0 ids =? 127) || (1 <? zlen ids)) eqn:E.
    + assert (L : zlen gsi = 1) by (eapply channel_any_nonempty; eauto).
      destruct gsi as [|g [|? ?]]; [discriminate L| |unfold zlen in L; cbn in L; lia].
      cbn. unfold plain_right. destruct ids as [|d [|d2 t]]; [contradiction| |].
      * intros N. exfalso. cbn in E. apply orb_true_iff in E. destruct E as [E|E]; [|discriminate].
        apply Z.eqb_eq in E. contradiction.
      * cbn. destruct (0 <=? g); reflexivity.
    + apply orb_false_iff in E. destruct E as [E1 E2].
      eapply leaf_mono; [|apply (group_loop_leaf Z.eqb (fun i => i <? 0) gsi Z.eqb_eq [] [] [])].
      2: apply part_nil.
      intros [uniq cg] HP. cbn [fst snd app] in *. unfold plain_right.
      destruct ids as [|d [|d2 t]]; [contradiction| |].
      * intros N. cbn. eapply part_used; [|exact HP]. intros x. cbn. rewrite Z.ltb_ge. reflexivity.
      * exfalso. apply Z.ltb_ge in E2. unfold zlen in E2. cbn [length] in E2. lia.
Qed.

Lemma combine_fst_snd {A B} (l : list (A * B)) : combine (map fst l) (map snd l) = l.
Proof. induction l as [|[a b] t IH]; cbn; [reflexivity|]. rewrite IH. reflexivity. Qed.

Definition duck_right (eff : Z) (p : chpart) : Prop :=
  length (cp_duck p) = length (cp_gsi p) /\
  (duck_other eff = false ->
     partitioned (fun x => x) (fun x => 0 <= fst x) (combine (cp_gsi p) (cp_duck p))
                 (combine (cp_sets p) (cp_scal p)) (cp_cg p) /\
     length (cp_sets p) = length (cp_scal p)) /\
  (duck_other eff = true -> duck_self eff = false ->
     partitioned (fun x => snd x) (fun x => fst x < 0) (combine (cp_gsi p) (cp_duck p)) (cp_scal p) (cp_cg p) /\
     exists k, In k (cp_gsi p) /\ 0 <= k /\ cp_sets p = map (fun _ => k) (cp_scal p) /\
       forall j, In j (cp_gsi p) -> 0 <= j -> j = k \/ j = 0) /\
  (duck_other eff = true -> duck_self eff = true -> cp_sets p = []).

Lemma sets_loop_leaf eff seq (uidx uscal : list Z) (Q : res (list Z) -> Prop) : length uidx = length uscal ->
  (Forall (Z.le 0) (map (fun i => if duck_other eff then seq else i) uidx) ->
   Q (Ok (map (fun i => if duck_other eff then seq else i) uidx))) -> (forall e, Q (Er e)) ->
  leaf (forR (length uscal) 0 (fun g acc =>
         i <- aget uidx (Z.of_nat g) ;;
         let set := if duck_other eff then seq else i in
         if set <? 0 then Ret (Er E_DRC_UNEXPECTED) else
         chk (Z.of_nat g) GROUP_MAX ;;;
         Ret (Ok (acc ++ [set]))) []) Q.
Proof.
  intros HL HQ HE. set (f := fun i => if duck_other eff then seq else i).
  apply leaf_forR with (I := fun j acc => acc = firstn j (map f uidx) /\ Forall (Z.le 0) acc); [split; [reflexivity|constructor]| | |exact HE].
  - intros j acc Hj (-> & HF). apply leaf_bind. apply leaf_aget. intros i _ Hi. rewrite Nat2Z.id in Hi.
    cbv zeta. destruct (Z.ltb_spec (if duck_other eff then seq else i) 0) as [|H0]; [exact I|]. apply leaf_bind. apply leaf_chk. intros _. cbn [leaf okP].
    change (if duck_other eff then seq else i) with (f i) in *.
    split; [|apply Forall_app; split; [exact HF|constructor; [exact H0|constructor]]]. symmetry.
    assert (X : nth_error (map f uidx) j = Some (f i)) by (apply map_nth_error, Hi).
    clear - X. revert j X. induction (map f uidx) as [|y t IH]; intros [|j] X; try discriminate; cbn in *.
    + congruence.
    + f_equal. apply IH, X.
  - intros acc (-> & HF). cbn [plus] in *. rewrite firstn_all2 in * by (rewrite map_length; lia). apply HQ, HF.
Qed.

Lemma pair_eqb_eq x y : pair_eqb x y = true <-> x = y.
Proof.
  destruct x as [a b], y as [c d]. unfold pair_eqb; cbn. rewrite andb_true_iff, !Z.eqb_eq. split.
  - intros [-> ->]. reflexivity.
  - intros E. inversion E. auto.
Qed.

Lemma self_other_leaf eff base : leaf (self_other eff base)
  (okP (fun p => (duck_bits eff = true -> duck_right eff p) /\ base = zlen (cp_gsi p))).
Proof.
  unfold self_other. apply leaf_bind. eapply leaf_mono; [|apply channel_loop_leaf].
  intros [chs|e]; cbn [okP]; intros HL; [|exact I]. destruct (Z.ltb_spec base (zlen chs)) as [H|H]; [exact I|].
  assert (Hc : base = zlen chs) by lia. clear HL H.
  apply leaf_bind.
  apply leaf_mono with (Q := okP (fun x : list Z * list Z * list Z * Z =>
    let '(uidx, uscal, cg, seq) := x in length uidx = length uscal /\
    (if duck_self eff then partitioned (fun x => x) (fun x => 0 <= fst x) chs (combine uidx uscal) cg
     else partitioned (fun x => snd x) (fun x => fst x < 0) chs uscal cg /\ In seq (map fst chs) /\ 0 <= seq /\
          forall j, In j (map fst chs) -> 0 <= j -> j = seq \/ j = 0) /\
    (duck_self eff = true -> seq = -1))).
  - intros [[[[uidx uscal] cg] seq]|e]; cbn [okP]; [|intros _; exact I]. intros (HL & HP & HS).
    destruct (CHANNEL_MAX <? zlen uscal); [exact I|].
    apply leaf_bind. apply sets_loop_leaf; [exact HL| |intros e; exact I]. intros HF0.
    cbn [leaf okP]. cbn [cp_gsi]. split; [|unfold zlen; rewrite map_length; exact Hc].
    intros HD. unfold duck_right; cbn [cp_duck cp_gsi cp_sets cp_scal cp_cg].
    rewrite !map_length, combine_fst_snd. split; [reflexivity|]. split; [|split].
    + intros DO. rewrite DO. rewrite map_id.
      assert (DS : duck_self eff = true).
      { rewrite duck_bits_bit in HD. rewrite duck_other_bit in DO. rewrite DO in HD. rewrite duck_self_bit. exact HD. }
      rewrite DS in HP. auto.
    + intros DO DS. rewrite DS in HP. rewrite DO. destruct HP as (P1 & P2 & P3 & P4). split; [exact P1|].
      exists seq. split; [exact P2|]. split; [exact P3|]. split; [|exact P4]. clear - HL. revert uscal HL.
      induction uidx as [|a t IH]; intros [|b u] HL; cbn in *; try discriminate; [reflexivity|]. f_equal. apply IH. lia.
    + intros DO DS. rewrite DO, (HS DS) in HF0. rewrite DO, (HS DS). destruct uidx as [|a t]; [reflexivity|].
      exfalso. apply Forall_inv in HF0. lia.
  - destruct (duck_self eff) eqn:DS.
    + apply leaf_bind. eapply leaf_mono; [|apply (group_loop_leaf pair_eqb (fun x => fst x <? 0) chs pair_eqb_eq [] [] []), part_nil].
      intros [u g] HP. cbn [leaf okP fst snd app] in *. rewrite !map_length. split; [reflexivity|].
      rewrite combine_fst_snd. split; [|reflexivity]. eapply part_used; [|exact HP]. intros x. cbn. rewrite Z.ltb_ge. reflexivity.
    + apply leaf_bind. eapply leaf_mono; [|apply leaf_conj; [apply (duck_other_leaf chs [] [] [] (-1)); [apply part_nil|intros N; contradiction]|
        apply (duck_other_only chs [] [] [] (-1)); intros j []]].
      intros [[[u g] q]|e]; cbn [okP fst snd app]; [|intros _; exact I]. intros ((P1 & P2 & P3) & P4). cbn [leaf okP]. rewrite map_length.
      split; [reflexivity|]. split; [auto|discriminate].
Qed.

Definition instr_right (dmxs : list (Z * Z)) (base : Z) (i : instr) : Prop :=
  groups_right i /\ spec_channels dmxs base i = Some (zlen (in_gsi i)).

Lemma spec_channels_ok dmxs ids base n (i : instr) : in_dmx i = ids -> ids <> [] -> duck_bits (in_effect i) = false ->
  update_ch_count dmxs ids base = Ok n -> spec_channels dmxs base i = Some n.
Proof.
  intros HI HN HD. unfold update_ch_count, spec_channels. rewrite HI, <- duck_bits_bit, HD.
  destruct ids as [|d [|d2 t]]; [contradiction| |].
  - cbn [hd]. change (zlen [d]) with 1. cbn [Z.eqb Pos.eqb]. rewrite andb_true_r, orb_false_r.
    destruct (d =? 0) eqn:E0; cbn [negb andb].
    + destruct (Z.eqb_spec d 127) as [->|]; [discriminate|].
      destruct (CHANNEL_MAX <? base); intros H; inversion H; reflexivity.
    + destruct (d =? 127) eqn:E1; cbn [negb andb].
      * cbn. intros H; inversion H; reflexivity.
      * destruct (find (fun x => fst x =? d) dmxs) as [x|]; [|discriminate]. cbn [option_map].
        destruct (CHANNEL_MAX <? snd x); intros H; inversion H; reflexivity.
  - cbn [hd]. assert (Z1 : 1 <? zlen (d :: d2 :: t) = true) by (apply Z.ltb_lt; unfold zlen; cbn [length]; lia).
    assert (Z2 : zlen (d :: d2 :: t) =? 1 = false) by (apply Z.eqb_neq; unfold zlen; cbn [length]; lia).
    rewrite Z1, Z2, andb_false_r, orb_true_r. cbn. congruence.
Qed.

Lemma downmix_id_nonempty : leaf parse_downmix_id (fun l => l <> []).
Proof.
  unfold parse_downmix_id. apply leaf_bind. apply leaf_any. intros d. apply leaf_bind. apply leaf_any. intros f.
  destruct (f =? 0); [cbn; discriminate|]. apply leaf_bind. apply leaf_any. intros n.
  apply leaf_for with (I := fun l => l <> []); [discriminate| |auto].
  intros j t Ht. apply leaf_bind. apply leaf_any. intros _. apply leaf_bind. apply leaf_any. intros v. cbn.
  destruct t; discriminate.
Qed.

Lemma parse_instructions_leaf dmxs base cs ty grp pre :
  leaf (parse_instructions dmxs base cs ty grp pre) (okP (instr_right dmxs base)).
Proof.
  unfold parse_instructions. apply leaf_bind, leaf_any. intros id. destruct (INSTR_MAX <=? id); [exact I|].
  apply leaf_bind, leaf_any. intros loc. apply leaf_bind. eapply leaf_mono; [|apply downmix_id_nonempty]. intros ids HN.
  apply leaf_bind, leaf_any. intros eff. apply leaf_bind, leaf_any. intros lim.
  apply leaf_bind, leaf_any. intros [[tf up] lo]. apply leaf_bind, leaf_any. intros dp.
  destruct (_ && _); [exact I|]. apply leaf_bind, leaf_any. intros [dep noind].
  destruct (last_coef cs loc) as [c|]; [|exact I]. destruct (CHANNEL_MAX <? base); [exact I|].
  apply leaf_bind.
  apply leaf_mono with (Q := okP (fun p => if duck_bits eff then duck_right eff p /\ base = zlen (cp_gsi p)
     else plain_right ids p /\ update_ch_count dmxs ids base = Ok (zlen (cp_gsi p)))).
  - intros [p|e]; cbn [okP]; [|intros _; exact I]. intros HP. destruct (_ && _); [exact I|].
    cbn [leaf okP]. unfold instr_right, groups_right.
    cbn [in_effect in_dmx in_gsi in_sets in_cg in_duck in_scal].
    rewrite <- duck_other_bit, <- duck_self_bit.
    destruct (duck_bits eff) eqn:DB.
    + assert (DB' := DB). rewrite duck_bits_bit, <- duck_other_bit, <- duck_self_bit in DB'.
      destruct HP as ((D1 & D2 & D3 & D5) & D4). split; [split; [|split; [|split]]|].
      * intros O S. rewrite O, S in DB'. discriminate.
      * intros O _. destruct (D2 O) as (X & Y). auto.
      * intros O S. destruct (D3 O S) as (X & Y). auto.
      * exact D5.
      * unfold spec_channels. cbn [in_effect]. rewrite <- duck_bits_bit, DB. congruence.
    + assert (DB' := DB). rewrite duck_bits_bit, <- duck_other_bit, <- duck_self_bit in DB'.
      apply orb_false_iff in DB'. destruct DB' as [O S]. destruct HP as (P1 & P2). split; [split; [|split; [|split]]|].
      * intros _ _. exact P1.
      * intros _ S'. congruence.
      * intros O' _. congruence.
      * intros O' _. congruence.
      * eapply spec_channels_ok; eauto.
  - destruct (duck_bits eff) eqn:DB.
    + eapply leaf_mono; [|apply self_other_leaf]. intros [p|e]; cbn [okP]; [|auto]. intros (H1 & H2). auto.
    + apply not_self_other_leaf, HN.
Qed.

Lemma parse_instr_one_leaf dmxs base cs : leaf (parse_instr_one dmxs base cs) (okP (instr_right dmxs base)).
Proof.
  unfold parse_instr_one. apply leaf_bind, leaf_any. intros t. apply leaf_bind, leaf_any.
  intros [[ty grp] pre]. apply parse_instructions_leaf.
Qed.

Lemma derived_leaf dmxs base tdef cs i : instr_right dmxs base i ->
  leaf (derived_data tdef cs i) (okP (instr_right dmxs base)).
Proof.
  intros HR. unfold derived_data. destruct (first_coef cs (in_loc i)) as [c|]; [|exact I].
  apply leaf_bind, leaf_any. intros [d|e]; [|exact I]. cbn [leaf okP]. exact HR.
Qed.

Theorem parse_config_leaf fx dmxs tdef : leaf (parse_config fx dmxs tdef)
  (okP (fun c => forall i, In i (dc_instr c) -> instr_right dmxs (dc_base c) i)).
Proof.
  unfold parse_config. apply leaf_bind, leaf_any. intros nc. destruct (_ <? _); [exact I|].
  apply leaf_bind, leaf_any. intros ni. destruct (_ <? _); [exact I|]. apply leaf_bind, leaf_any. intros base.
  apply leaf_bind, leaf_any. intros [cs|e]; [|exact I]. apply leaf_bind.
  apply leaf_forR with (I := fun j acc => forall i, In i acc -> instr_right dmxs base i).
  { intros i []. }
  { intros j acc Hj HI. apply leaf_bind, leaf_any. intros _. apply leaf_bind.
    eapply leaf_mono; [|apply parse_instr_one_leaf]. intros [x|e]; cbn [okP]; [|intros _; exact I]. intros Hx.
    cbn [leaf okP]. intros i Hi. apply in_app_or in Hi. destruct Hi as [Hi|[<-|[]]]; auto. }
  2: { intros e; exact I. }
  intros is_ HI. apply leaf_bind, leaf_any. intros ep. apply leaf_bind, leaf_any. intros [u|e]; [|exact I].
  apply leaf_bind, leaf_any. intros lp. destruct (negb _); [exact I|]. apply leaf_bind.
  apply leaf_forR with (I := fun j acc => forall i, In i acc -> instr_right dmxs base i).
  { intros i []. }
  { intros j acc Hj HA. apply leaf_bind, leaf_aget. intros i _ Hi. apply nth_error_In in Hi. apply leaf_bind.
    eapply leaf_mono; [|apply (derived_leaf dmxs base); auto]. intros [x|e]; cbn [okP]; [|intros _; exact I]. intros Hx.
    cbn [leaf okP]. intros y Hy. apply in_app_or in Hy. destruct Hy as [Hy|[<-|[]]]; auto. }
  2: { intros e; exact I. }
  intros is2 HI2. destruct (INSTR_MAX <=? ni); [exact I|]. destruct (_ && _); [exact I|].
  apply leaf_bind, leaf_any. intros _. apply leaf_bind, leaf_any. intros _. cbn [leaf okP dc_instr dc_base]. exact HI2.
Qed.
