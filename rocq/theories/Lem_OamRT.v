(** * Lem_OamRT: object metadata is stored as sent *)

From Coq Require Import ZArith List Lia Bool SpecFloat.
From Verif Require Import Bits BitBuf Prog Wp Loops Leaf Config Lem_Dmx F32 Oam Spec_Oam.
Import ListNotations.
Open Scope Z_scope.
Open Scope prog_scope.

(** [put l b vs l']: [l'] is [l] with [vs] written from index [b] on. *)
Definition put {A} (l : list A) (b : nat) (vs : list A) (l' : list A) : Prop :=
  length l' = length l /\
  (forall j x, nth_error vs j = Some x -> nth_error l' (b + j) = Some x) /\
  (forall j, (j < b \/ b + length vs <= j)%nat -> nth_error l' j = nth_error l j).

Definition set1 {A} (l : list A) (i : nat) (v : A) : list A := firstn i l ++ v :: skipn (S i) l.

Lemma put_nil {A} (l : list A) b : put l b [] l.
Proof.
  split; [reflexivity|]. split; [|reflexivity]. intros j x E. destruct j; discriminate.
Qed.

Lemma put_snoc {A} (l l' : list A) b vs v : put l b vs l' -> (b + length vs < length l)%nat ->
  put l b (vs ++ [v]) (set1 l' (b + length vs) v).
Proof.
  intros (L & H1 & H2) Hb. unfold set1. split; [|split].
  - rewrite aset_len by lia. exact L.
  - intros j x E. destruct (Nat.eq_dec j (length vs)) as [->|N].
    + rewrite nth_error_app2, Nat.sub_diag in E by lia. cbn in E. rewrite nth_aset_eq by lia. exact E.
    + assert (Hj : (j < length vs)%nat).
      { assert (X : (j < length (vs ++ [v]))%nat) by (apply nth_error_Some; congruence). rewrite app_length in X. cbn in X. lia. }
      rewrite nth_error_app1 in E by exact Hj. rewrite nth_aset_neq by lia. apply H1, E.
  - rewrite app_length. cbn [length]. intros j Hj. rewrite nth_aset_neq by lia. apply H2. lia.
Qed.

(** Writing the values read one after the other. *)
Lemma forP_put {C X} (body : nat -> list C -> prog (list C)) (enc : X -> list bool) (f : X -> C) b N (ok : X -> Prop) :
  (forall i l x rest, ok x -> (b + i < length l)%nat -> length l = N ->
     runA (body i l) (enc x ++ rest) = Done (set1 l (b + i) (f x), rest)) ->
  forall xs l rest, (b + length xs <= N)%nat -> length l = N -> Forall ok xs ->
    exists l', runA (forP (length xs) 0 body l) (concat (map enc xs) ++ rest) = Done (l', rest) /\
      put l b (map f xs) l'.
Proof.
  intros HB xs l rest HL HN HF.
  assert (G : forall ys done l1 rest, put l b (map f done) l1 -> (b + length done + length ys <= N)%nat -> Forall ok ys ->
    exists l', runA (forP (length ys) (length done) body l1) (concat (map enc ys) ++ rest) = Done (l', rest) /\
      put l b (map f (done ++ ys)) l').
  { clear rest HL HF xs. induction ys as [|y ys IH]; intros done l1 rest P HL HF; cbn [length forP map concat].
    - exists l1. rewrite app_nil_r. auto.
    - inversion HF; subst. rewrite <- app_assoc. rewrite runA_bind.
      assert (L1 : length l1 = length l) by (apply P).
      rewrite HB by (auto; cbn [length] in HL; lia).
      assert (P1 := put_snoc l l1 b (map f done) (f y) P).
      rewrite map_length in P1. specialize (P1 ltac:(cbn [length] in HL; lia)).
      destruct (IH (done ++ [y]) (set1 l1 (b + length done) (f y)) rest) as (l' & E & P2); auto.
      + rewrite map_app. exact P1.
      + rewrite app_length. cbn [length] in *. lia.
      + rewrite app_length in E. cbn [length] in E. rewrite Nat.add_1_r in E.
        exists l'. split; [exact E|]. rewrite <- app_assoc in P2. exact P2. }
  apply (G xs [] l rest); auto.
  - apply put_nil.
  - cbn [length]. lia.
Qed.

Lemma aset_set1 {A} (l : list A) b i (v : A) : (b + i < length l)%nat ->
  aset l (Z.of_nat b + Z.of_nat i) v = Ret (set1 l (b + i) v).
Proof.
  intros H. unfold aset, set1.
  replace ((0 <=? Z.of_nat b + Z.of_nat i) && (Z.of_nat b + Z.of_nat i <? Z.of_nat (length l))) with true
    by (symmetry; apply andb_true_intro; split; [apply Z.leb_le|apply Z.ltb_lt]; lia).
  replace (Z.to_nat (Z.of_nat b + Z.of_nat i)) with (b + i)%nat by lia. reflexivity.
Qed.

(** Signed fields. *)
Lemma signed_back n v : 1 <= n -> - 2 ^ (n - 1) <= v < 2 ^ (n - 1) ->
  (if 2 ^ (n - 1) <=? v mod 2 ^ n then v mod 2 ^ n - 2 ^ n else v mod 2 ^ n) = v.
Proof.
  intros Hn Hv. assert (E : 2 ^ n = 2 * 2 ^ (n - 1)) by (rewrite <- Z.pow_succ_r by lia; f_equal; lia).
  destruct (Z.neg_nonneg_cases v) as [Neg|Pos].
  - assert (M : v mod 2 ^ n = v + 2 ^ n).
    { symmetry. apply (Z.mod_unique _ _ (-1)); lia. }
    rewrite M. destruct (Z.leb_spec (2 ^ (n - 1)) (v + 2 ^ n)); lia.
  - rewrite Z.mod_small by lia. destruct (Z.leb_spec (2 ^ (n - 1)) v); lia.
Qed.

Lemma rd_signed_run {B} n v (k : Z -> prog B) rest : 1 <= n <= 24 -> - 2 ^ (n - 1) <= v < 2 ^ (n - 1) ->
  runA (bind (rd_signed n) k) (enc_s (Z.to_nat n) v ++ rest) = runA (k v) rest.
Proof.
  intros Hn Hv. unfold rd_signed, enc_s. rewrite bind_assoc.
  rewrite Z2Nat.id by lia.
  rewrite (runA_rdb n (Z.to_nat n)) by (try lia; apply Z.mod_pos_bound; apply Z.pow_pos_nonneg; lia).
  cbn [bind]. rewrite signed_back by lia. reflexivity.
Qed.

(** A reader together with the encoding of its values. *)
Definition reads {A} (rdv : prog A) (enc : A -> list bool) (ok : A -> Prop) : Prop :=
  forall v rest, ok v -> runA rdv (enc v ++ rest) = Done (v, rest).

Lemma reads_signed n : 1 <= n <= 24 ->
  reads (rd_signed n) (enc_s (Z.to_nat n)) (fun v => - 2 ^ (n - 1) <= v < 2 ^ (n - 1)).
Proof.
  intros Hn v rest Hv. pose proof (rd_signed_run n v Ret rest Hn Hv) as E.
  rewrite runA_bind in E. destruct (runA (rd_signed n) (enc_s (Z.to_nat n) v ++ rest)) as [[a l]|c|r]; cbn in E; congruence.
Qed.

Lemma reads_rd n : 0 <= n <= 24 -> reads (rd n) (bits_of (Z.to_nat n)) (fun v => 0 <= v < 2 ^ n).
Proof. intros Hn v rest Hv. apply runA_rd_nobind; auto; lia. Qed.

Lemma runA_step {A B} (p : prog A) enc (ok : A -> Prop) v (k : A -> prog B) rest :
  reads p enc ok -> ok v -> runA (bind p k) (enc v ++ rest) = runA (k v) rest.
Proof. intros R Hv. rewrite runA_bind, (R v rest Hv). reflexivity. Qed.

Lemma flag_run {B} (b : bool) (k : Z -> prog B) rest :
  runA (bind (rd 1) k) (b :: rest) = runA (k (if b then 1 else 0)) rest.
Proof.
  change (b :: rest) with ([b] ++ rest).
  replace [b] with (bits_of 1 (if b then 1 else 0)) by (destruct b; reflexivity).
  apply runA_rdb; [reflexivity|lia|]. destruct b; cbn; lia.
Qed.

Lemma fair_repeat {A} (d : A) vs : (forall x y, In x vs -> In y vs -> x = y) ->
  vs = repeat (hd d vs) (length vs).
Proof.
  intros H. destruct vs as [|v vs]; [reflexivity|]. cbn [hd length repeat]. f_equal.
  assert (forall l, (forall x, In x l -> x = v) -> l = repeat v (length l)).
  { induction l as [|a l IH]; intros Hl; [reflexivity|]. cbn. f_equal; [apply Hl; left; reflexivity|].
    apply IH. intros x Hx. apply Hl. right. exact Hx. }
  apply H0. intros x Hx. apply H; cbn; auto.
Qed.

Lemma store_all_run (l : list Z) b n v rest : (b + n <= length l)%nat ->
  exists l', runA (store_all l (Z.of_nat b) (Z.of_nat n) v) rest = Done (l', rest) /\ put l b (repeat v n) l'.
Proof.
  intros HL. unfold store_all. rewrite Nat2Z.id.
  destruct (forP_put (fun i l => aset l (Z.of_nat b + Z.of_nat i) v) (fun _ : unit => []) (fun _ => v) b (length l) (fun _ => True)
    ltac:(intros i l0 x r _ H1 H2; cbv beta; rewrite aset_set1 by lia; reflexivity) (repeat tt n) l rest) as (l' & E & P); auto.
  - rewrite repeat_length. lia.
  - apply Forall_forall. auto.
  - rewrite repeat_length in E. exists l'. split.
    + replace (concat (map (fun _ : unit => []) (repeat tt n))) with (@nil bool) in E; [exact E|].
      clear. induction n; cbn; auto.
    + replace (map (fun _ : unit => v) (repeat tt n)) with (repeat v n) in P; [exact P|].
      clear. induction n; cbn; congruence.
Qed.

Definition how_flag (h : how) : Z := match h with Fixed => 1 | _ => 0 end.

Lemma each_run rdv enc (ok : Z -> Prop) vs l b rest :
  reads rdv enc ok -> (b + length vs <= length l)%nat -> Forall ok vs ->
  exists l', runA (forP (length vs) 0 (fun i l => v <- rdv ;; aset l (Z.of_nat b + Z.of_nat i) v) l)
    (concat (map enc vs) ++ rest) = Done (l', rest) /\ put l b vs l'.
Proof.
  intros R HL HF.
  destruct (forP_put (fun i l => v <- rdv ;; aset l (Z.of_nat b + Z.of_nat i) v) enc (fun v => v) b (length l) ok
      ltac:(intros i l0 x r Hx H1 H2; cbv beta; rewrite (runA_step _ enc ok) by auto; rewrite aset_set1 by lia; reflexivity) vs l rest)
      as (l' & E & P); auto.
  exists l'. rewrite map_id in P. auto.
Qed.

Lemma param_run rdv enc (ok : Z -> Prop) h d vs l b rest :
  reads rdv enc ok -> (0 < length vs)%nat -> (b + length vs <= length l)%nat -> Forall ok vs -> fair h vs ->
  exists l', (forall B (k : Z -> list Z -> prog B),
     runA (f <- rd 1 ;; l' <- param_dec rdv f l (Z.of_nat b) (Z.of_nat (length vs)) ;; k f l')
      (enc_how h enc d vs ++ rest) = runA (k (how_flag h) l') rest) /\ put l b vs l'.
Proof.
  intros R H0 HL HF HFair.
  assert (OK1 : ok (hd d vs)). { destruct vs; cbn in *; [lia|]. inversion HF; auto. }
  destruct h; cbn [enc_how fair how_flag] in *.
  - assert (E := fair_repeat d vs HFair).
    destruct (store_all_run l b (length vs) (hd d vs) rest HL) as (l' & E1 & P1).
    exists l'. split; [|rewrite E; exact P1]. intros B k.
    rewrite <- app_comm_cons. rewrite flag_run. unfold param_dec. cbn [Z.eqb negb].
    rewrite bind_assoc, (runA_step _ enc ok) by auto. rewrite runA_bind, E1. reflexivity.
  - assert (E := fair_repeat d vs HFair).
    destruct (store_all_run l b (length vs) (hd d vs) rest HL) as (l' & E1 & P1).
    exists l'. split; [|rewrite E; exact P1]. intros B k.
    rewrite <- !app_comm_cons. rewrite flag_run. unfold param_dec. cbn [Z.eqb negb].
    rewrite bind_assoc, flag_run. cbn [Z.eqb negb].
    rewrite bind_assoc, (runA_step _ enc ok) by auto. rewrite runA_bind, E1. reflexivity.
  - destruct (each_run rdv enc ok vs l b rest R HL HF) as (l' & E & P).
    exists l'. split; [|exact P]. intros B k.
    rewrite <- !app_comm_cons. rewrite flag_run. unfold param_dec. cbn [Z.eqb negb].
    rewrite bind_assoc, flag_run. cbn [Z.eqb negb]. rewrite Nat2Z.id.
    rewrite runA_bind, E. reflexivity.
Qed.

(** ** Spread *)
Lemma spread3_run {B} w h d (k : Z * Z * Z -> prog B) rest :
  0 <= w < 128 -> 0 <= h < 32 -> 0 <= d < 16 ->
  runA (bind rd_spread3 k) (enc_spread false (w, h, d) ++ rest) = runA (k (w, h, d)) rest.
Proof.
  intros Hw Hh Hd. unfold rd_spread3, enc_spread. rewrite <- !app_assoc.
  rewrite bind_assoc. rewrite (runA_rdb 7 7) by (auto; lia).
  rewrite bind_assoc. rewrite (runA_rdb 5 5) by (auto; lia).
  rewrite bind_assoc. rewrite (runA_rdb 4 4) by (auto; lia). reflexivity.
Qed.

Definition put3 (t : list Z * list Z * list Z) (b : nat) (vs : list (Z * Z * Z)) (t' : list Z * list Z * list Z) : Prop :=
  let '(a, h, d) := t in let '(a', h', d') := t' in
  put a b (map (fun x => fst (fst x)) vs) a' /\ put h b (map (fun x => snd (fst x)) vs) h' /\
  put d b (map snd vs) d'.

Definition len3 (t : list Z * list Z * list Z) (N : nat) : Prop :=
  let '(a, h, d) := t in length a = N /\ length h = N /\ length d = N.

Definition set3 (t : list Z * list Z * list Z) (i : nat) (x : Z * Z * Z) : list Z * list Z * list Z :=
  let '(a, h, d) := t in let '(w, y, z) := x in (set1 a i w, set1 h i y, set1 d i z).

Lemma forP_put3 (body : nat -> list Z * list Z * list Z -> prog (list Z * list Z * list Z)) {X} (enc : X -> list bool)
  (f : X -> Z * Z * Z) b N (ok : X -> Prop) :
  (forall i t x rest, ok x -> (b + i < N)%nat -> len3 t N ->
     runA (body i t) (enc x ++ rest) = Done (set3 t (b + i) (f x), rest)) ->
  forall xs t rest, (b + length xs <= N)%nat -> len3 t N -> Forall ok xs ->
    exists t', runA (forP (length xs) 0 body t) (concat (map enc xs) ++ rest) = Done (t', rest) /\
      put3 t b (map f xs) t'.
Proof.
  intros HB xs t rest HL HN HF.
  assert (G : forall ys done t1 rest, put3 t b (map f done) t1 -> (b + length done + length ys <= N)%nat -> Forall ok ys ->
    exists t', runA (forP (length ys) (length done) body t1) (concat (map enc ys) ++ rest) = Done (t', rest) /\
      put3 t b (map f (done ++ ys)) t').
  { clear rest HL HF xs. induction ys as [|y ys IH]; intros done t1 rest P HL HF; cbn [length forP map concat].
    - exists t1. rewrite app_nil_r. auto.
    - inversion HF; subst. rewrite <- app_assoc. rewrite runA_bind.
      destruct t as [[a h] d]. destruct t1 as [[a1 h1] d1]. destruct P as (Pa & Ph & Pd). destruct HN as (Na & Nh & Nd).
      assert (La : length a1 = N) by (rewrite <- Na; apply Pa).
      assert (Lh : length h1 = N) by (rewrite <- Nh; apply Ph).
      assert (Ld : length d1 = N) by (rewrite <- Nd; apply Pd).
      rewrite HB by (auto; try (cbn [length] in HL; lia); cbn; auto).
      destruct (IH (done ++ [y]) (set3 (a1, h1, d1) (b + length done) (f y)) rest) as (t' & E & P2); auto.
      + rewrite map_app. cbn [map]. destruct (f y) as [[w1 y1] z1]. unfold set3, put3.
        rewrite !map_app. cbn [map fst snd].
        assert (LL : forall (g : Z * Z * Z -> Z), length (map g (map f done)) = length done) by (intros; rewrite !map_length; reflexivity).
        split; [|split].
        * replace (length done) with (length (map (fun x => fst (fst x)) (map f done))) by apply LL.
          apply put_snoc; auto. rewrite LL, Na. cbn [length] in HL. lia.
        * replace (length done) with (length (map (fun x => snd (fst x)) (map f done))) by apply LL.
          apply put_snoc; auto. rewrite LL, Nh. cbn [length] in HL. lia.
        * replace (length done) with (length (map snd (map f done))) by apply LL.
          apply put_snoc; auto. rewrite LL, Nd. cbn [length] in HL. lia.
      + rewrite app_length. cbn [length] in *. lia.
      + rewrite app_length in E. cbn [length] in E. rewrite Nat.add_1_r in E.
        exists t'. split; [exact E|]. rewrite <- app_assoc in P2. exact P2. }
  apply (G xs [] t rest); auto; [|cbn [length]; lia].
  destruct t as [[a h] d]. cbn. split; [apply put_nil|split; apply put_nil].
Qed.

Definition ok3 (x : Z * Z * Z) : Prop := let '(w, h, d) := x in 0 <= w < 128 /\ 0 <= h < 32 /\ 0 <= d < 16.

Lemma store3_run t b n x rest N : len3 t N -> (b + n <= N)%nat ->
  exists t', runA (store3_all (Z.of_nat b) (Z.of_nat n) x t) rest = Done (t', rest) /\ put3 t b (repeat x n) t'.
Proof.
  intros HN HL. destruct x as [[w h] d]. unfold store3_all. rewrite Nat2Z.id.
  destruct (forP_put3 (fun i '(lw, lh, ld) =>
    lw <- aset lw (Z.of_nat b + Z.of_nat i) w ;;
    lh <- aset lh (Z.of_nat b + Z.of_nat i) h ;;
    ld <- aset ld (Z.of_nat b + Z.of_nat i) d ;; Ret (lw, lh, ld)) (fun _ : unit => []) (fun _ => (w, h, d)) b N (fun _ => True)) with (xs := repeat tt n) (t := t) (rest := rest)
    as (t' & E & P); auto.
  - intros i [[a1 h1] d1] x r _ H1 (La & Lh & Ld). rewrite !aset_set1 by lia. reflexivity.
  - rewrite repeat_length. lia.
  - apply Forall_forall. auto.
  - rewrite repeat_length in E. exists t'. split.
    + replace (concat (map (fun _ : unit => []) (repeat tt n))) with (@nil bool) in E; [exact E|].
      clear. induction n; cbn; auto.
    + replace (map (fun _ : unit => (w, h, d)) (repeat tt n)) with (repeat (w, h, d) n) in P; [exact P|].
      clear. induction n; cbn; congruence.
Qed.

(** The spread part, non-uniform: all three tables. *)
Lemma spread_run3 uni h vs t b rest N : uni = 0 -> len3 t N -> (0 < length vs)%nat -> (b + length vs <= N)%nat ->
  Forall ok3 vs -> fair h vs ->
  exists t', (forall B (k : Z * (list Z * list Z * list Z) -> prog B),
    runA (bind (spread_dec uni (Z.of_nat b) (Z.of_nat (length vs)) t) k)
      (enc_how h (enc_spread false) (0, 0, 0) vs ++ rest) = runA (k (how_flag h, t')) rest) /\ put3 t b vs t'.
Proof.
  intros -> HN H0 HL HF HFair.
  assert (OK1 : ok3 (hd (0, 0, 0) vs)). { destruct vs; cbn in *; [lia|]. inversion HF; auto. }
  destruct t as [[lw lh] ld]. unfold spread_dec.
  destruct h; cbn [enc_how fair how_flag] in *.
  - assert (E := fair_repeat (0, 0, 0) vs HFair).
    destruct (store3_run (lw, lh, ld) b (length vs) (hd (0, 0, 0) vs) rest N HN HL) as (t' & E1 & P1).
    exists t'. split; [|rewrite E; exact P1]. intros B k.
    rewrite <- app_comm_cons. rewrite bind_assoc, flag_run. cbn [Z.eqb negb].
    destruct (hd (0, 0, 0) vs) as [[w y] z]. destruct OK1 as (K1 & K2 & K3).
    rewrite bind_assoc, bind_assoc, spread3_run by auto. rewrite runA_bind, E1. reflexivity.
  - assert (E := fair_repeat (0, 0, 0) vs HFair).
    destruct (store3_run (lw, lh, ld) b (length vs) (hd (0, 0, 0) vs) rest N HN HL) as (t' & E1 & P1).
    exists t'. split; [|rewrite E; exact P1]. intros B k.
    rewrite <- !app_comm_cons. rewrite bind_assoc, flag_run. cbn [Z.eqb negb].
    rewrite bind_assoc, bind_assoc, flag_run. cbn [Z.eqb negb].
    destruct (hd (0, 0, 0) vs) as [[w y] z]. destruct OK1 as (K1 & K2 & K3).
    rewrite bind_assoc, spread3_run by auto. rewrite runA_bind, E1. reflexivity.
  - destruct (forP_put3 (fun i '(lw, lh, ld) =>
               ' (w, h, d) <- rd_spread3 ;;
               lw <- aset lw (Z.of_nat b + Z.of_nat i) w ;;
               lh <- aset lh (Z.of_nat b + Z.of_nat i) h ;;
               ld <- aset ld (Z.of_nat b + Z.of_nat i) d ;; Ret (lw, lh, ld)) (enc_spread false) (fun x => x) b N ok3)
      with (xs := vs) (t := (lw, lh, ld)) (rest := rest) as (t' & E & P); auto.
    { intros i [[a1 h1] d1] [[w y] z] r (K1 & K2 & K3) H1 (La & Lh & Ld). cbv beta iota.
      rewrite spread3_run by auto. rewrite !aset_set1 by lia. reflexivity. }
    exists t'. rewrite map_id in P. split; [|exact P]. intros B k.
    rewrite <- !app_comm_cons. rewrite bind_assoc, flag_run. cbn [Z.eqb negb].
    rewrite bind_assoc, bind_assoc, flag_run. cbn [Z.eqb negb]. rewrite Nat2Z.id.
    rewrite runA_bind, E. reflexivity.
Qed.

(** The spread part, uniform: only the width.  In the fixed mode the values are written at
    the start of the table. *)
Lemma spread_run1 uni h (vs : list (Z * Z * Z)) lw lh ld b rest N : uni = 1 -> length lw = N -> (0 < length vs)%nat ->
  (b + length vs <= N)%nat -> Forall ok3 vs -> fair h vs ->
  exists lw', (forall B (k : Z * (list Z * list Z * list Z) -> prog B),
    runA (bind (spread_dec uni (Z.of_nat b) (Z.of_nat (length vs)) (lw, lh, ld)) k)
      (enc_how h (enc_spread true) (0, 0, 0) vs ++ rest) = runA (k (how_flag h, (lw', lh, ld))) rest) /\
    put lw (match h with Fixed => 0 | _ => b end) (map (fun x => fst (fst x)) vs) lw'.
Proof.
  intros -> HN H0 HL HF HFair.
  assert (OK1 : ok3 (hd (0, 0, 0) vs)). { destruct vs; cbn in *; [lia|]. inversion HF; auto. }
  assert (RP : forall n (x : Z * Z * Z), map (fun x => fst (fst x)) (repeat x n) = repeat (fst (fst x)) n)
    by (induction n; intros; cbn; congruence).
  unfold spread_dec.
  destruct h; cbn [enc_how fair how_flag] in *.
  - assert (E := fair_repeat (0, 0, 0) vs HFair).
    destruct (store_all_run lw 0 (length vs) (fst (fst (hd (0, 0, 0) vs))) rest ltac:(lia)) as (t' & E1 & P1).
    exists t'. split; [|rewrite E, RP; exact P1]. intros B k.
    rewrite <- app_comm_cons. rewrite bind_assoc, flag_run. cbn [Z.eqb Pos.eqb negb].
    destruct (hd (0, 0, 0) vs) as [[w y] z]. destruct OK1 as (K1 & K2 & K3). unfold enc_spread.
    rewrite bind_assoc, bind_assoc, (runA_rdb 7 7) by (auto; lia). rewrite bind_assoc, runA_bind.
    change (Z.of_nat 0) with 0 in E1. cbn [fst snd] in E1. rewrite E1. reflexivity.
  - assert (E := fair_repeat (0, 0, 0) vs HFair).
    destruct (store_all_run lw b (length vs) (fst (fst (hd (0, 0, 0) vs))) rest ltac:(lia)) as (t' & E1 & P1).
    exists t'. split; [|rewrite E, RP; exact P1]. intros B k.
    rewrite <- !app_comm_cons. rewrite bind_assoc, flag_run. cbn [Z.eqb Pos.eqb negb].
    rewrite bind_assoc, bind_assoc, flag_run. cbn [Z.eqb Pos.eqb negb].
    destruct (hd (0, 0, 0) vs) as [[w y] z]. destruct OK1 as (K1 & K2 & K3). unfold enc_spread.
    rewrite bind_assoc, (runA_rdb 7 7) by (auto; lia). rewrite bind_assoc, runA_bind.
    cbn [fst snd] in E1. rewrite E1. reflexivity.
  - destruct (forP_put (fun i l => v <- rd 7 ;; aset l (Z.of_nat b + Z.of_nat i) v) (enc_spread true) (fun x => fst (fst x)) b N ok3)
      with (xs := vs) (l := lw) (rest := rest) as (t' & E & P); auto.
    { intros i l [[w y] z] r (K1 & K2 & K3) H1 H2. cbv beta. unfold enc_spread. rewrite (runA_rdb 7 7) by (auto; lia).
      rewrite aset_set1 by lia. reflexivity. }
    exists t'. split; [|exact P]. intros B k.
    rewrite <- !app_comm_cons. rewrite bind_assoc, flag_run. cbn [Z.eqb Pos.eqb negb].
    rewrite bind_assoc, bind_assoc, flag_run. cbn [Z.eqb Pos.eqb negb]. rewrite Nat2Z.id.
    rewrite bind_assoc, runA_bind, E. reflexivity.
Qed.
