(** * Lem_DrcUv: the entropy coded values of the DRC gain payload *)
From Coq Require Import ZArith List Lia Bool.
From Verif Require Import Bits BitBuf Prog Wp Asi Leaf Loud Config DrcCfg DrcGain.
Import ListNotations.
Open Scope Z_scope.

Definition esize (e : entry) : Z := fst (fst e).
Definition ecode (e : entry) : Z := snd (fst e).
Definition evalue (e : entry) : Z := snd e.

(** ** Exhaustive exploration of a finite tree of one-bit reads *)
Fixpoint all1 {A} (fuel : nat) (p : prog A) (f : A -> bool) : bool :=
  match fuel with
  | O => false
  | S m => match p with
           | Ret a => f a
           | Rd n k => (n =? 1) && all1 m (k 0) f && all1 m (k 1) f
           | _ => false
           end
  end.

Lemma all1_wp {A} f : forall m (p : prog A), all1 m p f = true -> wp p (fun a => f a = true).
Proof.
  induction m as [|m IH]; [discriminate|]. intros p H. cbn in H.
  destruct p as [a|n k|n k|n k|k|c|r]; try discriminate; [exact H|].
  apply andb_prop in H as [H H1]. apply andb_prop in H as [H H0]. apply Z.eqb_eq in H. subst n.
  split; [lia|]. intros v Hv. change (2 ^ 1) with 2 in Hv.
  assert (v = 0 \/ v = 1) as [-> | ->] by lia; apply IH; assumption.
Qed.

Definition gain_ok (r : res Z) : bool :=
  match r with Ok d => (-32 <=? d) && (d <=? 16) | Er _ => false end.

Lemma gain_value_wp prof (Q : res Z -> Prop) : (forall d, -32 <= d <= 16 -> Q (Ok d)) ->
  wp (update_value false (gain_tbl prof)) Q.
Proof.
  intros HQ. unfold gain_tbl.
  assert (H : wp (update_value false (if prof =? 2 then gain_tbl_2 else gain_tbl_01)) (fun r => gain_ok r = true)).
  { destruct (prof =? 2); apply all1_wp with (m := 20%nat); vm_compute; reflexivity. }
  eapply wp_mono; [|exact H]. intros [d|e] E; [|discriminate]. cbn in E.
  apply andb_prop in E as [E1 E2]. apply Z.leb_le in E1, E2. auto.
Qed.

(** ** Decoding a codeword *)
Section Codeword.
Variables (tb : list entry) (start j : nat) (B rest : list bool) (e : entry).
Hypothesis Hsj : (start <= j)%nat.
Hypothesis Hj : nth_error tb j = Some e.
Hypothesis HB : Z.of_nat (length B) = esize e.
Hypothesis Hc : val_of B = ecode e.
Hypothesis Hlen : (length B <= 24)%nat.
Hypothesis Hsz : forall i ei, (start <= i <= j)%nat -> nth_error tb i = Some ei -> 1 <= esize ei <= esize e.
Hypothesis Hmono : forall i a b, (start <= i < j)%nat -> nth_error tb i = Some a -> nth_error tb (S i) = Some b ->
  esize a <= esize b.
Hypothesis Hdiff : forall i a, (start <= i < j)%nat -> nth_error tb i = Some a ->
  ecode a <> val_of (firstn (Z.to_nat (esize a)) B).

Lemma cw_get i : (i <= j)%nat -> exists a, nth_error tb i = Some a.
Proof.
  intros Hi. destruct (nth_error tb i) eqn:E; eauto.
  apply nth_error_None in E. assert (j < length tb)%nat by (apply nth_error_Some; congruence). lia.
Qed.

Lemma firstn_S_snoc (l : list bool) n : (n < length l)%nat -> exists b,
  firstn (S n) l = firstn n l ++ [b] /\ skipn n l = b :: skipn (S n) l.
Proof.
  revert n. induction l as [|x l IH]; intros n Hn; [cbn in Hn; lia|].
  destruct n as [|n]; [exists x; cbn; auto|].
  destruct (IH n) as (b & E1 & E2); [cbn in Hn; lia|]. exists b. split; [|exact E2].
  cbn [firstn]. cbn [firstn] in E1. rewrite E1. reflexivity.
Qed.

Lemma uv_bits_rt : forall fuel sz k nb, (nb <= length B)%nat -> 0 <= k -> sz <= Z.of_nat (length B) -> Z.of_nat nb <= sz ->
  exists nb', (nb <= nb')%nat /\ Z.of_nat nb' <= sz /\ (k < sz - Z.of_nat nb -> (0 < fuel)%nat -> (nb < nb')%nat) /\
  forall A (f : Z * Z -> prog A),
  runA (bind (uv_bits fuel sz k (Z.of_nat nb) (val_of (firstn nb B))) f) (skipn nb B ++ rest)
  = runA (f (Z.of_nat nb', val_of (firstn nb' B))) (skipn nb' B ++ rest).
Proof.
  induction fuel as [|fuel IH]; intros sz k nb Hn Hk Hs1 Hs2.
  - exists nb. repeat split; try lia.
  - cbn [uv_bits]. destruct (Z.ltb_spec k (sz - Z.of_nat nb)) as [Hlt|Hge].
    2:{ exists nb. repeat split; try lia. }
    destruct (firstn_S_snoc B nb) as (b & E1 & E2); [lia|].
    destruct (IH sz (k + 1) (S nb)) as (nb' & L1 & L2 & _ & R); try lia.
    exists nb'. repeat split; try lia.
    intros A f. rewrite bind_assoc. rewrite E2. cbn [app].
    change (b :: skipn (S nb) B ++ rest) with ([b] ++ (skipn (S nb) B ++ rest)).
    assert (Eb : [b] = bits_of 1 (if b then 1 else 0)) by (destruct b; reflexivity).
    rewrite Eb at 1. rewrite runA_rdb; [|reflexivity|lia|destruct b; cbn; lia].
    replace (2 * val_of (firstn nb B) + (if b then 1 else 0)) with (val_of (firstn (S nb) B)).
    2:{ rewrite E1, val_of_app. cbn [length val_of]. change (2 ^ Z.of_nat 1) with 2. change (2 ^ Z.of_nat 0) with 1. destruct b; lia. }
    replace (Z.of_nat nb + 1) with (Z.of_nat (S nb)) by lia. apply R.
Qed.

Lemma uv_inner_rt : forall fuel i nb a, (start <= i <= j)%nat -> (j - i < fuel)%nat -> nth_error tb i = Some a ->
  Z.of_nat nb <= esize a -> (1 <= nb)%nat ->
  exists r, (r = UFound (evalue e) /\ nb = length B \/
             exists i' a', r = UMove (Z.of_nat i') /\ (start <= i' <= j)%nat /\ nth_error tb i' = Some a' /\ Z.of_nat nb < esize a') /\
  forall A (f : uvstep -> prog A) l,
  runA (bind (uv_inner fuel tb (Z.of_nat i) (Z.of_nat nb) (val_of (firstn nb B))) f) l = runA (f r) l.
Proof.
  induction fuel as [|fuel IH]; intros i nb a Hi Hf Ha Hn Hp; [lia|].
  destruct a as [[sz c] v].
  assert (G : forall A (f : uvstep -> prog A) l k,
    runA (bind (bind (aget tb (Z.of_nat i)) k) f) l = runA (bind (k (sz, c, v)) f) l).
  { intros. rewrite bind_assoc. rewrite runA_aget with (x := (sz, c, v)); [reflexivity|lia|]. rewrite Nat2Z.id. exact Ha. }
  cbn [uv_inner]. change (esize (sz, c, v)) with sz in *.
  destruct (Z.eqb_spec (Z.of_nat nb) sz) as [En|En].
  2:{ exists (UMove (Z.of_nat i)). split; [right; exists i, (sz, c, v); repeat split; try lia; auto; cbn; lia|].
      intros. rewrite G. cbn match. destruct (Z.eqb_spec (Z.of_nat nb) sz); [lia|]. reflexivity. }
  destruct (Nat.eq_dec i j) as [->|Hne].
  - assert (e = (sz, c, v)) by congruence. subst e. change (esize (sz,c,v)) with sz in *. change (ecode (sz,c,v)) with c in *.
    exists (UFound v). split; [left; split; [reflexivity|lia]|].
    intros. rewrite G. cbn match. destruct (Z.eqb_spec (Z.of_nat nb) sz); [|lia].
    rewrite firstn_all2 by lia. rewrite Hc, Z.eqb_refl. reflexivity.
  - destruct (cw_get (S i)) as (b & Hb); [lia|].
    assert (M : sz <= esize b) by (apply (Hmono i (sz, c, v) b); auto; lia).
    assert (D : c <> val_of (firstn (Z.to_nat sz) B)) by (apply (Hdiff i (sz, c, v)); auto; lia).
    destruct (IH (S i) nb b) as (r & R1 & R2); try lia; auto.
    exists r. split; [exact R1|].
    intros. rewrite G. cbn match. destruct (Z.eqb_spec (Z.of_nat nb) sz); [|lia].
    replace (Z.to_nat sz) with nb in D by lia. destruct (Z.eqb_spec (val_of (firstn nb B)) c); [congruence|].
    assert (j < length tb)%nat by (apply nth_error_Some; congruence).
    cbv zeta. unfold zlen. destruct (Z.ltb_spec (Z.of_nat (length tb)) (Z.of_nat i + 1)); [lia|].
    replace (Z.of_nat i + 1) with (Z.of_nat (S i)) by lia. apply R2.
Qed.

Lemma uv_outer_rt time : forall fuel i nb a, (start <= i <= j)%nat -> nth_error tb i = Some a ->
  Z.of_nat nb < esize a -> (length B - nb < fuel)%nat ->
  forall A (f : res Z -> prog A),
  runA (bind (uv_outer fuel time tb (Z.of_nat i) (Z.of_nat nb) (val_of (firstn nb B))) f) (skipn nb B ++ rest)
  = runA (f (Ok (evalue e))) rest.
Proof.
  induction fuel as [|fuel IH]; intros i nb a Hi Ha Hn Hf A f; [lia|].
  cbn [uv_outer].
  assert (j < length tb)%nat by (apply nth_error_Some; congruence).
  unfold zlen. destruct (Z.ltb_spec (Z.of_nat i) (Z.of_nat (length tb))); [|lia].
  rewrite bind_assoc. rewrite runA_aget with (x := a); [|lia|rewrite Nat2Z.id; exact Ha].
  assert (S := Hsz i a Hi Ha).
  destruct a as [[sz c] v]. cbn match. change (esize (sz, c, v)) with sz in *.
  destruct (Z.ltb_spec sz (Z.of_nat nb)); [lia|].
  destruct (uv_bits_rt (Z.to_nat sz) sz 0 nb) as (nb' & L1 & L2 & L3 & R); try lia.
  rewrite bind_assoc, R. cbn match.
  destruct (uv_inner_rt (Datatypes.S (length tb)) i nb' (sz, c, v)) as (r & R1 & R2); auto; try lia.
  rewrite bind_assoc, R2. destruct R1 as [[-> En]|(i' & a' & -> & Hi' & Ha' & Hn')].
  - rewrite En, skipn_all. reflexivity.
  - apply (IH i' nb' a'); auto; lia.
Qed.

Lemma uv_rt time A (f : res Z -> prog A) : start = (if time : bool then 1%nat else 0%nat) ->
  runA (bind (update_value time tb) f) (B ++ rest) = runA (f (Ok (evalue e))) rest.
Proof.
  intros Es. destruct (cw_get start Hsj) as (a & Ha). assert (S := Hsz start a (conj (le_n _) Hsj) Ha).
  unfold update_value.
  pose proof (uv_outer_rt time 1000 start 0 a) as X. cbn [skipn firstn val_of] in X.
  replace (if time then 1 else 0) with (Z.of_nat start) by (subst start; destruct time; reflexivity).
  apply X; auto; lia.
Qed.
End Codeword.

(** A decidable form of the conditions for constant tables. *)
Definition cw_ok (tb : list entry) (j : nat) : bool :=
  match nth_error tb j with
  | None => false
  | Some (sz, c, _) =>
    (0 <=? c) && (c <? 2 ^ sz) && (sz <=? 24) &&
    forallb (fun i => match nth_error tb i with None => false | Some (s, _, _) => (1 <=? s) && (s <=? sz) end) (seq 0 (S j)) &&
    forallb (fun i => match nth_error tb i, nth_error tb (S i) with Some (s, c', _), Some (s2, _, _) =>
       (s <=? s2) && negb (c' =? val_of (firstn (Z.to_nat s) (bits_of (Z.to_nat sz) c))) | _, _ => false end) (seq 0 j)
  end.

Lemma uv_const tb j sz c v rest A (f : res Z -> prog A) : cw_ok tb j = true -> nth_error tb j = Some (sz, c, v) ->
  runA (bind (update_value false tb) f) (bits_of (Z.to_nat sz) c ++ rest) = runA (f (Ok v)) rest.
Proof.
  intros H E. unfold cw_ok in H. rewrite E in H.
  apply andb_prop in H as [H H5]. apply andb_prop in H as [H H4]. apply andb_prop in H as [H H3]. apply andb_prop in H as [H1 H2].
  apply Z.leb_le in H1, H3. apply Z.ltb_lt in H2.
  rewrite forallb_forall in H4, H5.
  assert (S0 : 1 <= sz).
  { specialize (H4 j). rewrite E in H4. assert (X := H4 ltac:(apply in_seq; lia)). apply andb_prop in X as [X _]. apply Z.leb_le in X. exact X. }
  change v with (evalue (sz, c, v)).
  apply (uv_rt tb 0 j) with (e := (sz, c, v)); auto.
  - lia.
  - rewrite bits_of_length. cbn. lia.
  - rewrite val_bits_of; [reflexivity|]. rewrite Z2Nat.id by lia. lia.
  - rewrite bits_of_length. lia.
  - intros i ei Hi Ei. specialize (H4 i). rewrite Ei in H4. assert (X := H4 ltac:(apply in_seq; lia)).
    destruct ei as [[s c'] v']. apply andb_prop in X as [X1 X2]. apply Z.leb_le in X1, X2. cbn. lia.
  - intros i a b Hi Ea Eb. specialize (H5 i). rewrite Ea, Eb in H5. assert (X := H5 ltac:(apply in_seq; lia)).
    destruct a as [[s c'] v'], b as [[s2 c2] v2]. apply andb_prop in X as [X1 X2]. apply Z.leb_le in X1. exact X1.
  - intros i a Hi Ea. specialize (H5 i). rewrite Ea in H5. assert (X := H5 ltac:(apply in_seq; lia)).
    destruct a as [[s c'] v']. destruct (nth_error tb (S i)) as [[[s2 c2] v2]|]; [|discriminate].
    apply andb_prop in X as [_ X]. apply negb_true_iff, Z.eqb_neq in X. exact X.
Qed.
