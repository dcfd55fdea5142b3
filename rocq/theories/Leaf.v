(** * Leaf: what every completed run returns, and how much it consumes

    [leaf p Q]: every run of [p] that ends normally ends with a result in [Q]; nothing is
    claimed about runs that are undefined or leave through [longjmp].
    [exec_ub]: an out-of-bounds access reached on the list of bits is reached by the
    concrete reader. *)

From Coq Require Import ZArith List Lia Bool.
From Verif Require Import Bits BitBuf Prog Asi Wp Wlp Escape Hoa Config.
Import ListNotations.
Open Scope Z_scope.

Fixpoint leaf {A} (p : prog A) (Q : A -> Prop) : Prop :=
  match p with
  | Ret a => Q a
  | Rd n k => forall v, (0 <= n -> 0 <= v < 2 ^ n) -> leaf (k v) Q
  | Peek n k => forall v, (0 <= n -> 0 <= v < 2 ^ n) -> leaf (k v) Q
  | Skip _ k => leaf k Q
  | Avail k => forall c, leaf (k c) Q
  | Throw _ | Undef _ => True
  end.

Theorem exec_leaf {A} (p : prog A) Q : forall s a s',
  leaf p Q -> exec p s = Done (a, s') -> Q a.
Proof.
  induction p as [a|n k IH|n k IH|n k IH|k IH|c|r]; intros s x s' HL H; cbn [exec leaf] in *.
  - inversion H; subst. exact HL.
  - destruct (read_bits n s) as [[v s1]| |] eqn:E; try discriminate.
    eapply IH; [|exact H]. apply HL. intros Hn. eapply read_bits_val; eauto.
  - rewrite show_read in H. destruct (read_bits n s) as [[v s1]| |] eqn:E; try discriminate.
    eapply IH; [|exact H]. apply HL. intros Hn. eapply read_bits_val; eauto.
  - destruct (skip_bits n s) as [s1| |]; try discriminate. eapply IH; eauto.
  - eapply IH; eauto.
  - discriminate.
  - discriminate.
Qed.

Lemma leaf_bind {A B} (p : prog A) (f : A -> prog B) (Q : B -> Prop) :
  leaf p (fun a => leaf (f a) Q) -> leaf (bind p f) Q.
Proof. induction p as [a|n k IH|n k IH|n k IH|k IH|c|r]; cbn [bind leaf]; auto. Qed.

Lemma leaf_mono {A} (p : prog A) (Q R : A -> Prop) :
  (forall a, Q a -> R a) -> leaf p Q -> leaf p R.
Proof. intros QR. induction p as [a|n k IH|n k IH|n k IH|k IH|c|r]; cbn [leaf]; auto. Qed.

Lemma leaf_any {A} (p : prog A) (Q : A -> Prop) : (forall a, Q a) -> leaf p Q.
Proof. intros H. induction p as [a|n k IH|n k IH|n k IH|k IH|c|r]; cbn [leaf]; auto. Qed.

Lemma leaf_conj {A} (p : prog A) (Q R : A -> Prop) :
  leaf p Q -> leaf p R -> leaf p (fun a => Q a /\ R a).
Proof. induction p as [a|n k IH|n k IH|n k IH|k IH|c|r]; cbn [leaf]; auto. Qed.

Lemma leaf_rd n (Q : Z -> Prop) : (forall v, (0 <= n -> 0 <= v < 2 ^ n) -> Q v) -> leaf (rd n) Q.
Proof. intros H v Hv. apply H, Hv. Qed.

Lemma leaf_aset {A} (l : list A) i v (Q : list A -> Prop) :
  (0 <= i < Z.of_nat (length l) -> Q (firstn (Z.to_nat i) l ++ v :: skipn (S (Z.to_nat i)) l)) ->
  leaf (aset l i v) Q.
Proof.
  intros H. unfold aset. destruct (Z.leb_spec 0 i); [|exact I].
  destruct (Z.ltb_spec i (Z.of_nat (length l))); [|exact I]. apply H. lia.
Qed.
Lemma leaf_aget {A} (l : list A) i (Q : A -> Prop) :
  (forall v, 0 <= i -> nth_error l (Z.to_nat i) = Some v -> Q v) -> leaf (aget l i) Q.
Proof.
  intros H. unfold aget. destruct (Z.leb_spec 0 i); [|exact I].
  destruct (nth_error l (Z.to_nat i)) eqn:E; [|exact I]. apply H; auto.
Qed.

Lemma leaf_for {S} (I : S -> Prop) (body : nat -> S -> prog S) (Q : S -> Prop) : forall n i s,
  I s -> (forall j t, I t -> leaf (body j t) I) -> (forall t, I t -> Q t) ->
  leaf (forP n i body s) Q.
Proof.
  induction n as [|n IH]; intros i s HI HB HQ; cbn [forP].
  - apply HQ, HI.
  - apply leaf_bind. eapply leaf_mono; [|apply HB; exact HI]. intros t Ht. apply IH; auto.
Qed.

Lemma leaf_forE {S} (I : nat -> S -> Prop) (J : S -> Prop) (body : nat -> S -> prog (Z * S))
  (Q : Z * S -> Prop) : forall n i s,
  I i s ->
  (forall j t, (i <= j < i + n)%nat -> I j t ->
     leaf (body j t) (fun r => (fst r = 0 -> I (Datatypes.S j) (snd r)) /\ J (snd r))) ->
  (forall t, I (i + n)%nat t -> Q (0, t)) -> (forall e t, e <> 0 -> J t -> Q (e, t)) ->
  leaf (forE n i body s) Q.
Proof.
  induction n as [|n IH]; intros i s HI HB HQ HE; cbn [forE].
  - apply HQ. rewrite Nat.add_0_r. exact HI.
  - apply leaf_bind. eapply leaf_mono; [|apply HB; [lia|exact HI]].
    intros [e t] [H1 H2]. cbn [fst snd] in *. destruct (Z.eqb_spec e 0) as [->|].
    + apply IH; auto.
      * intros j u Hj. apply HB. lia.
      * intros u Hu. apply HQ. replace (i + Datatypes.S n)%nat with (Datatypes.S i + n)%nat by lia. exact Hu.
    + apply HE; auto.
Qed.

Lemma wp_forE {S} (I : nat -> S -> Prop) (J : Z -> S -> Prop) (body : nat -> S -> prog (Z * S))
  (Q : Z * S -> Prop) : forall n i s,
  I i s ->
  (forall j t, (i <= j < i + n)%nat -> I j t ->
     wp (body j t) (fun r => if fst r =? 0 then I (Datatypes.S j) (snd r) else J (fst r) (snd r))) ->
  (forall t, I (i + n)%nat t -> Q (0, t)) -> (forall e t, e <> 0 -> J e t -> Q (e, t)) ->
  wp (forE n i body s) Q.
Proof.
  induction n as [|n IH]; intros i s HI HB HQ HE; cbn [forE].
  - apply HQ. rewrite Nat.add_0_r. exact HI.
  - apply wp_bindi. eapply wp_mono; [|apply HB; [lia|exact HI]].
    intros [e t]. cbn [fst snd]. destruct (Z.eqb_spec e 0) as [->|]; intros H1.
    + apply IH; auto.
      * intros j u Hj. apply HB. lia.
      * intros u Hu. apply HQ. replace (i + Datatypes.S n)%nat with (Datatypes.S i + n)%nat by lia. exact Hu.
    + apply HE; auto.
Qed.

(** ** Undefined behaviour found on bits is real *)
Theorem exec_ub {A} (p : prog A) : forall s r,
  wf s -> r <> UShift -> runA p (rest_bits s) = UB r -> exec p s = UB r.
Proof.
  induction p as [a|n k IH|n k IH|n k IH|k IH|c|u]; intros s r W Hr; cbn [exec runA].
  - discriminate.
  - assert (L := wf_len s W).
    destruct (Z.ltb_spec n 0); [cbn [orb]; congruence|]. destruct (Z.ltb_spec 24 n); [cbn [orb]; congruence|]. cbn [orb].
    destruct (Z.ltb_spec (Z.of_nat (length (rest_bits s))) n); [discriminate|].
    destruct (read_bits_ok n s W) as (s' & E & W' & R & _); try lia.
    { destruct W as (_ & _ & ? & _). lia. }
    rewrite E, <- R. apply IH; auto.
  - assert (L := wf_len s W).
    destruct (Z.ltb_spec n 0); [cbn [orb]; congruence|]. destruct (Z.ltb_spec 24 n); [cbn [orb]; congruence|]. cbn [orb].
    destruct (Z.ltb_spec (Z.of_nat (length (rest_bits s))) n); [discriminate|].
    rewrite show_read.
    destruct (read_bits_ok n s W) as (s' & E & W' & R & _); try lia.
    { destruct W as (_ & _ & ? & _). lia. }
    rewrite E. apply IH; auto.
  - assert (L := wf_len s W).
    destruct (Z.ltb_spec n 0); [congruence|].
    destruct (Z.ltb_spec (Z.of_nat (length (rest_bits s))) n); [discriminate|].
    destruct (skip_bits_ok n s W) as (s' & E & W' & R & _); try lia.
    rewrite E, <- R. apply IH; auto.
  - rewrite (wf_len s W). apply IH; auto.
  - discriminate.
  - congruence.
Qed.

(** ** Consumption: [eats p n] means that every completed run consumes exactly [n] bits. *)
Definition eats {A} (p : prog A) (Q : A -> Z -> Prop) : Prop :=
  forall s a s', 0 <= r_cnt s -> exec p s = Done (a, s') ->
    Q a (r_cnt s - r_cnt s') /\ 0 <= r_cnt s'.

Lemma eats_ret {A} (a : A) (Q : A -> Z -> Prop) : Q a 0 -> eats (Ret a) Q.
Proof. intros H s x s' Hc E. inversion E; subst. rewrite Z.sub_diag. auto. Qed.

Lemma eats_bind {A B} (p : prog A) (f : A -> prog B) (R : A -> Z -> Prop) (Q : B -> Z -> Prop) :
  eats p R -> (forall a n, R a n -> eats (f a) (fun b m => Q b (n + m))) -> eats (bind p f) Q.
Proof.
  intros Hp Hf s b s' Hc E. rewrite exec_bind in E. destruct (exec p s) as [[a s1]| |] eqn:E1; try discriminate.
  destruct (Hp s a s1 Hc E1) as [H1 H2]. destruct (Hf a _ H1 s1 b s' H2 E) as [H3 H4].
  split; [|exact H4]. replace (r_cnt s - r_cnt s') with (r_cnt s - r_cnt s1 + (r_cnt s1 - r_cnt s')) by lia.
  exact H3.
Qed.

Lemma eats_mono {A} (p : prog A) (Q R : A -> Z -> Prop) :
  (forall a n, Q a n -> R a n) -> eats p Q -> eats p R.
Proof. intros H HQ s a s' Hc E. destruct (HQ s a s' Hc E); auto. Qed.

Lemma eats_rd n (Q : Z -> Z -> Prop) :
  0 <= n -> (forall v, 0 <= v < 2 ^ n -> Q v n) -> eats (rd n) Q.
Proof.
  intros Hn H s a s' Hc E. unfold rd in E. cbn [exec] in E.
  destruct (read_bits n s) as [[v s1]| |] eqn:E1; try discriminate. cbn [exec] in E. inversion E; subst.
  split; [|exact (read_bits_cnt _ _ _ _ Hn Hc E1)].
  assert (V := read_bits_val _ _ _ _ Hn E1). apply read_bits_const in E1 as (_ & C & _).
  replace (r_cnt s - r_cnt s') with n by lia. auto.
Qed.

Lemma eats_skip n (Q : unit -> Z -> Prop) : 0 <= n -> Q tt n -> eats (skip n) Q.
Proof.
  intros Hn H s a s' Hc E. unfold skip in E. cbn [exec] in E.
  destruct (skip_bits n s) as [s1| |] eqn:E1; try discriminate. cbn [exec] in E. inversion E; subst.
  split; [|exact (skip_bits_cnt _ _ _ Hn E1)].
  apply skip_bits_const in E1 as (_ & C & _); [|exact Hn].
  replace (r_cnt s - r_cnt s') with n by lia. auto.
Qed.

Lemma eats_aset {A} (l : list A) i v (Q : list A -> Z -> Prop) :
  (forall l', Q l' 0) -> eats (aset l i v) Q.
Proof. intros H. unfold aset. destruct (_ && _); [apply eats_ret; auto|intros s a s' _ E; discriminate]. Qed.
Lemma eats_aget {A} (l : list A) i (Q : A -> Z -> Prop) :
  (forall v, Q v 0) -> eats (aget l i) Q.
Proof.
  intros H. unfold aget. destruct (0 <=? i); [|intros s a s' _ E; discriminate].
  destruct (nth_error _ _); [apply eats_ret; auto|intros s a s' _ E; discriminate].
Qed.

(** Any program whose reads are of non-negative width consumes a non-negative amount. *)
Lemma eats_wlp {A} (p : prog A) (Q : A -> Z -> Prop) :
  wlp p (fun _ => True) -> (forall a n, 0 <= n -> Q a n) -> eats p Q.
Proof.
  intros W H s a s' Hc E. destruct (exec_wlp p _ s a s' W Hc E) as (_ & _ & _ & H3). split; [apply H; lia|lia].
Qed.

Lemma eats_forP {S} (body : nat -> S -> prog S) (w : Z) : forall n i s,
  (forall j t, eats (body j t) (fun _ m => m = w)) ->
  eats (forP n i body s) (fun _ m => m = Z.of_nat n * w).
Proof.
  induction n as [|n IH]; intros i s H; cbn [forP].
  - apply eats_ret. lia.
  - eapply eats_bind; [apply H|]. intros a m ->. eapply eats_mono; [|apply IH, H]. cbn beta. intros; lia.
Qed.
