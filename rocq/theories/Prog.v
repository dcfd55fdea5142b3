(** * Prog: parsers as programs over the bit reader

    C parsing functions are embedded as terms of [prog]: the only primitive effects
    are the calls of decoder/ia_core_coder_bitbuffer.c ([Rd], [Skip], [Peek]), looking
    at [cnt_bits] ([Avail]), a [longjmp] ([Throw]) and undefined behaviour ([Undef]).
    - [exec] runs a program on the concrete reader of BitBuf.v;
    - [runA] runs it on a plain list of bits (the specification);
    - [exec_refines] shows that they agree for every program and every buffer. *)

From Coq Require Import ZArith List Lia Bool.
From Verif Require Import Bits BitBuf.
Import ListNotations.
Open Scope Z_scope.

Inductive prog (A : Type) : Type :=
| Ret (a : A)
| Rd (n : Z) (k : Z -> prog A)       (* ia_core_coder_read_bits_buf *)
| Peek (n : Z) (k : Z -> prog A)     (* ia_core_coder_show_bits_buf *)
| Skip (n : Z) (k : prog A)          (* ia_core_coder_skip_bits_buf *)
| Avail (k : Z -> prog A)            (* it_bit_buff->cnt_bits *)
| Throw (code : Z)                   (* longjmp *)
| Undef (r : ubreason).              (* undefined behaviour *)
Arguments Ret {A}. Arguments Rd {A}. Arguments Peek {A}. Arguments Skip {A}.
Arguments Avail {A}. Arguments Throw {A}. Arguments Undef {A}.

Fixpoint bind {A B} (p : prog A) (f : A -> prog B) : prog B :=
  match p with
  | Ret a => f a
  | Rd n k => Rd n (fun v => bind (k v) f)
  | Peek n k => Peek n (fun v => bind (k v) f)
  | Skip n k => Skip n (bind k f)
  | Avail k => Avail (fun c => bind (k c) f)
  | Throw c => Throw c
  | Undef r => Undef r
  end.

Declare Scope prog_scope.
Delimit Scope prog_scope with prog.
Notation "x <- p ;; q" := (bind p (fun x => q))
  (at level 61, p at next level, right associativity) : prog_scope.
Notation "' x <- p ;; q" := (bind p (fun x => q))
  (at level 61, x pattern, p at next level, right associativity) : prog_scope.
Notation "p ;;; q" := (bind p (fun _ => q)) (at level 61, right associativity) : prog_scope.
Open Scope prog_scope.

Definition rd (n : Z) : prog Z := Rd n Ret.
Definition peek (n : Z) : prog Z := Peek n Ret.
Definition skip (n : Z) : prog unit := Skip n (Ret tt).
Definition avail : prog Z := Avail Ret.

(** C functions returning IA_ERRORCODE together with results. *)
Inductive res (A : Type) : Type := Ok (a : A) | Er (code : Z).
Arguments Ok {A}. Arguments Er {A}.

(** Bounded for loop: [body i], [body (i+1)], ..., [n] times. *)
Fixpoint forP {S} (n : nat) (i : nat) (body : nat -> S -> prog S) (s : S) : prog S :=
  match n with
  | O => Ret s
  | Datatypes.S m => s' <- body i s ;; forP m (Datatypes.S i) body s'
  end.

(** Bounded for loop with early return of an error. *)
Fixpoint forR {S} (n : nat) (i : nat) (body : nat -> S -> prog (res S)) (s : S)
  : prog (res S) :=
  match n with
  | O => Ret (Ok s)
  | Datatypes.S m =>
    r <- body i s ;;
    match r with
    | Ok s' => forR m (Datatypes.S i) body s'
    | Er c => Ret (Er c)
    end
  end.

(** Arrays of fixed size: access outside is undefined. *)
Definition aset {A} (l : list A) (i : Z) (v : A) : prog (list A) :=
  if (0 <=? i) && (i <? Z.of_nat (length l))
  then Ret (firstn (Z.to_nat i) l ++ v :: skipn (S (Z.to_nat i)) l)
  else Undef UOob.

Definition aget {A} (l : list A) (i : Z) : prog A :=
  if 0 <=? i then
    match nth_error l (Z.to_nat i) with
    | Some v => Ret v
    | None => Undef UOob
    end
  else Undef UOob.

(** ** Execution on the concrete reader *)
Fixpoint exec {A} (p : prog A) (s : rbuf) : outcome (A * rbuf) :=
  match p with
  | Ret a => Done (a, s)
  | Rd n k => match read_bits n s with
              | Done (v, s') => exec (k v) s' | Jmp c => Jmp c | UB r => UB r end
  | Peek n k => match show_bits n s with
                | Done v => exec (k v) s | Jmp c => Jmp c | UB r => UB r end
  | Skip n k => match skip_bits n s with
                | Done s' => exec k s' | Jmp c => Jmp c | UB r => UB r end
  | Avail k => exec (k (r_cnt s)) s
  | Throw c => Jmp c
  | Undef r => UB r
  end.

(** ** Execution on a list of bits (specification).  Requests the concrete reader
    does not support (more than 24 bits at an arbitrary position, negative counts) are
    undefined. *)
Fixpoint runA {A} (p : prog A) (l : list bool) : outcome (A * list bool) :=
  match p with
  | Ret a => Done (a, l)
  | Rd n k =>
    if (n <? 0) || (24 <? n) then UB UShift
    else if Z.of_nat (length l) <? n then Jmp INSUFFICIENT_INPUT_BYTES
    else runA (k (val_of (firstn (Z.to_nat n) l))) (skipn (Z.to_nat n) l)
  | Peek n k =>
    if (n <? 0) || (24 <? n) then UB UShift
    else if Z.of_nat (length l) <? n then Jmp INSUFFICIENT_INPUT_BYTES
    else runA (k (val_of (firstn (Z.to_nat n) l))) l
  | Skip n k =>
    if n <? 0 then UB UShift
    else if Z.of_nat (length l) <? n then Jmp INSUFFICIENT_INPUT_BYTES
    else runA k (skipn (Z.to_nat n) l)
  | Avail k => runA (k (Z.of_nat (length l))) l
  | Throw c => Jmp c
  | Undef r => UB r
  end.

(** The relation between a concrete and an abstract outcome. *)
Definition agrees {A} (c : outcome (A * rbuf)) (a : outcome (A * list bool)) : Prop :=
  match a with
  | Done (x, l) => exists s', c = Done (x, s') /\ wf s' /\ rest_bits s' = l
  | Jmp e => c = Jmp e
  | UB _ => True
  end.

Lemma wf_len s : wf s -> Z.of_nat (length (rest_bits s)) = r_cnt s.
Proof. intros W. rewrite rest_length by exact W. destruct W as (_ & _ & _ & H & _). lia. Qed.

Theorem exec_refines {A} (p : prog A) : forall s,
  wf s -> agrees (exec p s) (runA p (rest_bits s)).
Proof.
  induction p as [a|n k IH|n k IH|n k IH|k IH|c|r]; intros s W; cbn [exec runA].
  - cbn. eauto.
  - assert (L := wf_len s W).
    destruct (Z.ltb_spec n 0); [exact I|]. destruct (Z.ltb_spec 24 n); [exact I|]. cbn [orb].
    destruct (Z.ltb_spec (Z.of_nat (length (rest_bits s))) n).
    + rewrite read_bits_short by lia. reflexivity.
    + destruct (read_bits_ok n s W) as (s' & E & W' & R & _); try lia.
      { destruct W as (_ & _ & ? & _). lia. }
      rewrite E. rewrite <- R. apply IH, W'.
  - assert (L := wf_len s W).
    destruct (Z.ltb_spec n 0); [exact I|]. destruct (Z.ltb_spec 24 n); [exact I|]. cbn [orb].
    rewrite show_read.
    destruct (Z.ltb_spec (Z.of_nat (length (rest_bits s))) n).
    + rewrite read_bits_short by lia. reflexivity.
    + destruct (read_bits_ok n s W) as (s' & E & W' & R & _); try lia.
      { destruct W as (_ & _ & ? & _). lia. }
      rewrite E. apply IH, W.
  - assert (L := wf_len s W).
    destruct (Z.ltb_spec n 0); [exact I|].
    destruct (Z.ltb_spec (Z.of_nat (length (rest_bits s))) n).
    + rewrite skip_bits_short by lia. reflexivity.
    + destruct (skip_bits_ok n s W) as (s' & E & W' & R & _); try lia.
      rewrite E. rewrite <- R. apply IH, W'.
  - rewrite (wf_len s W). apply IH, W.
  - reflexivity.
  - exact I.
Qed.

(** ** Laws of [runA] *)
Lemma runA_bind {A B} (p : prog A) (f : A -> prog B) : forall l,
  runA (bind p f) l = match runA p l with
                      | Done (a, l') => runA (f a) l'
                      | Jmp c => Jmp c
                      | UB r => UB r
                      end.
Proof.
  induction p as [a|n k IH|n k IH|n k IH|k IH|c|r]; intros l; cbn [bind runA]; auto.
  - destruct ((n <? 0) || (24 <? n)); auto.
    destruct (Z.of_nat (length l) <? n); auto.
  - destruct ((n <? 0) || (24 <? n)); auto.
    destruct (Z.of_nat (length l) <? n); auto.
  - destruct (n <? 0); auto. destruct (Z.of_nat (length l) <? n); auto.
Qed.

Lemma exec_bind {A B} (p : prog A) (f : A -> prog B) : forall s,
  exec (bind p f) s = match exec p s with
                      | Done (a, s') => exec (f a) s'
                      | Jmp c => Jmp c
                      | UB r => UB r
                      end.
Proof.
  induction p as [a|n k IH|n k IH|n k IH|k IH|c|r]; intros s; cbn [bind exec]; auto.
  - destruct (read_bits n s) as [[v s']| |]; auto.
  - destruct (show_bits n s) as [v| |]; auto.
  - destruct (skip_bits n s) as [s'| |]; auto.
Qed.

(** A program never touches bits in front of the ones it consumes: what is left is a
    suffix of the input. *)
Lemma runA_suffix {A} (p : prog A) : forall l a l',
  runA p l = Done (a, l') -> exists pre, l = pre ++ l'.
Proof.
  induction p as [a|n k IH|n k IH|n k IH|k IH|c|r]; intros l x l' H; cbn [runA] in H.
  - inversion H; subst. exists []. reflexivity.
  - destruct ((n <? 0) || (24 <? n)); [discriminate|].
    destruct (Z.of_nat (length l) <? n); [discriminate|].
    apply IH in H as [pre E].
    exists (firstn (Z.to_nat n) l ++ pre). rewrite <- app_assoc, <- E. symmetry. apply firstn_skipn.
  - destruct ((n <? 0) || (24 <? n)); [discriminate|].
    destruct (Z.of_nat (length l) <? n); [discriminate|].
    apply IH in H as [pre E]. eauto.
  - destruct (n <? 0); [discriminate|].
    destruct (Z.of_nat (length l) <? n); [discriminate|].
    apply IHk in H as [pre E] || apply IH in H as [pre E].
    exists (firstn (Z.to_nat n) l ++ pre). rewrite <- app_assoc, <- E. symmetry. apply firstn_skipn.
  - eapply IH; eauto.
  - discriminate.
  - discriminate.
Qed.

(** Reading an encoded field. *)
Lemma runA_rd {A} (n : nat) v (k : Z -> prog A) rest :
  (n <= 24)%nat -> 0 <= v < 2 ^ Z.of_nat n ->
  runA (Rd (Z.of_nat n) k) (bits_of n v ++ rest) = runA (k v) rest.
Proof.
  intros Hn Hv. cbn [runA].
  replace ((Z.of_nat n <? 0) || (24 <? Z.of_nat n)) with false
    by (symmetry; apply orb_false_iff; split; apply Z.ltb_ge; lia).
  rewrite app_length, bits_of_length.
  replace (Z.of_nat (n + length rest) <? Z.of_nat n) with false by (symmetry; apply Z.ltb_ge; lia).
  rewrite Nat2Z.id, firstn_bits_app, skipn_bits_app, val_bits_of by auto. reflexivity.
Qed.

Lemma runA_rdZ {A} (n : Z) v (k : Z -> prog A) rest :
  0 <= n <= 24 -> 0 <= v < 2 ^ n ->
  runA (Rd n k) (bits_of (Z.to_nat n) v ++ rest) = runA (k v) rest.
Proof.
  intros Hn Hv. rewrite <- (Z2Nat.id n) at 1 by lia.
  apply runA_rd; [lia|]. rewrite Z2Nat.id by lia. auto.
Qed.

Lemma runA_skip {A} (k : prog A) pre rest :
  runA (Skip (Z.of_nat (length pre)) k) (pre ++ rest) = runA k rest.
Proof.
  cbn [runA].
  replace (Z.of_nat (length pre) <? 0) with false by (symmetry; apply Z.ltb_ge; lia).
  rewrite app_length.
  replace (Z.of_nat (length pre + length rest) <? Z.of_nat (length pre)) with false
    by (symmetry; apply Z.ltb_ge; lia).
  rewrite Nat2Z.id, skipn_app, skipn_all2, Nat.sub_diag by lia. reflexivity.
Qed.

Lemma runA_rd0 {A} (k : Z -> prog A) l : runA (Rd 0 k) l = runA (k 0) l.
Proof.
  cbn [runA Z.ltb orb Z.compare].
  replace (Z.of_nat (length l) <? 0) with false by (symmetry; apply Z.ltb_ge; lia).
  reflexivity.
Qed.

(** ** Weakest preconditions: no undefined behaviour and a postcondition, for every
    bitstream. *)
Fixpoint wp {A} (p : prog A) (Q : A -> Prop) : Prop :=
  match p with
  | Ret a => Q a
  | Rd n k => 0 <= n <= 24 /\ forall v, 0 <= v < 2 ^ n -> wp (k v) Q
  | Peek n k => 0 <= n <= 24 /\ forall v, 0 <= v < 2 ^ n -> wp (k v) Q
  | Skip n k => 0 <= n /\ wp k Q
  | Avail k => forall c, 0 <= c -> wp (k c) Q
  | Throw _ => True
  | Undef _ => False
  end.

Lemma wp_bind {A B} (p : prog A) (f : A -> prog B) Q :
  wp (bind p f) Q <-> wp p (fun a => wp (f a) Q).
Proof.
  induction p as [a|n k IH|n k IH|n k IH|k IH|c|r]; cbn [bind wp]; try reflexivity.
  - split; intros [H1 H2]; split; auto; intros v Hv; apply IH; auto.
  - split; intros [H1 H2]; split; auto; intros v Hv; apply IH; auto.
  - split; intros [H1 H2]; split; auto; apply IH; auto.
  - split; intros H c Hc; apply IH; auto.
Qed.

Lemma wp_mono {A} (p : prog A) (Q R : A -> Prop) :
  (forall a, Q a -> R a) -> wp p Q -> wp p R.
Proof.
  intros QR. induction p as [a|n k IH|n k IH|n k IH|k IH|c|r]; cbn [wp]; auto.
  - intros [H1 H2]; split; auto.
  - intros [H1 H2]; split; auto.
  - intros [H1 H2]; split; auto.
Qed.

Lemma wp_conj {A} (p : prog A) (Q R : A -> Prop) :
  wp p Q -> wp p R -> wp p (fun a => Q a /\ R a).
Proof.
  induction p as [a|n k IH|n k IH|n k IH|k IH|c|r]; cbn [wp]; auto.
  - intros [H1 H2] [H3 H4]; split; auto.
  - intros [H1 H2] [H3 H4]; split; auto.
  - intros [H1 H2] [H3 H4]; split; auto.
Qed.

Lemma wp_runA {A} (p : prog A) Q : wp p Q -> forall l,
  match runA p l with Done (a, _) => Q a | Jmp _ => True | UB _ => False end.
Proof.
  induction p as [a|n k IH|n k IH|n k IH|k IH|c|r]; cbn [wp runA]; intros H l; auto.
  - destruct H as [Hn H].
    replace ((n <? 0) || (24 <? n)) with false
      by (symmetry; apply orb_false_iff; split; apply Z.ltb_ge; lia).
    destruct (Z.ltb_spec (Z.of_nat (length l)) n); auto.
    apply IH, H.
    assert (R := val_of_range (firstn (Z.to_nat n) l)). rewrite firstn_length in R.
    replace (Z.of_nat (Nat.min (Z.to_nat n) (length l))) with n in R by lia. exact R.
  - destruct H as [Hn H].
    replace ((n <? 0) || (24 <? n)) with false
      by (symmetry; apply orb_false_iff; split; apply Z.ltb_ge; lia).
    destruct (Z.ltb_spec (Z.of_nat (length l)) n); auto.
    apply IH, H.
    assert (R := val_of_range (firstn (Z.to_nat n) l)). rewrite firstn_length in R.
    replace (Z.of_nat (Nat.min (Z.to_nat n) (length l))) with n in R by lia. exact R.
  - destruct H as [Hn H].
    replace (n <? 0) with false by (symmetry; apply Z.ltb_ge; lia).
    destruct (Z.of_nat (length l) <? n); [exact I|apply IH, H].
  - apply IH, H. lia.
Qed.

(** Transport to the concrete reader: for every well-formed buffer, a program with
    [wp p Q] has no undefined behaviour, leaves a well-formed buffer and a result
    satisfying [Q], or leaves through the error path. *)
Theorem wp_exec {A} (p : prog A) Q s :
  wp p Q -> wf s ->
  match exec p s with
  | Done (a, s') => Q a /\ wf s' /\ (exists pre, rest_bits s = pre ++ rest_bits s')
  | Jmp _ => True
  | UB _ => False
  end.
Proof.
  intros HW W. assert (A1 := exec_refines p s W). assert (A2 := wp_runA p Q HW (rest_bits s)).
  unfold agrees in A1. destruct (runA p (rest_bits s)) as [[a l]|c|r] eqn:E.
  - destruct A1 as (s' & -> & W' & R). rewrite R. repeat split; auto; try apply W'.
    eapply runA_suffix; eauto.
  - rewrite A1. exact I.
  - contradiction.
Qed.

Lemma wp_for {S} (I : nat -> S -> Prop) (body : nat -> S -> prog S) (Q : S -> Prop) : forall n i s,
  I i s ->
  (forall j t, (i <= j < i + n)%nat -> I j t -> wp (body j t) (I (Datatypes.S j))) ->
  (forall t, I (i + n)%nat t -> Q t) ->
  wp (forP n i body s) Q.
Proof.
  induction n as [|n IH]; intros i s HI HB HQ; cbn [forP].
  - cbn [wp]. apply HQ. rewrite Nat.add_0_r. exact HI.
  - apply wp_bind. eapply wp_mono; [|apply HB; [lia|exact HI]].
    intros t Ht. apply IH; auto.
    + intros j u Hj. apply HB. lia.
    + intros u Hu. apply HQ. replace (i + Datatypes.S n)%nat with (Datatypes.S i + n)%nat by lia. exact Hu.
Qed.

Lemma wp_forR {S} (I : nat -> S -> Prop) (E : Z -> Prop) (body : nat -> S -> prog (res S)) (Q : res S -> Prop) :
  forall n i s,
  I i s ->
  (forall j t, (i <= j < i + n)%nat -> I j t ->
     wp (body j t) (fun r => match r with Ok u => I (Datatypes.S j) u | Er c => E c end)) ->
  (forall t, I (i + n)%nat t -> Q (Ok t)) -> (forall c, E c -> Q (Er c)) ->
  wp (forR n i body s) Q.
Proof.
  induction n as [|n IH]; intros i s HI HB HQ HE; cbn [forR].
  - cbn [wp]. apply HQ. rewrite Nat.add_0_r. exact HI.
  - apply wp_bind. eapply wp_mono; [|apply HB; [lia|exact HI]].
    intros [t|c] Ht.
    + apply IH; auto.
      * intros j u Hj. apply HB. lia.
      * intros u Hu. apply HQ. replace (i + Datatypes.S n)%nat with (Datatypes.S i + n)%nat by lia. exact Hu.
    + cbn [wp]. apply HE, Ht.
Qed.

Lemma wp_aset {A} (l : list A) i v (Q : list A -> Prop) :
  0 <= i < Z.of_nat (length l) ->
  Q (firstn (Z.to_nat i) l ++ v :: skipn (S (Z.to_nat i)) l) ->
  wp (aset l i v) Q.
Proof.
  intros Hi HQ. unfold aset.
  replace ((0 <=? i) && (i <? Z.of_nat (length l))) with true
    by (symmetry; apply andb_true_intro; split; [apply Z.leb_le|apply Z.ltb_lt]; lia).
  exact HQ.
Qed.

Lemma wp_aget {A} (l : list A) i (Q : A -> Prop) :
  0 <= i < Z.of_nat (length l) -> (forall v, nth_error l (Z.to_nat i) = Some v -> Q v) ->
  wp (aget l i) Q.
Proof.
  intros Hi HQ. unfold aget.
  replace (0 <=? i) with true by (symmetry; apply Z.leb_le; lia).
  destruct (nth_error l (Z.to_nat i)) eqn:E; [apply HQ; auto|].
  apply nth_error_None in E. lia.
Qed.

Lemma aset_length {A} (l : list A) i v :
  0 <= i < Z.of_nat (length l) ->
  length (firstn (Z.to_nat i) l ++ v :: skipn (S (Z.to_nat i)) l) = length l.
Proof.
  intros H. rewrite app_length, firstn_length. cbn [length]. rewrite skipn_length. lia.
Qed.

Lemma aset_app {A} (done : list A) x rest v :
  firstn (length done) (done ++ x :: rest) ++ v :: skipn (S (length done)) (done ++ x :: rest)
  = done ++ v :: rest.
Proof.
  rewrite firstn_app, Nat.sub_diag, firstn_all. cbn [firstn]. rewrite app_nil_r.
  f_equal. f_equal. rewrite skipn_app. rewrite skipn_all2 by lia. cbn [app].
  replace (S (length done) - length done)%nat with 1%nat by lia. reflexivity.
Qed.

Lemma Forall_aset {A} (P : A -> Prop) (l : list A) i v :
  Forall P l -> P v -> Forall P (firstn i l ++ v :: skipn (S i) l).
Proof.
  intros Hl Hv. apply Forall_app. split; [|constructor; auto].
  - rewrite <- (firstn_skipn i l) in Hl. apply Forall_app in Hl. tauto.
  - rewrite <- (firstn_skipn (S i) l) in Hl. apply Forall_app in Hl. tauto.
Qed.

(** ** Facts about the concrete reader for all programs *)

(** [supported p]: on every path, reads and peeks ask for 0..24 bits and skips for a
    non-negative number.  Nothing is required where the program itself is undefined. *)
Fixpoint supported {A} (p : prog A) : Prop :=
  match p with
  | Ret _ => True
  | Rd n k => 0 <= n <= 24 /\ forall v, 0 <= v < 2 ^ n -> supported (k v)
  | Peek n k => 0 <= n <= 24 /\ forall v, 0 <= v < 2 ^ n -> supported (k v)
  | Skip n k => 0 <= n /\ supported k
  | Avail k => forall c, 0 <= c -> supported (k c)
  | Throw _ => True
  | Undef _ => True
  end.

Lemma wp_supported {A} (p : prog A) Q : wp p Q -> supported p.
Proof.
  induction p as [a|n k IH|n k IH|n k IH|k IH|c|r]; cbn [wp supported]; auto.
  - intros [? ?]; split; auto.
  - intros [? ?]; split; auto.
  - intros [? ?]; split; auto.
Qed.

Lemma val_firstn_range n l :
  0 <= n -> n <= Z.of_nat (length l) -> 0 <= val_of (firstn (Z.to_nat n) l) < 2 ^ n.
Proof.
  intros H1 H2. assert (R := val_of_range (firstn (Z.to_nat n) l)). rewrite firstn_length in R.
  replace (Z.of_nat (Nat.min (Z.to_nat n) (length l))) with n in R by lia. exact R.
Qed.

(** For supported programs the only undefined behaviour of the concrete execution is
    the one the program itself asks for. *)
Theorem exec_supported {A} (p : prog A) : forall s r,
  supported p -> wf s -> exec p s = UB r -> runA p (rest_bits s) = UB r.
Proof.
  induction p as [a|n k IH|n k IH|n k IH|k IH|c|r]; intros s r0 HS W H; cbn [exec runA supported] in *.
  - discriminate.
  - destruct HS as [Hn HS]. assert (L := wf_len s W).
    replace ((n <? 0) || (24 <? n)) with false
      by (symmetry; apply orb_false_iff; split; apply Z.ltb_ge; lia).
    destruct (Z.ltb_spec (Z.of_nat (length (rest_bits s))) n).
    + rewrite read_bits_short in H by lia. discriminate.
    + destruct (read_bits_ok n s W) as (s' & E & W' & R & _); try lia.
      { destruct W as (_ & _ & ? & _). lia. }
      rewrite E in H. rewrite <- R. apply IH; auto. apply HS, val_firstn_range; lia.
  - destruct HS as [Hn HS]. assert (L := wf_len s W).
    replace ((n <? 0) || (24 <? n)) with false
      by (symmetry; apply orb_false_iff; split; apply Z.ltb_ge; lia).
    rewrite show_read in H.
    destruct (Z.ltb_spec (Z.of_nat (length (rest_bits s))) n).
    + rewrite read_bits_short in H by lia. discriminate.
    + destruct (read_bits_ok n s W) as (s' & E & W' & R & _); try lia.
      { destruct W as (_ & _ & ? & _). lia. }
      rewrite E in H. apply IH; auto. apply HS, val_firstn_range; lia.
  - destruct HS as [Hn HS]. assert (L := wf_len s W).
    replace (n <? 0) with false by (symmetry; apply Z.ltb_ge; lia).
    destruct (Z.ltb_spec (Z.of_nat (length (rest_bits s))) n).
    + rewrite skip_bits_short in H by lia. discriminate.
    + destruct (skip_bits_ok n s W) as (s' & E & W' & R & _); try lia.
      rewrite E in H. rewrite <- R. apply IH; auto.
  - rewrite (wf_len s W). apply IH; auto. apply HS. destruct W as (_ & _ & _ & ? & _). lia.
  - discriminate.
  - congruence.
Qed.

Lemma rd_loop_const fuel d : forall ptr pos v ptr' pos' v',
  rd_loop fuel d ptr pos v = Done (ptr', pos', v') -> 8 * ptr' - pos' = 8 * ptr - pos.
Proof.
  induction fuel as [|f IH]; intros ptr pos v ptr' pos' v' H; cbn [rd_loop] in H;
    destruct (pos <? -1); try discriminate; try (inversion H; subst; lia).
  destruct (get_byte d (ptr + 1)); [|discriminate]. apply IH in H. lia.
Qed.

Lemma read_bits_const n s v s' :
  read_bits n s = Done (v, s') ->
  r_data s' = r_data s /\ r_cnt s' = r_cnt s - n /\ bitpos s' = bitpos s + n.
Proof.
  unfold read_bits. destruct (Z.eqb_spec n 0) as [->|]; [intros E; inversion E; subst; repeat split; lia|].
  destruct ((r_cnt s <? n) || (r_cnt s <? 0)); [discriminate|].
  unfold rd_core. destruct (get_byte (r_data s) (r_ptr s)); [|discriminate].
  destruct (rd_loop (Z.to_nat n) (r_data s) (r_ptr s) (r_pos s - n) z) as [[[p1 b1] v1]| |] eqn:E;
    try discriminate.
  apply rd_loop_const in E.
  destruct (b1 =? -1).
  - destruct (shl32 _ _); [|discriminate]. destruct (shr32 _ _); [|discriminate].
    intros X; inversion X; subst; unfold bitpos; cbn [r_data r_cnt r_ptr r_pos]; repeat split; lia.
  - destruct (shl32 _ _); [|discriminate]. destruct (shr32 _ _); [|discriminate].
    intros X; inversion X; subst; unfold bitpos; cbn [r_data r_cnt r_ptr r_pos]; repeat split; lia.
Qed.

Lemma skip_bits_const n s s' :
  0 <= n -> skip_bits n s = Done s' ->
  r_data s' = r_data s /\ r_cnt s' = r_cnt s - n /\ bitpos s' = bitpos s + n.
Proof.
  intros Hn. unfold skip_bits.
  destruct ((r_cnt s <? n) || (r_cnt s <? 0)); [discriminate|].
  rewrite Z.rem_mod_nonneg by lia.
  assert (D := Z.div_mod n 8 ltac:(lia)).
  destruct (r_pos s - n mod 8 <? 0).
  - destruct (7 <? r_pos s - n mod 8 + 8); [discriminate|].
    intros X; inversion X; subst; unfold bitpos; cbn [r_data r_cnt r_ptr r_pos]; repeat split; lia.
  - destruct (7 <? r_pos s - n mod 8); [discriminate|].
    intros X; inversion X; subst; unfold bitpos; cbn [r_data r_cnt r_ptr r_pos]; repeat split; lia.
Qed.

(** No program changes the input bytes, and counter plus position is constant. *)
Theorem exec_const {A} (p : prog A) : forall s a s',
  supported p -> wf s -> exec p s = Done (a, s') ->
  r_data s' = r_data s /\ r_cnt s' + bitpos s' = r_cnt s + bitpos s.
Proof.
  induction p as [a|n k IH|n k IH|n k IH|k IH|c|r]; intros s x s' HS W H; cbn [exec supported] in *.
  - inversion H; subst; auto.
  - destruct HS as [Hn HS].
    destruct (Z.le_gt_cases n (r_cnt s)).
    + destruct (read_bits_ok n s W) as (s1 & E & W' & R & D & C); try lia.
      { destruct W as (_ & _ & ? & _). lia. }
      rewrite E in H. apply IH in H; auto.
      * apply read_bits_const in E as (_ & _ & E). destruct H as [H1 H2].
        split; [congruence|]. rewrite H2, E. lia.
      * apply HS, val_firstn_range; rewrite ?(wf_len s W); lia.
    + rewrite read_bits_short in H; [discriminate| |lia]. destruct W as (_ & _ & _ & ? & _). lia.
  - destruct HS as [Hn HS]. rewrite show_read in H.
    destruct (Z.le_gt_cases n (r_cnt s)).
    + destruct (read_bits_ok n s W) as (s1 & E & W' & R & D & C); try lia.
      { destruct W as (_ & _ & ? & _). lia. }
      rewrite E in H. apply IH in H; auto.
      apply HS, val_firstn_range; rewrite ?(wf_len s W); lia.
    + rewrite read_bits_short in H; [discriminate| |lia]. destruct W as (_ & _ & _ & ? & _). lia.
  - destruct HS as [Hn HS].
    destruct (Z.le_gt_cases n (r_cnt s)).
    + destruct (skip_bits_ok n s W) as (s1 & E & W' & R & D & C); try lia.
      rewrite E in H. apply IH in H; auto.
      apply skip_bits_const in E as (_ & _ & E); [|lia]. destruct H as [H1 H2].
      split; [congruence|]. rewrite H2, E. lia.
    + rewrite skip_bits_short in H by lia. discriminate.
  - eapply IH; eauto. apply HS. destruct W as (_ & _ & _ & ? & _). lia.
  - discriminate.
  - discriminate.
Qed.
