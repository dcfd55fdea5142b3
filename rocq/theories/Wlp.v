(** * Wlp: what every completed run satisfies, also for programs that can be undefined

    [wlp p Q]: reads and skips never ask for a negative number of bits, and every run
    that ends normally ends with a result in [Q].  Runs that are undefined or leave
    through [longjmp] are not constrained, except that the model's own loop bounds
    ([UFuel]) are never the reason. *)

From Coq Require Import ZArith List Lia Bool.
From Verif Require Import Bits BitBuf Prog Asi Wp.
Import ListNotations.
Open Scope Z_scope.

Fixpoint wlp {A} (p : prog A) (Q : A -> Prop) : Prop :=
  match p with
  | Ret a => Q a
  | Rd n k => 0 <= n /\ forall v, 0 <= v < 2 ^ n -> wlp (k v) Q
  | Peek n k => 0 <= n /\ forall v, 0 <= v < 2 ^ n -> wlp (k v) Q
  | Skip n k => 0 <= n /\ wlp k Q
  | Avail k => forall c, 0 <= c -> wlp (k c) Q
  | Throw _ => True
  | Undef r => r <> UFuel
  end.

Lemma wlp_bindi {A B} (p : prog A) (f : A -> prog B) (Q : B -> Prop) :
  wlp p (fun a => wlp (f a) Q) -> wlp (bind p f) Q.
Proof.
  induction p as [a|n k IH|n k IH|n k IH|k IH|c|r]; cbn [bind wlp]; auto.
  - intros [H1 H2]; split; auto.
  - intros [H1 H2]; split; auto.
  - intros [H1 H2]; split; auto.
Qed.

Lemma wlp_mono {A} (p : prog A) (Q R : A -> Prop) :
  (forall a, Q a -> R a) -> wlp p Q -> wlp p R.
Proof.
  intros QR. induction p as [a|n k IH|n k IH|n k IH|k IH|c|r]; cbn [wlp]; auto.
  - intros [H1 H2]; split; auto.
  - intros [H1 H2]; split; auto.
  - intros [H1 H2]; split; auto.
Qed.

Lemma wlp_conj {A} (p : prog A) (Q R : A -> Prop) :
  wlp p Q -> wlp p R -> wlp p (fun a => Q a /\ R a).
Proof.
  induction p as [a|n k IH|n k IH|n k IH|k IH|c|r]; cbn [wlp]; auto.
  - intros [H1 H2] [H3 H4]; split; auto.
  - intros [H1 H2] [H3 H4]; split; auto.
  - intros [H1 H2] [H3 H4]; split; auto.
Qed.

Lemma read_bits_val n s v s' : 0 <= n -> read_bits n s = Done (v, s') -> 0 <= v < 2 ^ n.
Proof.
  intros Hn. unfold read_bits. destruct (Z.eqb_spec n 0) as [->|]; [intros E; inversion E; lia|].
  destruct ((r_cnt s <? n) || (r_cnt s <? 0)); [discriminate|].
  unfold rd_core. destruct (get_byte (r_data s) (r_ptr s)); [|discriminate].
  destruct (rd_loop (Z.to_nat n) (r_data s) (r_ptr s) (r_pos s - n) z) as [[[p1 b1] v1]| |]; try discriminate.
  assert (K : forall w o u, shl32 w o = Some u -> 0 <= u < 2 ^ 32).
  { intros w o u. unfold shl32. destruct ((0 <=? o) && (o <? 32)); [|discriminate].
    intros E; inversion E. unfold u32, to_u. apply Z.mod_pos_bound. reflexivity. }
  assert (F : forall u w, 0 <= u < 2 ^ 32 -> shr32 u (32 - n) = Some w -> 0 <= w < 2 ^ n).
  { intros u w Hu. unfold shr32. destruct (Z.leb_spec 0 (32 - n)); [|discriminate].
    destruct (Z.ltb_spec (32 - n) 32); [|discriminate]. cbn [andb]. intros E. assert (E0 : u / 2 ^ (32 - n) = w) by congruence. rewrite <- E0. clear E E0.
    split; [apply Z.div_pos; [apply Hu|apply Z.pow_pos_nonneg; lia]|].
    apply Z.div_lt_upper_bound; [apply Z.pow_pos_nonneg; lia|].
    rewrite <- Z.pow_add_r by lia. replace (32 - n + n) with 32 by lia. apply Hu. }
  destruct (b1 =? -1).
  - destruct (shl32 _ _) eqn:E1; [|discriminate]. destruct (shr32 _ _) eqn:E2; [|discriminate].
    intros X; inversion X; subst. eapply F; [eapply K; exact E1|exact E2].
  - destruct (shl32 _ _) eqn:E1; [|discriminate]. destruct (shr32 _ _) eqn:E2; [|discriminate].
    intros X; inversion X; subst. eapply F; [eapply K; exact E1|exact E2].
Qed.

Lemma read_bits_cnt n s v s' : 0 <= n -> 0 <= r_cnt s -> read_bits n s = Done (v, s') -> 0 <= r_cnt s'.
Proof.
  intros Hn Hc E. assert (C := E). apply read_bits_const in C as (_ & C & _).
  unfold read_bits in E. destruct (Z.eqb_spec n 0); [lia|].
  destruct (Z.ltb_spec (r_cnt s) n); [discriminate|]. lia.
Qed.
Lemma skip_bits_cnt n s s' : 0 <= n -> skip_bits n s = Done s' -> 0 <= r_cnt s'.
Proof.
  intros Hn E. assert (C := E). apply skip_bits_const in C as (_ & C & _); [|exact Hn].
  unfold skip_bits in E. destruct (Z.ltb_spec (r_cnt s) n); [discriminate|]. lia.
Qed.

(** Completed runs of the concrete reader: result in [Q], input untouched, position and
    counter move together and only forward. *)
Theorem exec_wlp {A} (p : prog A) Q : forall s a s',
  wlp p Q -> 0 <= r_cnt s -> exec p s = Done (a, s') ->
  Q a /\ r_data s' = r_data s /\ r_cnt s' + bitpos s' = r_cnt s + bitpos s /\
  0 <= r_cnt s' <= r_cnt s.
Proof.
  induction p as [a|n k IH|n k IH|n k IH|k IH|c|r]; intros s x s' HW H0 H; cbn [exec wlp] in *.
  - inversion H; subst. repeat split; auto; lia.
  - destruct HW as [Hn HW]. destruct (read_bits n s) as [[v s1]| |] eqn:E; try discriminate.
    assert (V := read_bits_val _ _ _ _ Hn E). assert (V2 := read_bits_cnt _ _ _ _ Hn H0 E).
    apply read_bits_const in E as (E1 & E2 & E3).
    apply IH in H as (H1 & H2 & H3 & H4); auto. repeat split; auto; try congruence; lia.
  - destruct HW as [Hn HW]. destruct (show_bits n s) as [v| |] eqn:E; try discriminate.
    rewrite show_read in E. destruct (read_bits n s) as [[w s1]| |] eqn:E'; inversion E; subst.
    assert (V := read_bits_val _ _ _ _ Hn E').
    apply IH in H as (H1 & H2 & H3 & H4); auto.
  - destruct HW as [Hn HW]. destruct (skip_bits n s) as [s1| |] eqn:E; try discriminate.
    assert (V2 := skip_bits_cnt _ _ _ Hn E).
    apply skip_bits_const in E as (E1 & E2 & E3); auto.
    apply IH in H as (H1 & H2 & H3 & H4); auto. repeat split; auto; try congruence; lia.
  - eapply IH; eauto.
  - discriminate.
  - discriminate.
Qed.

Lemma rd_loop_pos fuel d : forall ptr pos v p' b' v',
  pos <= 7 -> rd_loop fuel d ptr pos v = Done (p', b', v') -> -1 <= b' <= 7.
Proof.
  induction fuel as [|f IH]; intros ptr pos v p' b' v' Hp; cbn [rd_loop]; destruct (Z.ltb_spec pos (-1)).
  - discriminate.
  - intros E; inversion E; lia.
  - destruct (get_byte d (ptr + 1)); [|discriminate]. apply IH. lia.
  - intros E; inversion E; lia.
Qed.
Lemma rd_loop_fuel fuel d : forall ptr pos v,
  -1 - pos <= Z.of_nat fuel -> rd_loop fuel d ptr pos v <> UB UFuel.
Proof.
  induction fuel as [|f IH]; intros ptr pos v Hp; cbn [rd_loop]; destruct (Z.ltb_spec pos (-1)); try discriminate.
  - lia.
  - destruct (get_byte d (ptr + 1)); [|discriminate]. apply IH. lia.
Qed.
Lemma read_bits_pos n s : 0 <= n -> 0 <= r_pos s <= 7 ->
  match read_bits n s with
  | Done (_, s') => 0 <= r_pos s' <= 7 | Jmp _ => True | UB r => r <> UFuel end.
Proof.
  intros Hn Hp. unfold read_bits. destruct (n =? 0); [exact Hp|].
  destruct ((r_cnt s <? n) || (r_cnt s <? 0)); [exact I|].
  unfold rd_core. destruct (get_byte (r_data s) (r_ptr s)); [|discriminate].
  pose proof (rd_loop_fuel (Z.to_nat n) (r_data s) (r_ptr s) (r_pos s - n) z ltac:(lia)) as F.
  pose proof (rd_loop_pos (Z.to_nat n) (r_data s) (r_ptr s) (r_pos s - n) z) as P.
  destruct (rd_loop _ _ _ _ _) as [[[p1 b1] v1]|c|r]; [|exact I|congruence].
  specialize (P _ _ _ ltac:(lia) eq_refl).
  destruct (Z.eqb_spec b1 (-1)).
  - destruct (shl32 _ _); [|discriminate]. destruct (shr32 _ _); [|discriminate]. cbn [r_pos]. lia.
  - destruct (shl32 _ _); [|discriminate]. destruct (shr32 _ _); [|discriminate]. cbn [r_pos]. lia.
Qed.
Lemma skip_bits_pos n s : 0 <= n -> 0 <= r_pos s <= 7 ->
  match skip_bits n s with
  | Done s' => 0 <= r_pos s' <= 7 | Jmp _ => True | UB r => r <> UFuel end.
Proof.
  intros Hn Hp. unfold skip_bits. destruct ((r_cnt s <? n) || (r_cnt s <? 0)); [exact I|].
  cbv zeta. pose proof (Z.rem_bound_pos n 8 Hn ltac:(lia)).
  destruct (Z.ltb_spec (r_pos s - Z.rem n 8) 0).
  - destruct (Z.ltb_spec 7 (r_pos s - Z.rem n 8 + 8)); [exact I|]. cbn [r_pos]. lia.
  - destruct (Z.ltb_spec 7 (r_pos s - Z.rem n 8)); [exact I|]. cbn [r_pos]. lia.
Qed.

(** The model's loop bounds never cut a run short. *)
Theorem exec_wlp_nofuel {A} (p : prog A) Q : forall s,
  wlp p Q -> 0 <= r_cnt s -> 0 <= r_pos s <= 7 ->
  match exec p s with
  | Done (_, s') => 0 <= r_pos s' <= 7 | Jmp _ => True | UB r => r <> UFuel end.
Proof.
  induction p as [a|n k IH|n k IH|n k IH|k IH|c|r]; intros s HW H0 Hp; cbn [exec wlp] in *; auto.
  - destruct HW as [Hn HW]. pose proof (read_bits_pos n s Hn Hp) as P.
    destruct (read_bits n s) as [[v s1]| |] eqn:E; auto.
    apply (IH v s1); [exact (HW v (read_bits_val n s v s1 Hn E))|exact (read_bits_cnt n s v s1 Hn H0 E)|exact P].
  - destruct HW as [Hn HW]. pose proof (read_bits_pos n s Hn Hp) as P. rewrite show_read.
    destruct (read_bits n s) as [[v s1]| |] eqn:E; auto.
    apply (IH v s); [exact (HW v (read_bits_val n s v s1 Hn E))|exact H0|exact Hp].
  - destruct HW as [Hn HW]. pose proof (skip_bits_pos n s Hn Hp) as P.
    destruct (skip_bits n s) as [s1| |] eqn:E; auto. apply (IH s1); [exact HW|exact (skip_bits_cnt n s s1 Hn E)|exact P].
  - apply IH; auto.
Qed.

Lemma wp_wlp {A} (p : prog A) Q : wp p Q -> wlp p Q.
Proof.
  induction p as [a|n k IH|n k IH|n k IH|k IH|c|r]; cbn [wp wlp]; auto.
  - intros [H1 H2]; split; [lia|auto].
  - intros [H1 H2]; split; [lia|auto].
  - intros [H1 H2]; split; auto.
Qed.

Lemma wlp_rd n (Q : Z -> Prop) : 0 <= n -> (forall v, 0 <= v < 2 ^ n -> Q v) -> wlp (rd n) Q.
Proof. intros Hn HQ. split; auto. Qed.
Lemma wlp_skip n (Q : unit -> Prop) : 0 <= n -> Q tt -> wlp (skip n) Q.
Proof. intros Hn HQ. split; auto. Qed.
Lemma wlp_avail (Q : Z -> Prop) : (forall c, 0 <= c -> Q c) -> wlp avail Q.
Proof. intros HQ c Hc. apply HQ, Hc. Qed.
Lemma wlp_ret {A} (a : A) (Q : A -> Prop) : Q a -> wlp (Ret a) Q.
Proof. auto. Qed.
Lemma wlp_undef {A} r (Q : A -> Prop) : r <> UFuel -> wlp (Undef r) Q.
Proof. auto. Qed.
Lemma wlp_chk i n (Q : unit -> Prop) : (0 <= i < n -> Q tt) -> wlp (chk i n) Q.
Proof.
  intros H. unfold chk. destruct (Z.leb_spec 0 i); [|discriminate].
  destruct (Z.ltb_spec i n); [|discriminate]. apply H. lia.
Qed.
Lemma wlp_aset {A} (l : list A) i v (Q : list A -> Prop) :
  (0 <= i < Z.of_nat (length l) -> Q (firstn (Z.to_nat i) l ++ v :: skipn (S (Z.to_nat i)) l)) ->
  wlp (aset l i v) Q.
Proof.
  intros H. unfold aset. destruct (Z.leb_spec 0 i); [|discriminate].
  destruct (Z.ltb_spec i (Z.of_nat (length l))); [|discriminate]. apply H. lia.
Qed.
Lemma wlp_aget {A} (l : list A) i (Q : A -> Prop) :
  (forall v, 0 <= i -> nth_error l (Z.to_nat i) = Some v -> Q v) -> wlp (aget l i) Q.
Proof.
  intros H. unfold aget. destruct (Z.leb_spec 0 i); [|discriminate].
  destruct (nth_error l (Z.to_nat i)) eqn:E; [|discriminate]. apply H; auto.
Qed.
Lemma wlp_for {S} (I : S -> Prop) (body : nat -> S -> prog S) (Q : S -> Prop) : forall n i s,
  I s -> (forall j t, I t -> wlp (body j t) I) -> (forall t, I t -> Q t) ->
  wlp (forP n i body s) Q.
Proof.
  induction n as [|n IH]; intros i s HI HB HQ; cbn [forP].
  - apply HQ, HI.
  - apply wlp_bindi. eapply wlp_mono; [|apply HB; exact HI]. intros t Ht. apply IH; auto.
Qed.
Lemma wlp_forR {S} (I : S -> Prop) (body : nat -> S -> prog (res S)) (Q : res S -> Prop) : forall n i s,
  I s -> (forall j t, I t -> wlp (body j t) (fun r => match r with Ok u => I u | Er _ => True end)) ->
  (forall t, I t -> Q (Ok t)) -> (forall c, Q (Er c)) ->
  wlp (forR n i body s) Q.
Proof.
  induction n as [|n IH]; intros i s HI HB HQ HE; cbn [forR].
  - apply HQ, HI.
  - apply wlp_bindi. eapply wlp_mono; [|apply HB; exact HI]. intros [t|c] Ht; [apply IH; auto|apply HE].
Qed.
Lemma wlp_framed {A} len (p : prog (res A)) (Q : res A -> Prop) : wlp p Q -> wlp (framed len p) Q.
Proof.
  intros H. unfold framed. apply wlp_bindi, wlp_avail. intros c0 _.
  apply wlp_bindi. eapply wlp_mono; [|exact H]. intros [a|e] HQ; [|exact HQ].
  apply wlp_bindi, wlp_avail. intros c1 _. apply wlp_bindi.
  destruct (Z.ltb_spec (c0 - c1) (len * 8)).
  - apply wlp_skip; [lia|]. exact HQ.
  - exact HQ.
Qed.

(** When the postcondition does not matter. *)
Lemma wlp_forT {S} (body : nat -> S -> prog S) n i s :
  (forall j t, wlp (body j t) (fun _ => True)) -> wlp (forP n i body s) (fun _ => True).
Proof. intros. apply (wlp_for (fun _ => True)); auto. Qed.
Lemma wlp_forRT {S} (body : nat -> S -> prog (res S)) n i s :
  (forall j t, wlp (body j t) (fun _ => True)) -> wlp (forR n i body s) (fun _ => True).
Proof.
  intros H. apply (wlp_forR (fun _ => True)); auto.
  intros j t _. eapply wlp_mono; [|apply H]. intros [?|?] _; exact I.
Qed.

Ltac wl1 :=
  lazymatch goal with
  | |- wlp (bind _ _) _ => apply wlp_bindi
  | |- wlp (rd ?n) _ =>
      apply wlp_rd; [try lia|];
      let v := fresh "v" in let H := fresh "Hv" in
      intros v H; try (let t := eval vm_compute in (2 ^ n) in change (2 ^ n) with t in H);
      cbv beta
  | |- wlp (Ret _) _ => apply wlp_ret; cbv beta iota
  | |- wlp (Undef _) _ => cbn [wlp]; discriminate
  | |- wlp (chk _ _) _ => apply wlp_chk; intros ?; cbv beta
  | |- wlp (aset _ _ _) _ => apply wlp_aset; intros ?; cbv beta
  | |- wlp (aget _ _) _ => apply wlp_aget; let v := fresh "v" in intros v ? ?; cbv beta
  | |- wlp avail _ => apply wlp_avail; let c := fresh "c" in intros c ?; cbv beta
  | |- wlp (ifnz _ _) _ => unfold ifnz
  | |- wlp (Throw _) _ => exact I
  | |- wlp (if ?c then _ else _) _ => let E := fresh "E" in destruct c eqn:E
  | |- wlp (match ?x with _ => _ end) _ => destruct x
  | |- wlp (let _ := _ in _) _ => cbv zeta
  end.
Ltac wls := repeat wl1.

