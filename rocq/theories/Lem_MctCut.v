(** * Lem_MctCut: when a codeword can be cut off by the end of the payload *)

From Coq Require Import ZArith List Lia Bool Ascii String.
From Verif Require Import Bits BitBuf Prog Wp Loops Escape Config Leaf Mct Spec_Mct Lem_MctHuff Lem_MctBand Lem_MctBox Lem_MctRT Lem_MctSafe.
Import ListNotations.
Open Scope list_scope.
Open Scope Z_scope.

(** ** The code tables are complete *)
Definition after (b : bool) (ws : list (list bool)) : list (list bool) :=
  flat_map (fun w => match w with x :: r => if Bool.eqb x b then [r] else [] | [] => [] end) ws.

Fixpoint covers (d : nat) (ws : list (list bool)) : bool :=
  existsb (fun w => match w with [] => true | _ => false end) ws ||
  match d with O => false | S d => covers d (after true ws) && covers d (after false ws) end.

Lemma covers_word d : forall ws l, covers d ws = true -> (d <= len l)%nat -> exists w r, In w ws /\ l = w ++ r.
Proof.
  induction d as [|d IH]; intros ws l C H; cbn [covers] in C; apply orb_true_iff in C; destruct C as [C|C]; try discriminate;
    try (apply existsb_exists in C; destruct C as (w & I & E); destruct w; [|discriminate]; exists [], l; split; [exact I|reflexivity]).
  destruct l as [|b l]; [cbn in H; lia|]. cbn [List.length] in H. apply andb_true_iff in C. destruct C as [C1 C2].
  assert (X : exists w r, In w (after b ws) /\ l = w ++ r) by (destruct b; apply IH; auto; lia).
  destruct X as (w & r & I & ->). unfold after in I. apply in_flat_map in I. destruct I as (v & V1 & V2).
  destruct v as [|x v]; [destruct V2|]. destruct (Bool.eqb x b) eqn:E; [|destruct V2]. apply Bool.eqb_prop in E. subst x.
  destruct V2 as [->|[]]. exists (b :: w), r. split; [exact V1|reflexivity].
Qed.

Lemma angle_full : covers 19 (map word_of tab_angle) = true.
Proof. vm_compute. reflexivity. Qed.
Lemma scf_full : covers 19 (map word_of tab_scf) = true.
Proof. vm_compute. reflexivity. Qed.

(** ** Two parsers that agree unless the payload is nearly used up *)
Definition near {A} (p q : prog A) : Prop :=
  forall l a l', runA p l = Done (a, l') -> (19 <= len l')%nat -> runA q l = Done (a, l').

Lemma near_refl {A} (p : prog A) : near p p.
Proof. intros l a l' H _. exact H. Qed.

Lemma near_bind {A B} (p q : prog A) (f g : A -> prog B) : near p q -> (forall a, near (f a) (g a)) ->
  near (bind p f) (bind q g).
Proof.
  intros H1 H2 l b l' H L. rewrite runA_bind in *. destruct (runA p l) as [[a l1]|c|r] eqn:E; try discriminate.
  destruct (runA_suffix _ _ _ _ H) as [pre Hp].
  rewrite (H1 l a l1 E); [apply H2; assumption|]. rewrite Hp, app_length. lia.
Qed.

Lemma near_forP {S} (f g : nat -> S -> prog S) : (forall i s, near (f i s) (g i s)) -> forall n i s, near (forP n i f s) (forP n i g s).
Proof. intros H. induction n as [|n IH]; intros i s; cbn [forP]; [apply near_refl|]. apply near_bind; auto. Qed.

Lemma near_forE {S} (f g : nat -> S -> prog (Z * S)) : (forall i s, near (f i s) (g i s)) -> forall n i s, near (forE n i f s) (forE n i g s).
Proof.
  intros H. induction n as [|n IH]; intros i s; cbn [forE]; [apply near_refl|]. apply near_bind; [apply H|].
  intros [e t]. destruct (e =? 0); [apply IH|apply near_refl].
Qed.

Lemma near_huff tab : book_ok tab = true -> covers 19 (map word_of tab) = true -> near (huff tab) (huff_whole tab).
Proof.
  intros B C l i l' H L. unfold huff_whole. rewrite runA_bind, H.
  destruct (runA_suffix _ _ _ _ H) as [pre Hp].
  destruct (covers_word 19 _ l C) as (w & r & Hw & E); [rewrite Hp, app_length; lia|].
  apply in_map_iff in Hw. destruct Hw as (e & <- & He). apply In_nth_error in He. destruct He as [k Hk].
  assert (X := huff_from_ok tab 0 k e (fun i => Ret i) r B Hk). rewrite <- E in X. rewrite runA_bind in X.
  unfold huff in H. rewrite H in X. cbn [runA] in X. injection X as -> _.
  replace (Z.of_nat k <? 0) with false by (symmetry; apply Z.ltb_ge; lia). reflexivity.
Qed.

Local Opaque huff huff_whole tab_angle tab_scf.

Ltac nr := cbv beta zeta; repeat (first [match goal with |- near ?p ?p => apply near_refl end
  | match goal with |- near (huff _) (huff_whole _) => apply near_huff; [assumption|assumption] end
  | match goal with |- near (bind _ _) (bind _ _) => apply near_bind; [|intros ?] end
  | match goal with |- near (forP _ _ _ _) (forP _ _ _ _) => apply near_forP; intros ? ? end
  | match goal with |- near (forE _ _ _ _) (forE _ _ _ _) => apply near_forE; intros ? ? end
  | match goal with |- near (match ?x with _ => _ end) _ => destruct x end ]; cbv beta zeta).

Lemma near_new_full ty last : near (new_full huff ty last) (new_full huff_whole ty last).
Proof.
  assert (A1 := angle_book). assert (A2 := scf_book). assert (A3 := angle_full). assert (A4 := scf_full).
  unfold new_full. nr.
Qed.
Lemma near_new_band ty last : near (new_band huff ty last) (new_band huff_whole ty last).
Proof.
  assert (A1 := angle_book). assert (A2 := scf_book). assert (A3 := angle_full). assert (A4 := scf_full).
  unfold new_band. nr.
Qed.
Lemma near_coefs ty b : near (mc_coefs huff ty b) (mc_coefs huff_whole ty b).
Proof.
  unfold mc_coefs. apply near_bind; [|intros; apply near_refl]. destruct (x_bw b =? 0).
  - unfold full_band. apply near_bind; [apply near_new_full|intros; apply near_refl].
  - unfold band_wise. apply near_bind; [|intros; apply near_refl]. apply near_forP. intros i [[last co] sp]. unfold band_step.
    apply near_bind; [apply near_refl|]. intros ref. apply near_bind; [apply near_refl|]. intros m.
    destruct (0 <? m); [|apply near_refl]. apply near_bind; [apply near_new_band|intros; apply near_refl].
Qed.
Lemma near_box indep sfb st b : near (mc_box huff indep sfb st b) (mc_box huff_whole indep sfb st b).
Proof.
  unfold mc_box. apply near_bind; [apply near_refl|]. intros ff. apply near_bind; [apply near_refl|]. intros [e [c0 c1]]. cbv beta zeta.
  destruct (negb (e =? 0)); [apply near_refl|]. apply near_bind; [apply near_refl|]. intros cm. apply near_bind; [apply near_refl|].
  intros [islong|]; [|apply near_refl].
  do 3 (apply near_bind; [apply near_refl|]; intros ?). destruct (64 <? _); [apply near_refl|].
  do 3 (apply near_bind; [apply near_refl|]; intros ?). destruct (_ && _); [apply near_refl|].
  apply near_bind; [apply near_coefs|intros; apply near_refl].
Qed.
Lemma near_parse indep sfb st : near (mc_parse indep sfb st) (mc_parse_with huff_whole indep sfb st).
Proof.
  unfold mc_parse, mc_parse_with. apply near_bind; [apply near_refl|]. intros [e h]. destruct (negb (e =? 0)); [apply near_refl|].
  apply near_bind; [|intros; apply near_refl]. unfold mc_boxes. apply near_forE. intros i bs. apply near_bind; [apply near_refl|]. intros b.
  apply near_bind; [apply near_box|]. intros [e' b']. apply near_refl.
Qed.

Lemma inv_cut B st : 0 <= B -> inv false B st -> inv true B st.
Proof.
  intros B0 (L & HN & HP & HS & HC & HSN & LM & FC & FB). do 8 (split; [assumption|]).
  assert (V : forall v, val_ok false (t_ptype st) B v -> val_ok true (t_ptype st) B v).
  { unfold val_ok. intros v. destruct (_ =? 0); lia. }
  eapply Forall_impl; [|exact FB]. intros b (A1 & A2 & A3 & A4). split; [exact A1|]. split; [exact A2|].
  split; [apply V, A3|]. intros t v N. apply V, (A4 t v N).
Qed.

(** ** Reading side information never goes wrong *)
Theorem parse_safe indep sfb st B s : 0 <= B -> B + 3904 <= 2 ^ 31 - 200 -> inv true B st -> len sfb = 24%nat -> wf s ->
  match exec (mc_parse indep sfb st) s with
  | Done ((e, st'), s') => e = 0 -> inv true (B + 3904) st' /\ 0 <= t_np st' <= 16
  | Jmp _ => True
  | UB _ => False
  end.
Proof.
  intros B0 BS IV LS W. assert (P := wp_exec _ _ s (wp_parse true huff indep sfb st B reads_huff B0 BS IV LS) W).
  unfold mc_parse. destruct (exec _ s) as [[[e st'] s']| |]; auto. intros ->. destruct P as [P _]. cbn [fst snd] in P.
  destruct (P eq_refl) as (P1 & _ & P3 & _). auto.
Qed.

(** ** ... and its coefficients lie in the tables unless the payload is nearly used up *)
Theorem parse_ready indep sfb st B s st' s' : 0 <= B -> B + 3904 <= 2 ^ 31 - 200 -> inv false B st -> len sfb = 24%nat -> wf s ->
  exec (mc_parse indep sfb st) s = Done ((0, st'), s') -> (19 <= len (rest_bits s'))%nat ->
  inv false (B + 3904) st' /\ ready false (B + 3904) st'.
Proof.
  intros B0 BS IV LS W E L.
  assert (R := exec_refines (mc_parse indep sfb st) s W). rewrite E in R.
  assert (X : runA (mc_parse indep sfb st) (rest_bits s) = Done ((0, st'), rest_bits s')).
  { assert (NU := wp_runA _ _ (wp_parse true huff indep sfb st B reads_huff B0 BS (inv_cut B st B0 IV) LS) (rest_bits s)).
    unfold agrees in R. destruct (runA _ _) as [[x l]|c|r]; [|discriminate|].
    - destruct R as (s1 & R1 & _ & R2). injection R1 as <- <-. rewrite R2. reflexivity.
    - cbv beta iota in NU. destruct NU. }
  assert (Y := near_parse _ _ _ _ _ _ X L).
  assert (P := wp_runA _ _ (wp_parse false huff_whole indep sfb st B reads_whole B0 BS IV LS) (rest_bits s)).
  rewrite Y in P. cbv beta iota in P. cbn [fst snd] in P.
  destruct (P eq_refl) as (P1 & P2 & _). auto.
Qed.
