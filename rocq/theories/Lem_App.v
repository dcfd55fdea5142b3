(** * The input loops of the application: window and termination *)
From Coq Require Import ZArith List Lia Bool.
From Verif Require Import Bits BitBuf App.
Import ListNotations.
Open Scope Z_scope.

Lemma skipn_skipn {A} : forall x y (l : list A), skipn x (skipn y l) = skipn (x + y) l.
Proof.
  intros x y. rewrite Nat.add_comm. revert x. induction y as [|y IH]; intros x l; [reflexivity|].
  destruct l as [|a l]; [rewrite !skipn_nil; reflexivity|]. cbn [skipn Nat.add]. apply IH.
Qed.

Lemma put_some l i v : 0 <= i < blen l -> put l i v = Some (firstn (Z.to_nat i) l ++ v :: skipn (S (Z.to_nat i)) l).
Proof.
  intros H. unfold put. destruct (Z.leb_spec 0 i); [|lia]. destruct (Z.ltb_spec i (blen l)); [|lia]. reflexivity.
Qed.
Lemma put_len l i v m : put l i v = Some m -> blen m = blen l.
Proof.
  unfold put. destruct ((0 <=? i) && (i <? blen l)) eqn:E; [|discriminate]. intros H.
  assert (M : m = firstn (Z.to_nat i) l ++ v :: skipn (S (Z.to_nat i)) l) by congruence. clear H. subst m.
  apply andb_true_iff in E. destruct E as [E1 E2]. apply Z.leb_le in E1. apply Z.ltb_lt in E2. unfold blen in *.
  rewrite app_length, firstn_length_le by lia. change (length (v :: skipn (S (Z.to_nat i)) l)) with (S (length (skipn (S (Z.to_nat i)) l))).
  rewrite skipn_length. lia.
Qed.

Lemma get_byte_nth l i : 0 <= i < blen l -> exists v, get_byte l i = Some v /\ skipn (Z.to_nat i) l = v :: skipn (S (Z.to_nat i)) l.
Proof.
  intros H. unfold get_byte, blen in *. destruct (Z.leb_spec 0 i); [|lia]. destruct (Z.ltb_spec i (Z.of_nat (length l))); [|lia]. cbn [andb].
  destruct (nth_error l (Z.to_nat i)) as [v|] eqn:E.
  - exists v. split; [reflexivity|]. clear - E. revert l E. generalize (Z.to_nat i). induction n; intros [|x l] E; cbn in *; try discriminate.
    + congruence.
    + apply IHn, E.
  - apply nth_error_None in E. lia.
Qed.

Lemma shift_ok : forall n i c mem, 0 <= i -> 0 <= c -> i + c + Z.of_nat n <= blen mem ->
  exists mem', shift n i c mem = Some mem' /\ blen mem' = blen mem /\
    firstn (Z.to_nat i + n) mem' = firstn (Z.to_nat i) mem ++ firstn n (skipn (Z.to_nat (i + c)) mem).
Proof.
  induction n as [|n IH]; intros i c mem Hi Hc HL; cbn [shift].
  - exists mem. split; [reflexivity|]. split; [reflexivity|]. rewrite Nat.add_0_r, firstn_O, app_nil_r. reflexivity.
  - destruct (get_byte_nth mem (i + c) ltac:(lia)) as (v & G & SK). rewrite G, put_some by lia.
    set (m1 := firstn (Z.to_nat i) mem ++ v :: skipn (S (Z.to_nat i)) mem).
    assert (L1 : blen m1 = blen mem) by (apply (put_len mem i v), put_some; lia).
    destruct (IH (i + 1) c m1 ltac:(lia) Hc ltac:(lia)) as (m' & E & L & F). exists m'. split; [exact E|]. split; [lia|].
    assert (LI : length (firstn (Z.to_nat i) mem) = Z.to_nat i) by (apply firstn_length_le; unfold blen in HL; lia).
    replace (Z.to_nat (i + 1)) with (S (Z.to_nat i)) in F by lia.
    replace (Z.to_nat i + S n)%nat with (S (Z.to_nat i) + n)%nat by lia. rewrite F.
    assert (X1 : firstn (S (Z.to_nat i)) m1 = firstn (Z.to_nat i) mem ++ [v]).
    { unfold m1. rewrite firstn_app, LI. replace (S (Z.to_nat i) - Z.to_nat i)%nat with 1%nat by lia.
      rewrite (firstn_all2 (firstn (Z.to_nat i) mem)) by lia. reflexivity. }
    assert (X2 : skipn (Z.to_nat (i + 1 + c)) m1 = skipn (S (Z.to_nat (i + c))) mem).
    { unfold m1. rewrite skipn_app, LI. rewrite skipn_all2 by lia. cbn [app].
      replace (Z.to_nat (i + 1 + c) - Z.to_nat i)%nat with (S (Z.to_nat c)) by lia.
      change (skipn (S (Z.to_nat c)) (v :: skipn (S (Z.to_nat i)) mem)) with (skipn (Z.to_nat c) (skipn (S (Z.to_nat i)) mem)).
      rewrite skipn_skipn. f_equal. lia. }
    rewrite X1, X2, SK, <- app_assoc. reflexivity.
Qed.

(** The buffer holds [size] bytes of the file from position [pos] on. *)
Definition window (N : Z) (file : list Z) (pos : Z) (s : apst) : Prop :=
  blen (ap_mem s) = N /\ 0 <= ap_size s <= N /\ 0 <= pos /\ pos + ap_size s <= blen file /\
  firstn (Z.to_nat (ap_size s)) (ap_mem s) = firstn (Z.to_nat (ap_size s)) (skipn (Z.to_nat pos) file) /\
  ap_file s = skipn (Z.to_nat (pos + ap_size s)) file.

Definition full (N : Z) (file : list Z) (pos : Z) (s : apst) : Prop :=
  window N file pos s /\ ap_size s = Z.min N (blen file - pos).

Lemma skipn_blen (l : list Z) k : 0 <= k <= blen l -> blen (skipn (Z.to_nat k) l) = blen l - k.
Proof. intros H. unfold blen in *. rewrite skipn_length. lia. Qed.

Lemma refill_ok N file pos s : 1 <= N -> window N file pos s -> 0 <= ap_cons s <= ap_size s ->
  exists k s', refill s = Some (k, s') /\ full N file (pos + ap_cons s) s' /\ (k = None -> ap_cons s = 0).
Proof.
  intros HN (W1 & W2 & W3 & W4 & W5 & W6) HC. unfold refill. rewrite W1.
  destruct (Z.ltb_spec 0 (N - (ap_size s - ap_cons s))) as [H|H].
  - destruct (shift_ok (Z.to_nat (ap_size s - ap_cons s)) 0 (ap_cons s) (ap_mem s) ltac:(lia) ltac:(lia) ltac:(lia)) as (m & E & L & F).
    rewrite E. unfold fread. destruct (Z.ltb_spec (ap_size s - ap_cons s) 0); [lia|].
    set (k := Z.min (N - (ap_size s - ap_cons s)) (blen (ap_file s))).
    assert (LF : blen (ap_file s) = blen file - (pos + ap_size s)) by (rewrite W6; apply skipn_blen; lia).
    destruct (Z.ltb_spec (blen m) (ap_size s - ap_cons s + k)); [lia|].
    do 2 eexists. split; [reflexivity|]. split; [|discriminate].
    cbn [Z.to_nat] in F. rewrite firstn_O in F. cbn [app] in F. replace (0 + ap_cons s) with (ap_cons s) in F by lia. cbn [Nat.add] in F.
    set (q := Z.to_nat (ap_size s - ap_cons s)) in *.
    assert (Q : firstn q m = firstn q (skipn (Z.to_nat (pos + ap_cons s)) file)).
    { rewrite F. replace q with (Z.to_nat (ap_size s) - Z.to_nat (ap_cons s))%nat at 1 by lia.
      rewrite <- skipn_firstn_comm, W5, skipn_firstn_comm, skipn_skipn.
      replace (Z.to_nat (ap_size s) - Z.to_nat (ap_cons s))%nat with q by lia. do 2 f_equal. lia. }
    unfold full, window. cbn [ap_mem ap_size ap_file].
    assert (K0 : 0 <= k <= blen (ap_file s)) by (unfold k; pose proof (Zle_0_nat (length (ap_file s))); unfold blen in *; lia).
    assert (S1 : ap_size s - (ap_cons s - k) = Z.of_nat q + k) by lia.
    assert (LQ : length (firstn q m) = q) by (apply firstn_length_le; unfold blen in *; lia).
    assert (LK : length (firstn (Z.to_nat k) (ap_file s)) = Z.to_nat k) by (apply firstn_length_le; unfold blen in *; lia).
    repeat match goal with |- _ /\ _ => split end; try lia.
    + unfold blen in *. rewrite !app_length, LQ, LK, skipn_length. lia.
    + rewrite S1. replace (Z.to_nat (Z.of_nat q + k)) with (q + Z.to_nat k)%nat by lia.
      rewrite app_assoc, firstn_app.
      rewrite firstn_all2 by (rewrite app_length; lia).
      replace (q + Z.to_nat k - length (firstn q m ++ firstn (Z.to_nat k) (ap_file s)))%nat with 0%nat by (rewrite app_length; lia).
      rewrite firstn_O, app_nil_r, Q, W6.
      replace (Z.to_nat (pos + ap_size s)) with (q + Z.to_nat (pos + ap_cons s))%nat by lia.
      rewrite <- (skipn_skipn q (Z.to_nat (pos + ap_cons s)) file).
      generalize (skipn (Z.to_nat (pos + ap_cons s)) file) as l. intros l. clear.
      revert l. induction q as [|q IH]; intros l; cbn [firstn skipn app Nat.add]; [reflexivity|].
      destruct l as [|x l]; [rewrite !firstn_nil; reflexivity|]. cbn [app]. f_equal. apply IH.
    + rewrite W6, skipn_skipn. f_equal. lia.
  - exists None, s. split; [reflexivity|]. assert (ap_cons s = 0) by lia. split; [|auto]. rewrite H0, Z.add_0_r.
    split; [repeat split; auto; lia|]. lia.
Qed.

Lemma presented_ok N file pos s : full N file pos s -> presented s = Some (firstn (Z.to_nat N) (skipn (Z.to_nat pos) file)).
Proof.
  intros ((W1 & W2 & W3 & W4 & W5 & W6) & F). unfold presented. rewrite W1.
  destruct (Z.leb_spec 0 (ap_size s)); [|lia]. destruct (Z.leb_spec (ap_size s) N); [|lia]. cbn [andb]. rewrite W5. f_equal.
  assert (L : blen (skipn (Z.to_nat pos) file) = blen file - pos) by (apply skipn_blen; lia). unfold blen in *.
  destruct (Z.min_spec N (Z.of_nat (length file) - pos)) as [[A B]|[A B]]; rewrite F, B; [reflexivity|].
  rewrite !firstn_all2 by lia. reflexivity.
Qed.

(** ** The trace *)
(** Each call was given the [N] bytes of the file from the place the earlier calls had
    reached; [pos] is where this trace ends. *)
Fixpoint follows (N : Z) (file : list Z) (pos : Z) (t : trace) : Prop :=
  match t with
  | [] => True
  | (bs, used) :: t => bs = firstn (Z.to_nat N) (skipn (Z.to_nat pos) file) /\ follows N file (pos + used) t
  end.
Fixpoint total (t : trace) : Z := match t with [] => 0 | (_, used) :: t => used + total t end.

Lemma total_app t u : total (t ++ u) = total t + total u.
Proof. induction t as [|[b k] t IH]; cbn; lia. Qed.
Lemma follows_app N file : forall t pos bs used, follows N file pos t ->
  bs = firstn (Z.to_nat N) (skipn (Z.to_nat (pos + total t)) file) -> follows N file pos (t ++ [(bs, used)]).
Proof.
  induction t as [|[b k] t IH]; intros pos bs used H E; cbn in *.
  - rewrite Z.add_0_r in E. auto.
  - destruct H as [H1 H2]. split; [exact H1|]. apply IH; [exact H2|]. rewrite E. do 3 f_equal. lia.
Qed.

Section Loops.
  Context {D : Type}.
  Variable init : D -> list Z -> Z * Z * bool * D.
  Variable exec : D -> list Z -> Z * Z * D.
  (** States a decoder keeps to. *)
  Variable inv : D -> Prop.
  Hypothesis Hinit : forall d bs, inv d -> bs <> [] -> let '(_, used, _, d') := init d bs in 1 <= used <= blen bs /\ inv d'.
  Hypothesis Hexec : forall d bs, inv d -> bs <> [] -> let '(_, used, d') := exec d bs in 1 <= used <= blen bs /\ inv d'.

  Lemma full_nonempty N file pos s : 1 <= N -> full N file pos s -> 0 < ap_size s ->
    firstn (Z.to_nat N) (skipn (Z.to_nat pos) file) <> [] /\ blen (firstn (Z.to_nat N) (skipn (Z.to_nat pos) file)) = ap_size s.
  Proof.
    intros HN ((W1 & W2 & W3 & W4 & W5 & W6) & F) H.
    assert (L : blen (skipn (Z.to_nat pos) file) = blen file - pos) by (apply skipn_blen; lia).
    assert (B : blen (firstn (Z.to_nat N) (skipn (Z.to_nat pos) file)) = ap_size s).
    { unfold blen in *. rewrite firstn_length. lia. }
    split; [|exact B]. intros E. rewrite E in B. unfold blen in B. cbn in B. lia.
  Qed.

  Lemma exec_loop_ok N file : 1 <= N -> forall fuel d s t, inv d ->
    follows N file 0 t -> window N file (total t - ap_cons s) s -> 0 <= ap_cons s <= ap_size s ->
    (ap_cons s = 0 -> ap_size s < N) ->
    blen file - total t < Z.of_nat fuel ->
    exists r t', exec_loop exec fuel d s t = (r, t') /\ follows N file 0 t' /\ total t' <= blen file /\
      (exists u, t' = t ++ u /\ Forall (fun e => 1 <= snd e) u) /\
      match r with
      | Finished d' s' => inv d' /\ total t' = blen file
      | GaveUp d' s' => inv d'
      | _ => False
      end.
  Proof.
    intros HN. induction fuel as [|fuel IH]; intros d s t HI HT HW HC H0 HF.
    { exfalso. destruct HW as (W1 & W2 & W3 & W4 & _). lia. }
    cbn [exec_loop]. destruct (refill_ok N file _ s HN HW HC) as (k & s1 & E & FU & K). rewrite E.
    replace (total t - ap_cons s + ap_cons s) with (total t) in FU by lia.
    destruct (Z.leb_spec (ap_size s1) 0) as [HZ|HZ].
    - do 2 eexists. split; [reflexivity|]. split; [exact HT|]. destruct FU as ((W1 & W2 & W3 & W4 & W5 & W6) & F).
      split; [lia|]. split; [exists []; rewrite app_nil_r; split; [reflexivity|constructor]|]. split; [exact HI|]. lia.
    - rewrite (presented_ok _ _ _ _ FU). destruct (full_nonempty _ _ _ _ HN FU HZ) as [NE BL].
      set (bs := firstn (Z.to_nat N) (skipn (Z.to_nat (total t)) file)) in *.
      pose proof (Hexec d bs HI NE) as X. destruct (exec d bs) as [[code used] d'] eqn:EX. destruct X as [X1 X2].
      assert (HT' : follows N file 0 (t ++ [(bs, used)])) by (apply follows_app; [exact HT|rewrite Z.add_0_l; reflexivity]).
      assert (TT : total (t ++ [(bs, used)]) = total t + used) by (rewrite total_app; cbn; lia).
      destruct FU as ((W1 & W2 & W3 & W4 & W5 & W6) & F).
      destruct ((code =? 6145) || (code =? 6146) || (code =? 6147)).
      + do 2 eexists. split; [reflexivity|]. split; [exact HT'|]. split; [lia|]. split; [exists [(bs, used)]; split; [reflexivity|repeat constructor; cbn; lia]|]. exact X2.
      + destruct (IH d' (mkApp (ap_mem s1) (ap_size s1) used (ap_file s1)) (t ++ [(bs, used)]) X2 HT') as (r & t' & R1 & R2 & R3 & (u & R4 & R4') & R5).
        * cbn [ap_cons]. rewrite TT. replace (total t + used - used) with (total t) by lia. unfold window; cbn [ap_mem ap_size ap_file]; repeat match goal with |- _ /\ _ => split end; auto; lia.
        * cbn [ap_cons ap_size]. lia.
        * cbn [ap_cons]. lia.
        * lia.
        * exists r, t'. split; [exact R1|]. split; [exact R2|]. split; [exact R3|]. split; [|exact R5].
          exists ((bs, used) :: u). split; [rewrite R4, <- app_assoc; reflexivity|constructor; [cbn; lia|exact R4']].
  Qed.

  Lemma init_loop_ok N file : 1 <= N -> forall fuel d s err t, inv d ->
    follows N file 0 t -> window N file (total t - ap_cons s) s -> 0 <= ap_cons s <= ap_size s ->
    (ap_cons s = 0 -> ap_size s < N) ->
    blen file - total t < Z.of_nat fuel ->
    exists r t', init_loop init fuel d s err t = (r, t') /\ follows N file 0 t' /\ total t' <= blen file /\
      (exists u, t' = t ++ u /\ Forall (fun e => 1 <= snd e) u) /\
      match r with
      | Ready d' s' => inv d' /\ window N file (total t' - ap_cons s') s' /\ 1 <= ap_cons s' <= ap_size s'
      | GaveUp d' s' => inv d'
      | _ => False
      end.
  Proof.
    intros HN. induction fuel as [|fuel IH]; intros d s err t HI HT HW HC H0 HF.
    { exfalso. destruct HW as (W1 & W2 & W3 & W4 & _). lia. }
    cbn [init_loop]. destruct (refill_ok N file _ s HN HW HC) as (k & s1 & E & FU & K). rewrite E.
    replace (total t - ap_cons s + ap_cons s) with (total t) in FU by lia.
    assert (HK : exists k', k = Some k').
    { destruct k as [k'|]; [eauto|]. exfalso. specialize (K eq_refl). specialize (H0 K).
      unfold refill in E. destruct HW as (W1 & _). rewrite W1 in E.
      destruct (Z.ltb_spec 0 (N - (ap_size s - ap_cons s))); [|lia].
      destruct (shift _ _ _ _) as [m|]; [|discriminate]. destruct (fread _ _ _ _) as [[[a b] c]|]; discriminate. }
    destruct HK as [k' ->]. cbv zeta.
    destruct ((ap_size s1 <=? 0) || ((err =? 4096) && (k' =? 0))) eqn:ST.
    - do 2 eexists. split; [reflexivity|]. split; [exact HT|]. destruct FU as ((W1 & W2 & W3 & W4 & W5 & W6) & F).
      split; [lia|]. split; [exists []; rewrite app_nil_r; split; [reflexivity|constructor]|]. exact HI.
    - apply orb_false_iff in ST. destruct ST as [ST _]. apply Z.leb_gt in ST.
      rewrite (presented_ok _ _ _ _ FU). destruct (full_nonempty _ _ _ _ HN FU ST) as [NE BL].
      set (bs := firstn (Z.to_nat N) (skipn (Z.to_nat (total t)) file)) in *.
      pose proof (Hinit d bs HI NE) as X. destruct (init d bs) as [[[code used] done] d'] eqn:EX. destruct X as [X1 X2].
      assert (HT' : follows N file 0 (t ++ [(bs, used)])) by (apply follows_app; [exact HT|rewrite Z.add_0_l; reflexivity]).
      assert (TT : total (t ++ [(bs, used)]) = total t + used) by (rewrite total_app; cbn; lia).
      destruct FU as ((W1 & W2 & W3 & W4 & W5 & W6) & F).
      assert (WW : window N file (total (t ++ [(bs, used)]) - used) (mkApp (ap_mem s1) (ap_size s1) used (ap_file s1))).
      { rewrite TT. replace (total t + used - used) with (total t) by lia. unfold window; cbn [ap_mem ap_size ap_file]; repeat match goal with |- _ /\ _ => split end; auto; lia. }
      assert (UU : exists u, t ++ [(bs, used)] = t ++ u /\ Forall (fun e : list Z * Z => 1 <= snd e) u).
      { exists [(bs, used)]; split; [reflexivity|repeat constructor; cbn; lia]. }
      destruct ((code =? 4097) || (code =? 4098) || (code =? 4099)).
      + do 2 eexists. split; [reflexivity|]. split; [exact HT'|]. split; [lia|]. split; [exact UU|]. exact X2.
      + destruct done.
        * do 2 eexists. split; [reflexivity|]. split; [exact HT'|]. split; [lia|]. split; [exact UU|].
          split; [exact X2|]. cbn [ap_cons ap_size]. split; [exact WW|lia].
        * destruct (IH d' (mkApp (ap_mem s1) (ap_size s1) used (ap_file s1)) code (t ++ [(bs, used)]) X2 HT' WW) as (r & t' & R1 & R2 & R3 & (u & R4 & R4') & R5).
          -- cbn [ap_cons ap_size]. lia.
          -- cbn [ap_cons]. lia.
          -- lia.
          -- exists r, t'. split; [exact R1|]. split; [exact R2|]. split; [exact R3|]. split; [|exact R5].
             exists ((bs, used) :: u). split; [rewrite R4, <- app_assoc; reflexivity|constructor; [cbn; lia|exact R4']].
  Qed.

  Lemma run_ok d mem file fuel : inv d -> 1 <= blen mem -> blen file < Z.of_nat fuel ->
    exists r t, run init exec fuel d mem file = (r, t) /\ follows (blen mem) file 0 t /\ total t <= blen file /\
      Forall (fun e => 1 <= snd e) t /\
      match r with Finished _ _ => total t = blen file | GaveUp _ _ => True | _ => False end.
  Proof.
    intros HI HN HF. unfold run.
    destruct (init_loop_ok (blen mem) file HN fuel d (mkApp mem 0 0 file) 0 [] HI I) as (r & t & R1 & R2 & R3 & (u & R4 & R4') & R5).
    - cbn. unfold window. cbn. repeat split; auto; try lia; unfold blen; lia.
    - cbn. lia.
    - cbn. lia.
    - cbn. lia.
    - rewrite R1. cbn in R4. subst u. destruct r as [d' s'|d' s'|d' s'| |]; try contradiction.
      + destruct R5 as (R5 & R6 & R7).
        destruct (exec_loop_ok (blen mem) file HN fuel d' s' t R5 R2 R6 ltac:(lia) ltac:(lia)) as (r & t' & S1 & S2 & S3 & (u & S4 & S4') & S5).
        { enough (0 <= total t) by lia. clear - R4'. induction R4' as [|[b k] t H _ IH]; cbn in *; lia. }
        exists r, t'. rewrite S1. split; [reflexivity|]. split; [exact S2|]. split; [exact S3|]. split; [rewrite S4; apply Forall_app; auto|].
        destruct r; try contradiction; auto. apply S5.
      + do 2 eexists. split; [reflexivity|]. auto.
  Qed.
End Loops.

(** ** Calls that consume nothing *)
Lemma init_loop_hangs {D} (init : D -> list Z -> Z * Z * bool * D) N file (d : D) code :
  1 <= N -> 1 <= blen file ->
  (forall bs, bs <> [] -> init d bs = (code, 0, false, d)) ->
  code <> 0x1000 -> code <> 0x1001 -> code <> 0x1002 -> code <> 0x1003 ->
  forall fuel s err t, window N file 0 s -> ap_cons s = 0 -> err <> 0x1000 ->
  fst (init_loop init fuel d s err t) = NoFuel.
Proof.
  intros HN HL HI C0 C1 C2 C3. induction fuel as [|fuel IH]; intros s err t HW HC HE; [reflexivity|].
  cbn [init_loop]. destruct (refill_ok N file 0 s HN HW) as (k & s1 & E & FU & K).
  { rewrite HC. destruct HW as (W1 & W2 & _). lia. }
  rewrite E. rewrite HC in FU. cbn [Z.add] in FU.
  assert (SZ : 0 < ap_size s1) by (destruct FU as (_ & F); lia).
  assert (ST : match k with None => false | Some k => (ap_size s1 <=? 0) || ((err =? 4096) && (k =? 0)) end = false).
  { destruct k; [|reflexivity]. destruct (Z.leb_spec (ap_size s1) 0); [lia|]. destruct (Z.eqb_spec err 4096); [contradiction|]. reflexivity. }
  cbv zeta. rewrite ST, (presented_ok _ _ _ _ FU).
  assert (NE : firstn (Z.to_nat N) (skipn (Z.to_nat 0) file) <> []).
  { cbn [Z.to_nat skipn]. destruct file; [unfold blen in HL; cbn in HL; lia|]. replace (Z.to_nat N) with (S (Z.to_nat (N - 1))) by lia. discriminate. }
  rewrite HI by exact NE.
  destruct (Z.eqb_spec code 4097); [contradiction|]. destruct (Z.eqb_spec code 4098); [contradiction|].
  destruct (Z.eqb_spec code 4099); [contradiction|]. cbn [orb].
  apply IH; [|reflexivity|exact C0]. destruct FU as ((W1 & W2 & W3 & W4 & W5 & W6) & F). unfold window; cbn [ap_mem ap_size ap_file]; repeat match goal with |- _ /\ _ => split end; auto; lia.
Qed.

(** ** Calls that report more than they were given *)
Lemma exec_loop_overrun {D} (exec : D -> list Z -> Z * Z * D) fuel d s t :
  ap_size s < ap_cons s -> 0 < blen (ap_mem s) -> exec_loop exec (S fuel) d s t = (Undefined, t).
Proof.
  intros H L. cbn [exec_loop]. unfold refill. destruct (Z.ltb_spec 0 (blen (ap_mem s) - (ap_size s - ap_cons s))); [|lia].
  replace (Z.to_nat (ap_size s - ap_cons s)) with 0%nat by lia. cbn [shift]. unfold fread.
  destruct (Z.ltb_spec (ap_size s - ap_cons s) 0); [reflexivity|lia].
Qed.
Lemma init_loop_overrun {D} (init : D -> list Z -> Z * Z * bool * D) fuel d s err t :
  ap_size s < ap_cons s -> 0 < blen (ap_mem s) -> init_loop init (S fuel) d s err t = (Undefined, t).
Proof.
  intros H L. cbn [init_loop]. unfold refill. destruct (Z.ltb_spec 0 (blen (ap_mem s) - (ap_size s - ap_cons s))); [|lia].
  replace (Z.to_nat (ap_size s - ap_cons s)) with 0%nat by lia. cbn [shift]. unfold fread.
  destruct (Z.ltb_spec (ap_size s - ap_cons s) 0); [reflexivity|lia].
Qed.

Lemma run_hangs {D} (init : D -> list Z -> Z * Z * bool * D) exec (d : D) code mem file fuel :
  1 <= blen mem -> 1 <= blen file ->
  (forall bs, bs <> [] -> init d bs = (code, 0, false, d)) ->
  code <> 0x1000 -> code <> 0x1001 -> code <> 0x1002 -> code <> 0x1003 ->
  fst (run init exec fuel d mem file) = NoFuel.
Proof.
  intros HN HL HI C0 C1 C2 C3.
  pose proof (init_loop_hangs init (blen mem) file d code HN HL HI C0 C1 C2 C3 fuel (mkApp mem 0 0 file) 0 []) as X.
  unfold run. destruct (init_loop init fuel d (mkApp mem 0 0 file) 0 []) as [r t]. cbn in X.
  rewrite X; [reflexivity| |reflexivity|discriminate]. unfold window. cbn. unfold blen in *. repeat split; auto; lia.
Qed.

Lemma run_overrun {D} (init : D -> list Z -> Z * Z * bool * D) exec (d d' : D) code used done mem file fuel :
  1 <= blen file <= blen mem -> init d file = (code, used, done, d') -> blen file < used ->
  code <> 0x1001 -> code <> 0x1002 -> code <> 0x1003 ->
  fst (run init exec (S (S fuel)) d mem file) = Undefined.
Proof.
  intros HL HI HU C1 C2 C3. unfold run.
  assert (HW : window (blen mem) file 0 (mkApp mem 0 0 file)).
  { unfold window. cbn. unfold blen in *. repeat split; auto; lia. }
  destruct (refill_ok (blen mem) file 0 (mkApp mem 0 0 file) ltac:(lia) HW) as (k & s1 & E & FU & K); [cbn; lia|].
  set (n := S fuel). cbn [init_loop]. rewrite E. cbn [ap_cons Z.add] in FU.
  assert (SZ : ap_size s1 = blen file) by (destruct FU as (_ & F); lia).
  assert (MM : blen (ap_mem s1) = blen mem) by apply FU.
  assert (ST : match k with None => false | Some k => (ap_size s1 <=? 0) || ((0 =? 4096) && (k =? 0)) end = false).
  { destruct k; [|reflexivity]. destruct (Z.leb_spec (ap_size s1) 0); [lia|]. reflexivity. }
  cbv zeta. rewrite ST, (presented_ok _ _ _ _ FU).
  assert (X : firstn (Z.to_nat (blen mem)) (skipn (Z.to_nat 0) file) = file).
  { cbn [Z.to_nat skipn]. apply firstn_all2. unfold blen in *. lia. }
  rewrite X, HI.
  destruct (Z.eqb_spec code 4097); [contradiction|]. destruct (Z.eqb_spec code 4098); [contradiction|].
  destruct (Z.eqb_spec code 4099); [contradiction|]. cbn [orb]. unfold n. destruct done.
  - rewrite exec_loop_overrun by (cbn; lia). reflexivity.
  - rewrite init_loop_overrun by (cbn; lia). reflexivity.
Qed.
